(** Vocabulary for series with several samples in one second. *)
From Coq Require Import List ZArith Sorting.Sorted.
From Verif Require Import Base Model_Vsri Spec_Segments.
Import ListNotations.
Open Scope Z_scope.

(** Points of one day, none earlier than the one before; few enough for 32-bit arithmetic (86399 * 24854 < 2^31). *)
Definition day_history (ys : list Z) : Prop :=
  StronglySorted Z.le ys /\ Forall (fun y => 0 <= y < 86400) ys /\ Z.of_nat (length ys) <= 24855.

(** [history_segments x ys segs lost]: the points [ys], numbered from [x] on, make the segments [segs], and [lost] of them are not
    counted. A segment starts with a point; points of the same second that follow it at once are ignored (a single one of them is
    counted if nothing else follows); the next, later point sets the period and a run as long as possible follows. *)
Inductive history_segments : Z -> list Z -> list segment -> nat -> Prop :=
| HS_nil x : history_segments x [] [] 0
| HS_alone x y : history_segments x [y] [Seg 0 x y 1] 0
| HS_same x y r : history_segments x (y :: repeat y (S r)) [Seg 0 x y 2] r
| HS_run x y0 r y1 run rest segs lost :
    y0 < y1 -> all_fit (y1 - y0) y0 2 run -> stops (y1 - y0) y0 (2 + Z.of_nat (length run)) rest ->
    history_segments (x + 2 + Z.of_nat (length run)) rest segs lost ->
    history_segments x (y0 :: repeat y0 r ++ y1 :: run ++ rest) (Seg (y1 - y0) x y0 (2 + Z.of_nat (length run)) :: segs) (r + lost).
