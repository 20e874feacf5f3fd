(** Vocabulary of the VSRI properties; nothing here refers to how the index is built. *)
From Coq Require Import List ZArith Sorting.Sorted.
From Verif Require Import Base Model_Vsri.
Import ListNotations.
Open Scope Z_scope.

(** One day of points, one second resolution, each later than the one before. *)
Definition day_points (ys : list Z) : Prop :=
  StronglySorted Z.lt ys /\ Forall (fun y => 0 <= y < 86400) ys.

(** The index after indexing [ys], one call per point, starting from a new one. *)
Definition index_of (p : profile) (ys : list Z) (v : vsri) : Prop :=
  exists answers, update_all p vsri_new ys = Ok (v, answers).

(** The segments cover the sample numbers from [x] to [n] (excluded) in order, without gap or overlap. *)
Fixpoint tiles (x : Z) (segs : list segment) (n : Z) : Prop :=
  match segs with
  | [] => x = n
  | s :: r => sg_x s = x /\ 1 <= sg_n s /\ tiles (x + sg_n s) r n
  end.

(** Sample number [i] belongs to segment [s]. *)
Definition in_segment (s : segment) (i : Z) : Prop := sg_x s <= i < sg_x s + sg_n s.

(** The last time listed by segment [s]. *)
Definition last_time (s : segment) : Z := sg_y s + sg_m s * (sg_n s - 1).

(** The points a new index accepts: those not below the highest one so far (initially 0). *)
Fixpoint accepted (mx : Z) (ys : list Z) : list Z :=
  match ys with
  | [] => []
  | y :: r => if y <? mx then accepted mx r else y :: accepted y r
  end.
Fixpoint answers_for (mx : Z) (ys : list Z) : list bool :=
  match ys with
  | [] => []
  | y :: r => if y <? mx then false :: answers_for mx r else true :: answers_for y r
  end.
