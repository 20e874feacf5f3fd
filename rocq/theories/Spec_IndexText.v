(** Vocabulary of C34: the texts of an index file. Nothing here mentions how a file is read. *)
From Coq Require Import List ZArith.
From Verif Require Import Base Model_Vsri Spec_CsvTable.
Import ListNotations.
Open Scope Z_scope.

(** Blank characters: tab, line feed, vertical tab, form feed, carriage return (9 to 13) and space (32). *)
Definition blank (l : list Z) : Prop := Forall (fun c => 9 <= c <= 13 \/ c = 32) l.
(** The text of a 32-bit number: decimal with or without sign, with or without leading zeros, blanks around it. *)
Definition number_line (t : list Z) (z : Z) : Prop :=
  - 2 ^ 31 <= z < 2 ^ 31 /\ exists a w b, t = a ++ w ++ b /\ blank a /\ blank b /\ signed_text 10 w z.
(** The text of a segment: four such numbers with commas (44) between them. *)
Definition segment_line (t : list Z) (s : segment) : Prop :=
  exists m x y n, t = m ++ [44] ++ x ++ [44] ++ y ++ [44] ++ n /\
    number_line m (sg_m s) /\ number_line x (sg_x s) /\ number_line y (sg_y s) /\ number_line n (sg_n s).
(** The lines of a file, each ended by a line feed (10); the last line feed may be missing unless the line is empty. *)
Inductive lines_text : list (list Z) -> list Z -> Prop :=
| no_lines : lines_text [] []
| last_line l : l <> [] -> ~ In 10 l -> lines_text [l] l
| more_lines l ls t : ~ In 10 l -> lines_text ls t -> lines_text (l :: ls) (l ++ [10] ++ t).
(** An index file: the first second, the last second, then a line for each segment; missing leading lines count as zero. *)
Definition index_text (v : vsri) (bytes : list Z) : Prop :=
  exists ls, lines_text ls bytes /\
  match ls with
  | [] => v = Vsri 0 0 []
  | [a] => number_line a (vs_min v) /\ vs_max v = 0 /\ vs_segs v = []
  | a :: b :: rest => number_line a (vs_min v) /\ number_line b (vs_max v) /\ Forall2 segment_line rest (vs_segs v)
  end.
