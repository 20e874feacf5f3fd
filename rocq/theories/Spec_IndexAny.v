(** Vocabulary of C90: index files in any characters. *)
From Coq Require Import List ZArith.
From Verif Require Import Base Model_Vsri Spec_CsvTable Spec_IndexText Spec_Utf8.
Import ListNotations.
Open Scope Z_scope.

(** [l] is the UTF-8 form of the characters [us]. *)
Definition utf8_of (l us : list Z) : Prop := Forall scalar us /\ l = flat_map encoded us.
(** The characters with Unicode's property White_Space: U+0009..U+000D, U+0020, U+0085, U+00A0, U+1680, U+2000..U+200A, U+2028, U+2029,
    U+202F, U+205F, U+3000. *)
Definition white_space (u : Z) : Prop :=
  9 <= u <= 13 \/ In u [32; 133; 160; 5760; 8232; 8233; 8239; 8287; 12288] \/ 8192 <= u <= 8202.
(** A 32-bit number, decimal, with or without sign, with white space around it. *)
Definition number_chars (us : list Z) (z : Z) : Prop :=
  - 2 ^ 31 <= z < 2 ^ 31 /\ exists a w b, us = a ++ w ++ b /\ Forall white_space a /\ Forall white_space b /\ signed_text 10 w z.
Definition segment_chars (us : list Z) (s : segment) : Prop :=
  exists m x y n, us = m ++ [44] ++ x ++ [44] ++ y ++ [44] ++ n /\
    number_chars m (sg_m s) /\ number_chars x (sg_x s) /\ number_chars y (sg_y s) /\ number_chars n (sg_n s).
Definition number_in (l : list Z) (z : Z) : Prop := exists us, utf8_of l us /\ number_chars us z.
Definition segment_in (l : list Z) (s : segment) : Prop := exists us, utf8_of l us /\ segment_chars us s.
(** An index file. *)
Definition index_file (v : vsri) (bytes : list Z) : Prop :=
  exists ls, lines_text ls bytes /\
  match ls with
  | [] => v = Vsri 0 0 []
  | [a] => number_in a (vs_min v) /\ vs_max v = 0 /\ vs_segs v = []
  | a :: b :: rest => number_in a (vs_min v) /\ number_in b (vs_max v) /\ Forall2 segment_in rest (vs_segs v)
  end.

(** The [k]-th line (from 0) is what the line of an index file must be. *)
Definition right_line (k : nat) (l : list Z) : Prop :=
  match k with O | 1%nat => exists z, number_in l z | _ => exists s, segment_in l s end.
(** The first line that is not right is wrong in the way [P]. *)
Definition first_wrong (P : list Z -> Prop) (bytes : list Z) : Prop :=
  exists before l after, lines_text (before ++ l :: after) bytes /\ P l /\ ~ right_line (length before) l /\
    forall k l', nth_error before k = Some l' -> right_line k l'.
