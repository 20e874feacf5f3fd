(** Vocabulary of C71: CSV text with quoted fields, blank lines and any mixture of line ends; the texts of integers. Nothing here
    mentions how a file is read. *)
From Coq Require Import List ZArith.
From Verif Require Import Base Model_Float Model_Csv Spec_Csv.
Import ListNotations.
Open Scope Z_scope.

(** Quotes (34) are doubled inside a quoted field. *)
Definition doubled (f : text) : text := flat_map (fun c => if c =? 34 then [34; 34] else [c]) f.
(** A field may stand unquoted if it has no comma (44), double quote (34), line feed (10) or carriage return (13). *)
Definition unquoted (f : text) : Prop := Forall (fun c => c <> 44 /\ c <> 34 /\ c <> 10 /\ c <> 13) f.
Definition field_text (f t : text) : Prop := (unquoted f /\ t = f) \/ t = [34] ++ doubled f ++ [34].

(** A row: fields separated by commas (44). *)
Inductive row_of : list text -> text -> Prop :=
| row_one f t : field_text f t -> row_of [f] t
| row_more f t r u : field_text f t -> row_of r u -> row_of (f :: r) (t ++ [44] ++ u).

(** A table: rows ended by a line feed (10) or carriage return (13), blank lines anywhere (a line feed after a carriage return is
    one); the end of the last row may be missing. *)
Inductive table_of : list (list text) -> text -> Prop :=
| table_end : table_of [] []
| table_blank c rows t : c = 10 \/ c = 13 -> table_of rows t -> table_of rows (c :: t)
| table_row r u c rows t : row_of r u -> u <> [] -> c = 10 \/ c = 13 -> table_of rows t -> table_of (r :: rows) (u ++ c :: t)
| table_last r u : row_of r u -> u <> [] -> table_of [r] u.

(** The text does not start with a byte-order mark (EF BB BF), which readers drop. *)
Definition no_mark (t : text) : Prop := forall r, t <> [239; 187; 191] ++ r.

(** The text of an integer: digits, the most significant first ... *)
Definition digit_of (base c d : Z) : Prop :=
  (48 <= c <= 57 /\ d = c - 48) \/ (base = 16 /\ ((97 <= c <= 102 /\ d = 10 + (c - 97)) \/ (65 <= c <= 70 /\ d = 10 + (c - 65)))).
Inductive digits_of (base : Z) : text -> Z -> Prop :=
| digits_one c d : digit_of base c d -> digits_of base [c] d
| digits_more t v c d : digits_of base t v -> digit_of base c d -> digits_of base (t ++ [c]) (v * base + d).
(** ... after a sign (43, 45) or none; hexadecimal after 0x (48, 120); within 64 bits. *)
Definition signed_text (base : Z) (t : text) (z : Z) : Prop :=
  digits_of base t z \/ (exists u, t = 43 :: u /\ digits_of base u z) \/ (exists u v, t = 45 :: u /\ digits_of base u v /\ z = - v).
Definition int_text (t : text) (z : Z) : Prop :=
  - 2 ^ 63 <= z < 2 ^ 63 /\ (signed_text 10 t z \/ exists u, t = 48 :: 120 :: u /\ signed_text 16 u z).

(** [i] is the only column named [n]. *)
Definition only_column (n : text) (headers : list text) (i : nat) : Prop := forall j, nth_error headers j = Some n <-> j = i.
