(** Vocabulary of C85: a series of numbers printed between brackets. *)
From Coq Require Import List ZArith Reals String.
From Verif Require Import Base Model_Float Model_Number Spec Spec_Number.
Import ListNotations.
Open Scope list_scope.
Open Scope Z_scope.

(** The text of one number: what Rust reads it as is that number, down to the sign of zero; a NaN is written NaN. *)
Definition number_shown (x : f64) (t : list Z) : Prop :=
  (fis_nan x = false /\ std_parse t = Some x) \/ (fis_nan x = true /\ t = ascii_text "NaN").
(** The texts one after the other, with a comma and a space in between. *)
Inductive separated : list (list Z) -> list Z -> Prop :=
| separated_none : separated [] []
| separated_one t : separated [t] t
| separated_more t u r s : separated (u :: r) s -> separated (t :: u :: r) (t ++ ascii_text ", " ++ s).
(** [t] shows the numbers: in brackets, in order, no text with a comma in it. *)
Definition series_shown (data : list f64) (t : list Z) : Prop :=
  exists ts s, Forall2 number_shown data ts /\ Forall (fun u => ~ In 44 u) ts /\ separated ts s /\ t = ascii_text "[" ++ s ++ ascii_text "]".
(** One printed line. *)
Definition line_shown (label : list Z) (data : list f64) (out : list Z) : Prop := exists t, series_shown data t /\ ~ In 10 t /\ out = label ++ t ++ [10].

(** Equal numbers; all NaNs are alike. *)
Definition same_number (x y : f64) : Prop := x = y \/ (fis_nan x = true /\ fis_nan y = true).

(** The two notations: digits, a point, digits; and a digit from 1 to 9, perhaps a point and digits, e, an exponent. *)
Definition decimal_notation (t : list Z) : Prop :=
  exists sg a b, t = sg ++ a ++ [46] ++ b /\ (sg = [] \/ sg = [45]) /\ Forall digit a /\ Forall digit b /\ a <> [] /\ b <> [].
Definition scientific_notation (t : list Z) : Prop :=
  exists sg d b x n, t = sg ++ [d] ++ b ++ [101] ++ n /\ (sg = [] \/ sg = [45]) /\ 49 <= d <= 57 /\
    (b = [] \/ exists b', b = 46 :: b' /\ b' <> [] /\ Forall digit b') /\ integer_text x n.
