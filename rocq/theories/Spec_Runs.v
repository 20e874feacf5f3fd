(** Vocabulary for the number of times a series changes its value. *)
From Coq Require Import List ZArith Reals.
From Verif Require Import Base Model_Float Spec.
Import ListNotations.
Open Scope Z_scope.

(** [changes data k]: there are exactly [k] positions at which the sample differs numerically from the one before. *)
Inductive changes : list f64 -> Z -> Prop :=
| changes_none : changes [] 0
| changes_one x : changes [x] 0
| changes_same x y l k : R64 x = R64 y -> changes (y :: l) k -> changes (x :: y :: l) k
| changes_step x y l k : R64 x <> R64 y -> changes (y :: l) k -> changes (x :: y :: l) (k + 1).
