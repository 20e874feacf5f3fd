(** Specification vocabulary for the error metrics: exact means over the real numbers the samples denote. *)
From Coq Require Import List ZArith Reals.
From Verif Require Import Base Model_Float Spec.
Import ListNotations.
Open Scope Z_scope.

(** Mean of [f original generated] over the pairs of samples of two series, in exact arithmetic. *)
Definition mean_over (f : R -> R -> R) (original generated : list f64) : R :=
  (fold_right Rplus 0 (map (fun '(o, g) => f (R64 o) (R64 g)) (combine original generated)) / INR (length original))%R.
Definition mean_relative_error : list f64 -> list f64 -> R := mean_over (fun o g => Rabs (g - o) / Rabs o)%R.
Definition mean_absolute_error : list f64 -> list f64 -> R := mean_over (fun o g => Rabs (g - o))%R.
Definition mean_squared_error : list f64 -> list f64 -> R := mean_over (fun o g => (g - o) * (g - o))%R.

(** The original samples are not zero (so that relative errors make sense), the decoded ones are numbers, and the
    mean relative error is at most [b]. *)
Definition relative_error_within (b : R) (original decoded : list f64) : Prop :=
  length decoded = length original /\ Forall (fun o => R64 o <> 0%R) original /\ Forall finite decoded /\
  (mean_relative_error original decoded <= b)%R.

(** Every sample is back up to 0.000006, or up to a relative error of 2^-24. *)
Definition nearly_equal (original decoded : list f64) : Prop :=
  Forall2 (fun o g => finite g /\ (Rabs (R64 g - R64 o) <= 6 / 1000000 \/ Rabs (R64 g - R64 o) <= / IZR (2 ^ 24) * Rabs (R64 o))%R) original decoded.
