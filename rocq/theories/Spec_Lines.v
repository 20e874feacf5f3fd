(** Vocabulary for steadily growing (or falling) series. *)
From Coq Require Import List ZArith Reals.
From Flocq Require Import Core.
From Verif Require Import Base Model_Float Spec.
Open Scope Z_scope.

(** The [pos]-th sample is the double nearest to the decimal fraction (k0 + d * pos) / 100000: each sample differs from the one before
    by the same multiple of 0.00001, and no sample exceeds 30 million in magnitude. *)
Definition steady (data : list f64) : Prop :=
  exists k0 d, forall pos x, sample_at data pos x ->
    finite x /\ Z.abs (k0 + d * pos) <= 3 * 10 ^ 12 /\ R64 x = round radix2 (FLT_exp (-1074) 53) ZnearestE (IZR (k0 + d * pos) / 100000)%R.
