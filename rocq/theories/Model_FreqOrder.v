(** atsc/src/compressor/fft.rs:65-106: how frequencies are compared. [norm] is [Complex::norm] of the num_complex crate
    (the platform's [hypotf]): an arbitrary function here; what a theorem needs of it is in its statement. *)
From Coq Require Import List ZArith Bool.
From Verif Require Import Base Model_Float Model_Fft.

Section Norm.
Variable norm : c32 -> f32.

(** PartialEq for FrequencyPoint, fft.rs:66-78. *)
Definition freq_eq (a b : freq) : bool := f32_eq (norm (to_complex a)) (norm (to_complex b)).

(** Ord for FrequencyPoint, fft.rs:88-106. *)
Definition freq_cmp (a b : freq) : comparison :=
  if freq_eq a b then Eq
  else if f32_gt (norm (to_complex a)) (norm (to_complex b)) then Gt
  else Lt.

(** PartialOrd for FrequencyPoint, fft.rs:82-86. *)
Definition freq_partial_cmp (a b : freq) : option comparison := Some (freq_cmp a b).
End Norm.
