(** Independent specification vocabulary used in the statements of the theorems.
    Nothing here refers to the functions of the model: only to Flocq's meaning of a
    double as a real number, to lists and to integers. *)
From Coq Require Import List ZArith Reals Sorted.
From Flocq Require Import Core IEEE754.Binary.
From Verif Require Import Base Model_Float.
Import ListNotations.
Open Scope Z_scope.

(** The real number denoted by a finite double / single (0 for infinities and NaN). *)
Definition R64 (x : f64) : R := Binary.B2R 53 1024 x.
Definition R32 (x : f32) : R := Binary.B2R 24 128 x.

(** Neither NaN nor an infinity. *)
Definition finite (x : f64) : Prop := fis_finite x = true.

(** [x] is finite and denotes the integer [z]. *)
Definition is_int (x : f64) (z : Z) : Prop := finite x /\ R64 x = IZR z.

(** Numerically equal: two finite doubles denoting the same real number
    (so 0.0 and -0.0 are numerically equal, NaN is not equal to itself). *)
Definition same_value (x y : f64) : Prop := finite x /\ finite y /\ R64 x = R64 y.

(** Two series of the same length, numerically equal sample by sample. *)
Definition same_series : list f64 -> list f64 -> Prop := Forall2 same_value.

(** The range in which the library's analysis of sample values is right: zero, or
    magnitude at least 2^-64, and -2^63 <= x < 2^63. *)
Definition supported (x : f64) : Prop :=
  finite x /\
  (R64 x = 0 \/ bpow radix2 (-64) <= Rabs (R64 x))%R /\
  (IZR (- 2 ^ 63) <= R64 x < IZR (2 ^ 63))%R.

(** [x] is the [i]-th sample of [l], bounds all samples from above (below), and no
    earlier sample has the same value. *)
Definition max_at (l : list f64) (x : f64) (i : nat) : Prop :=
  nth_error l i = Some x /\
  Forall (fun y => (R64 y <= R64 x)%R) l /\
  forall j y, (j < i)%nat -> nth_error l j = Some y -> (R64 y < R64 x)%R.
Definition min_at (l : list f64) (x : f64) (i : nat) : Prop :=
  nth_error l i = Some x /\
  Forall (fun y => (R64 x <= R64 y)%R) l /\
  forall j y, (j < i)%nat -> nth_error l j = Some y -> (R64 x < R64 y)%R.

(** Nearest integer of a real, halves away from zero. *)
Definition nearest_away (r : R) (z : Z) : Prop :=
  (Rabs (r - IZR z) <= / 2)%R /\
  (Rabs (r - IZR z) = / 2 -> Rabs r <= Rabs (IZR z))%R.

(** The positive integers with no prime factor above 3. *)
Definition smooth3 (n : Z) : Prop := exists a b, 0 <= a /\ 0 <= b /\ n = 2 ^ a * 3 ^ b.

Definition power_of_two (n : Z) : Prop := exists k, 0 <= k /\ n = 2 ^ k.

(** [s] is a subsequence of [l]: the samples satisfying [P], in order. *)
Inductive subsequence_of (P : f64 -> Prop) : list f64 -> list f64 -> Prop :=
| sub_nil : subsequence_of P [] []
| sub_keep x l s : P x -> subsequence_of P l s -> subsequence_of P (x :: l) (x :: s)
| sub_drop x l s : ~ P x -> subsequence_of P l s -> subsequence_of P (x :: l) s.

(** [ps] lists, in increasing order, exactly the multiples of [step] in [0, n) and n-1. *)
Definition sampling_grid (n step : Z) (ps : list Z) : Prop :=
  Sorted.StronglySorted Z.lt ps /\
  forall i, In i ps <-> 0 <= i < n /\ ((step | i) \/ i = n - 1).

(** [v] is the sample of [l] at the integer position [p]. *)
Definition sample_at (l : list f64) (p : Z) (v : f64) : Prop :=
  0 <= p /\ nth_error l (Z.to_nat p) = Some v.

(** [x] is the double nearest to a number with at most five decimals (and at most
    about 1.1e10 in magnitude): what parsing a decimal literal such as 12.34567 gives. *)
Definition five_decimals (x : f64) : Prop :=
  finite x /\ exists k, Z.abs k <= 2 ^ 50 /\
    R64 x = round radix2 (FLT_exp (-1074) 53) ZnearestE (IZR k / 100000)%R.

(** [d] is [data] with its first sample repeated [a] times in front and its last sample
    repeated [b] times behind. *)
Definition extended (data d : list f64) (a b : nat) : Prop :=
  exists x y, nth_error data 0 = Some x /\ nth_error data (length data - 1) = Some y /\
    d = repeat x a ++ data ++ repeat y b.

(** [m] is the least number above [n] without a prime factor above 3. *)
Definition least_smooth_above (n m : Z) : Prop :=
  n < m /\ smooth3 m /\ forall k, n < k -> smooth3 k -> m <= k.

(** The frame the Fourier compressor works on: series of at least 128 samples are extended
    evenly on both sides (one more behind if need be) up to the next such number. *)
Definition fft_padded (data d : list f64) (a b : nat) : Prop :=
  extended data d a b /\
  (Z.of_nat (length data) < 128 /\ a = 0%nat /\ b = 0%nat \/
   128 <= Z.of_nat (length data) /\ (a <= b <= a + 1)%nat /\
   least_smooth_above (Z.of_nat (length data)) (Z.of_nat (length d))).
