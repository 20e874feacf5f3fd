(** Vocabulary of C70: the discrete Fourier transform over the real numbers (no code of /repo is modelled here). *)
From Coq Require Import Reals Arith.
Open Scope R_scope.

(** f 0 + f 1 + ... + f (n-1). *)
Fixpoint sum_to (n : nat) (f : nat -> R) : R := match n with O => 0 | S m => sum_to m f + f m end.

(** The angle of sample [j] and frequency [k] among [n] samples. *)
Definition turn (n j k : nat) : R := 2 * PI * INR (j * k) / INR n.

(** Real and imaginary part of frequency [k] of the series x 0, ..., x (n-1). *)
Definition dft_re (n : nat) (x : nat -> R) (k : nat) : R := sum_to n (fun j => x j * cos (turn n j k)).
Definition dft_im (n : nat) (x : nat -> R) (k : nat) : R := - sum_to n (fun j => x j * sin (turn n j k)).
Definition power (n : nat) (x : nat -> R) (k : nat) : R := dft_re n x k * dft_re n x k + dft_im n x k * dft_im n x k.

(** Frequencies [k] and [n - k] of a real series belong together: the smaller of the two. *)
Definition folded (n k : nat) : nat := Nat.min k (n - k).

(** The series made of the kept frequencies (each together with its partner), *)
Definition partial_sum (n : nat) (x : nat -> R) (kept : nat -> bool) (j : nat) : R :=
  / INR n * sum_to n (fun k => if kept (folded n k) then dft_re n x k * cos (turn n j k) - dft_im n x k * sin (turn n j k) else 0).
(** and the energy of the others. *)
Definition dropped_energy (n : nat) (x : nat -> R) (kept : nat -> bool) : R :=
  / INR n * sum_to n (fun k => if kept (folded n k) then 0 else power n x k).

(** The number of the frequencies 0, ..., n-1 in a choice. *)
Fixpoint count (n : nat) (s : nat -> bool) : nat := match n with O => 0%nat | S m => (count m s + if s m then 1 else 0)%nat end.
