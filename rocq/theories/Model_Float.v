(** Rust's f64 / f32 (IEEE-754 binary64 / binary32 with NaN payloads) on top of
    Flocq, and the casts used by /repo. Rust reference: arithmetic is IEEE
    round-to-nearest-even; [as] casts float->int truncate and saturate, NaN -> 0;
    int->float and f64->f32 round to nearest even; [f64::round] rounds half away
    from zero. Simplification: where Rust leaves the payload/sign of a produced NaN
    unspecified, this model fixes Flocq's default choice. *)
From Coq Require Import List ZArith Bool.
From Flocq Require Import IEEE754.BinarySingleNaN IEEE754.Binary IEEE754.Bits.
From Verif Require Import Base.
Import ListNotations.
Open Scope Z_scope.

Definition f64 := binary64.
Definition f32 := binary32.

Lemma prec53_gt_0 : FLX.Prec_gt_0 53. Proof. reflexivity. Qed.
Lemma prec53_lt_emax : Prec_lt_emax 53 1024. Proof. reflexivity. Qed.
Lemma prec24_gt_0 : FLX.Prec_gt_0 24. Proof. reflexivity. Qed.
Lemma prec24_lt_emax : Prec_lt_emax 24 128. Proof. reflexivity. Qed.

(** Arithmetic. *)
Definition fadd : f64 -> f64 -> f64 := b64_plus mode_NE.
Definition fsub : f64 -> f64 -> f64 := b64_minus mode_NE.
Definition fmul : f64 -> f64 -> f64 := b64_mult mode_NE.
Definition fdiv : f64 -> f64 -> f64 := b64_div mode_NE.
Definition fabs : f64 -> f64 := b64_abs.

(** Comparison operators: false as soon as one side is NaN (except !=). *)
Definition fcmp (x y : f64) : option comparison := b64_compare x y.
Definition flt (x y : f64) : bool := match fcmp x y with Some Lt => true | _ => false end.
Definition fgt (x y : f64) : bool := match fcmp x y with Some Gt => true | _ => false end.
Definition feq (x y : f64) : bool := match fcmp x y with Some Eq => true | _ => false end.
Definition fle (x y : f64) : bool :=
  match fcmp x y with Some Lt | Some Eq => true | _ => false end.
Definition fne (x y : f64) : bool := negb (feq x y).

Definition fis_nan (x : f64) : bool := Binary.is_nan 53 1024 x.
Definition fis_finite (x : f64) : bool := Binary.is_finite 53 1024 x.
Definition fis_infinite (x : f64) : bool :=
  match x with B754_infinity _ _ _ => true | _ => false end.

(** f64::to_bits / f64::from_bits. *)
Definition to_bits (x : f64) : Z := bits_of_b64 x.
Definition from_bits (z : Z) : f64 := b64_of_bits z.

(** f64::round: nearest integer, ties away from zero; keeps sign of zero, inf, NaN. *)
Definition fround (x : f64) : f64 :=
  Binary.Bnearbyint 53 1024 prec53_lt_emax unop_nan_pl64 mode_NA x.

(** [x as iN] / [x as uN]: truncate, saturate to [lo,hi], NaN -> 0. *)
Definition f64_as_int (lo hi : Z) (x : f64) : Z :=
  match x with
  | B754_nan _ _ _ _ _ => 0
  | B754_infinity _ _ s => if s then lo else hi
  | B754_zero _ _ _ => 0
  | B754_finite _ _ _ _ _ _ => Z.max lo (Z.min hi (Binary.Btrunc 53 1024 x))
  end.
Definition f64_as_i64 : f64 -> Z := f64_as_int (- 2 ^ 63) (2 ^ 63 - 1).
Definition f64_as_i32 : f64 -> Z := f64_as_int (- 2 ^ 31) (2 ^ 31 - 1).
Definition f64_as_i16 : f64 -> Z := f64_as_int (- 2 ^ 15) (2 ^ 15 - 1).
Definition f64_as_u8 : f64 -> Z := f64_as_int 0 255.
Definition f64_as_usize : f64 -> Z := f64_as_int 0 (2 ^ 64 - 1).

(** [z as f64] for an integer type (round to nearest even; exact below 2^53). *)
Definition int_as_f64 (z : Z) : f64 :=
  Binary.binary_normalize 53 1024 prec53_gt_0 prec53_lt_emax mode_NE z 0 false.
Definition int_as_f32 (z : Z) : f32 :=
  Binary.binary_normalize 24 128 prec24_gt_0 prec24_lt_emax mode_NE z 0 false.

(** [x as f32]. *)
Definition f64_as_f32 (x : f64) : f32 :=
  match x with
  | B754_nan _ _ s _ _ => proj1_sig default_nan_pl32
  | B754_infinity _ _ s => B754_infinity 24 128 s
  | B754_zero _ _ s => B754_zero 24 128 s
  | B754_finite _ _ s m e _ =>
      Binary.binary_normalize 24 128 prec24_gt_0 prec24_lt_emax mode_NE
        (SpecFloat.cond_Zopp s (Zpos m)) e s
  end.
(** [x as f64] for an f32 (exact). *)
Definition f32_as_f64 (x : f32) : f64 :=
  match x with
  | B754_nan _ _ s _ _ => proj1_sig default_nan_pl64
  | B754_infinity _ _ s => B754_infinity 53 1024 s
  | B754_zero _ _ s => B754_zero 53 1024 s
  | B754_finite _ _ s m e _ =>
      Binary.binary_normalize 53 1024 prec53_gt_0 prec53_lt_emax mode_NE
        (SpecFloat.cond_Zopp s (Zpos m)) e s
  end.

Definition f32_mul : f32 -> f32 -> f32 := b32_mult mode_NE.
Definition f32_div : f32 -> f32 -> f32 := b32_div mode_NE.
Definition f32_cmp (x y : f32) : option comparison := b32_compare x y.
Definition f32_eq (x y : f32) : bool := match f32_cmp x y with Some Eq => true | _ => false end.
Definition f32_gt (x y : f32) : bool := match f32_cmp x y with Some Gt => true | _ => false end.
Definition f32_to_bits (x : f32) : Z := bits_of_b32 x.
Definition f32_from_bits (z : Z) : f32 := b32_of_bits z.

Definition f0 : f64 := int_as_f64 0.
Definition f1 : f64 := int_as_f64 1.

(** Iterator::sum::<f64>(): Rust 1.81 (rust-toolchain.toml) folds from 0.0. *)
Definition fsum (l : list f64) : f64 := fold_left fadd l f0.
