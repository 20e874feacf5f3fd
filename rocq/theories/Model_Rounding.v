(** The public rounding helpers with their integer power, for every number of decimals. *)
From Coq Require Import List ZArith Bool.
From Verif Require Import Base Model_Float Model_Utils.
Import ListNotations.
Open Scope Z_scope.

(** [10i32.pow(decimals)], atsc/src/utils/mod.rs:62 and :67. The power by repeated squaring panics with overflow
    checks exactly if the result does not fit (no factor is computed that the result does not contain), and
    otherwise wraps; wrapping products are the product modulo 2^32. *)
Definition ten_pow (p : profile) (decimals : Z) : res Z := arith_s p 32 (10 ^ decimals).

(** round_f64, atsc/src/utils/mod.rs:61-64, with the power. *)
Definition round_f64_any (p : profile) (x : f64) (decimals : Z) : res f64 :=
  do n <- ten_pow p decimals;
  let y := int_as_f64 n in Ok (fdiv (fround (fmul x y)) y).

(** round_and_limit_f64, atsc/src/utils/mod.rs:66-74, with the power. *)
Definition round_and_limit_any (p : profile) (x min max : f64) (decimals : Z) : res f64 :=
  do n <- ten_pow p decimals;
  let y := int_as_f64 n in
  let out := fdiv (fround (fmul x y)) y in
  Ok (if flt out min then min else if fgt out max then max else out).
