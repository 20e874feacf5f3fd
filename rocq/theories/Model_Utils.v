(** atsc/src/utils/mod.rs and atsc/src/utils/error.rs. *)
From Coq Require Import List ZArith Bool.
From Verif Require Import Base Model_Float.
Import ListNotations.
Open Scope Z_scope.

(** DECIMAL_PRECISION, atsc/src/utils/mod.rs:21. *)
Definition DECIMAL_PRECISION : Z := 5.

(** u64::leading_zeros on a 64-bit value. *)
Definition leading_zeros64 (n : Z) : Z := if n =? 0 then 64 else 63 - Z.log2 n.

(** prev_power_of_two, atsc/src/utils/mod.rs:24-29 (usize is 64 bits). *)
Definition prev_power_of_two (n : Z) : Z :=
  let highest_bit_set_idx := 63 - leading_zeros64 (Z.lor n 1) in
  Z.land (Z.shiftl 1 highest_bit_set_idx) n.

(** A [while] loop of at most [2^k] iterations: [step] returns either the next state or
    the final result. [inl s] after [2^k] rounds means the loop is still running. *)
Fixpoint loop_pow {S R} (step : S -> S + R) (k : nat) (s : S) : S + R :=
  match k with
  | O => step s
  | Datatypes.S k' =>
      match loop_pow step k' s with
      | inl s' => loop_pow step k' s'
      | inr r => inr r
      end
  end.

(** [while n % p == 0 { n /= p }], atsc/src/utils/mod.rs:42-44 and 45-47.
    128 rounds are more than a 64-bit number can need; the only number for which the
    Rust loop does not stop is 0, and there the model answers [None]. *)
Definition strip_factor (p n : Z) : option Z :=
  match loop_pow (fun n => if n mod p =? 0 then inl (n / p) else inr n) 7 n with
  | inr r => Some r
  | inl _ => None
  end.

(** is_decomposable, atsc/src/utils/mod.rs:41-49. [None]: never returns (n = 0). *)
Definition is_decomposable (n : Z) : option bool :=
  match strip_factor 2 n with
  | None => None
  | Some m => match strip_factor 3 m with
              | None => None
              | Some r => Some (r =? 1)
              end
  end.

(** Outcome of next_size. *)
Inductive next_size_result :=
| NSOk (n : Z)
| NSOverflow          (* usize addition overflow: panic in a build with overflow checks *)
| NSHang.             (* never returns *)

(** One round of the loop at atsc/src/utils/mod.rs:34-36: test [n], then [n += 1]. *)
Definition next_size_step (p : profile) (n : Z) : Z + next_size_result :=
  match is_decomposable n with
  | None => inr NSHang
  | Some true => inr (NSOk n)
  | Some false =>
      match arith_u p 64 (n + 1) with
      | Ok n' => inl n'
      | Panic _ => inr NSOverflow
      end
  end.

(** next_size, atsc/src/utils/mod.rs:32-38. 2^65 rounds exceed the number of 64-bit
    values, so the model's bound is never reached. *)
Definition next_size_full (p : profile) (n : Z) : next_size_result :=
  match arith_u p 64 (n + 1) with
  | Panic _ => NSOverflow
  | Ok n' =>
      match loop_pow (next_size_step p) 65 n' with
      | inr r => r
      | inl _ => NSHang
      end
  end.

(** next_size as used by the FFT code on sample counts (far below 2^63, where neither an
    overflow nor a hang is possible, see C12): 0 stands for "no result". *)
Definition next_size (n : Z) : Z :=
  match next_size_full Dev n with NSOk m => m | _ => 0 end.

(** f64_to_u64, atsc/src/utils/mod.rs:52-59. *)
Definition f64_to_u64 (number : f64) (precision : Z) : res Z :=
  if 6 <? precision then Panic PExplicit
  else Ok (f64_as_int 0 (2 ^ 64 - 1) (fmul number (int_as_f64 (10 ^ precision)))).

(** round_f64, atsc/src/utils/mod.rs:61-64. [10i32.pow(decimals)]: every caller passes
    3, 4 or 5, so the i32 power cannot overflow and is written as a Z power. *)
Definition round_f64 (x : f64) (decimals : Z) : f64 :=
  let y := int_as_f64 (10 ^ decimals) in
  fdiv (fround (fmul x y)) y.

(** round_and_limit_f64, atsc/src/utils/mod.rs:66-74 (same remark on the power). *)
Definition round_and_limit_f64 (x min max : f64) (decimals : Z) : f64 :=
  let y := int_as_f64 (10 ^ decimals) in
  let out := fdiv (fround (fmul x y)) y in
  if flt out min then min
  else if fgt out max then max
  else out.

(** ErrorMethod, atsc/src/utils/error.rs:19-27. *)
Inductive error_method := Mse | Nmse | Mae | Mape | Smape.

(** [x as f64] for a length. *)
Definition len_f64 {A} (l : list A) : f64 := int_as_f64 (Z.of_nat (length l)).

(** [x.powi(2)] (one multiplication). *)
Definition fsquare (x : f64) : f64 := fmul x x.

(** [original.iter().zip(generated.iter()).map(f)]. *)
Fixpoint zip_map {A} (f : f64 -> f64 -> A) (l1 l2 : list f64) : list A :=
  match l1, l2 with
  | a :: l1', b :: l2' => f a b :: zip_map f l1' l2'
  | _, _ => []
  end.

(** error_mse, atsc/src/utils/error.rs:58-66. *)
Definition error_mse (vec1 vec2 : list f64) : res f64 :=
  if negb (Nat.eqb (length vec1) (length vec2)) then Panic PExplicit
  else Ok (fdiv (fsum (zip_map (fun a b => fsquare (fsub a b)) vec1 vec2)) (len_f64 vec1)).

(** error_nmsqe, atsc/src/utils/error.rs:71-83. *)
Definition error_nmsqe (original generated : list f64) : res f64 :=
  if negb (Nat.eqb (length original) (length generated)) then Panic PExplicit
  else Ok (fdiv (fsum (zip_map (fun o g => fsquare (fsub g o)) original generated))
                (fsum (map fsquare original))).

(** error_mae, atsc/src/utils/error.rs:88-99. *)
Definition error_mae (original generated : list f64) : res f64 :=
  if negb (Nat.eqb (length original) (length generated)) then Panic PExplicit
  else Ok (fdiv (fsum (zip_map (fun o g => fabs (fsub g o)) original generated))
                (len_f64 original)).

(** error_mape, atsc/src/utils/error.rs:104-116. *)
Definition error_mape (original generated : list f64) : res f64 :=
  if negb (Nat.eqb (length original) (length generated)) then Panic PExplicit
  else Ok (fdiv (fsum (zip_map (fun o g => fabs (fdiv (fsub g o) o)) original generated))
                (len_f64 original)).

(** The accumulation loop of error_smape, atsc/src/utils/error.rs:129-135. *)
Fixpoint smape_loop (original generated : list f64) (up down : f64) : f64 * f64 :=
  match original, generated with
  | o :: original', g :: generated' =>
      if feq g f0 && feq o f0 then smape_loop original' generated' up down
      else smape_loop original' generated' (fadd up (fabs (fsub g o)))
                      (fadd down (fadd (fabs o) (fabs g)))
  | _, _ => (up, down)
  end.

(** error_smape, atsc/src/utils/error.rs:122-137. *)
Definition error_smape (original generated : list f64) : res f64 :=
  if negb (Nat.eqb (length original) (length generated)) then Panic PExplicit
  else
    let '(up, down) := smape_loop original generated f0 f0 in
    Ok (fdiv (fdiv up down) (len_f64 original)).

(** ErrorMethod::error, atsc/src/utils/error.rs:29-39. *)
Definition method_error (m : error_method) (original generated : list f64) : res f64 :=
  match m with
  | Mse => error_mse original generated
  | Nmse => error_nmsqe original generated
  | Mae => error_mae original generated
  | Mape => error_mape original generated
  | Smape => error_smape original generated
  end.

(** calculate_error: the default method is Mape (atsc/src/utils/error.rs:24-25, 44-46). *)
Definition calculate_error (original generated : list f64) : res f64 :=
  method_error Mape original generated.
