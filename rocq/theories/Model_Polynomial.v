(** atsc/src/compressor/polynomial.rs, and the parts of the [splines] crate (4.3.1) it calls.

    Third-party pieces. [splines]: Spline::from_vec / clamped_sample with Linear and
    CatmullRom keys are modelled below from the crate's documentation and source as
    remembered; /repo does not contain it. Of the two published variants of the Hermite
    tangents the one used here (scaled by the key distance) is the one that reproduces the
    expected output of the unit test polynomial.rs:486-500 (see Tests.v).
    [inverse_distance_weight]: IDW::evaluate is an arbitrary function [idw] over which
    every theorem quantifies. *)
From Coq Require Import List ZArith Bool.
From Verif Require Import Base Model_Float Model_Bincode Model_Stats Model_Compressors Model_Utils.
Import ListNotations.
Open Scope Z_scope.

(** PolynomialType, polynomial.rs:29-34 (and the id constants 26-27). *)
Inductive ptype := PPolynomial | PIdw.
(** Derived Encode/Decode of PolynomialType: variant index as varint u32. *)
Definition enc_ptype (t : ptype) : list Z :=
  enc_u32 (match t with PPolynomial => 0 | PIdw => 1 end).
Definition dec_ptype : decoder ptype :=
  dlet t <- dec_u32;
  if t =? 0 then dret PPolynomial
  else if t =? 1 then dret PIdw
  else dfail UnexpectedVariant.

(** Polynomial, polynomial.rs:43-52. *)
Record poly := {
  pl_id : ptype; pl_points : list f64; pl_min : f64; pl_max : f64;
  pl_step : Z; pl_error : option f64; pl_bitdepth : bitdepth }.

(** Encode for Polynomial, polynomial.rs:54-87. *)
Definition enc_poly (c : poly) : list Z :=
  enc_ptype (pl_id c) ++ enc_bitdepth (pl_bitdepth c)
  ++ enc_vec (enc_sample (pl_bitdepth c)) (pl_points c)
  ++ enc_f64 (pl_min c) ++ enc_f64 (pl_max c) ++ enc_u8 (pl_step c).
(** BorrowDecode for Polynomial, polynomial.rs:133-176 (Decode, 89-131, is the same). *)
Definition dec_poly : decoder poly :=
  dlet id <- dec_ptype;
  dlet b <- dec_bitdepth;
  dlet pts <- dec_vec (dec_sample b);
  dlet mn <- dec_f64;
  dlet mx <- dec_f64;
  dlet st <- dec_u8;
  dret {| pl_id := id; pl_points := pts; pl_min := mn; pl_max := mx; pl_step := st;
          pl_error := None; pl_bitdepth := b |}.

(** Polynomial::new, polynomial.rs:179-200. *)
Definition poly_new (mn mx : f64) (t : ptype) (b : bitdepth) : poly :=
  {| pl_id := t; pl_points := []; pl_min := mn; pl_max := mx; pl_step := 1;
     pl_error := None; pl_bitdepth := b |}.

(** [(0..n).step_by(s)] for s >= 1: 0, s, 2s, ... below n. *)
Definition step_range (n s : Z) : list Z :=
  map (fun k => Z.of_nat k * s) (seq 0 (Z.to_nat ((n + s - 1) / s))).

(** [slice.last()]. *)
Definition last_opt {A} (l : list A) : option A :=
  match rev l with [] => None | x :: _ => Some x end.

(** data[i] with a usize index. *)
Definition index {A} (l : list A) (i : Z) : res A :=
  match nth_error l (Z.to_nat i) with Some x => Ok x | None => Panic PIndex end.

(** Polynomial::compress_hinted, polynomial.rs:279-305. Positions are f64 in the code
    (and here); [points] = 0 divides by zero. *)
Definition hinted_positions (data_len step : Z) : list f64 :=
  let points := map int_as_f64 (step_range data_len step) in
  let last := fsub (int_as_f64 data_len) f1 in
  match last_opt points with
  | Some l => if feq l last then points else points ++ [last]
  | None => points ++ [last]
  end.
Definition compress_hinted (c : poly) (data : list f64) (points : Z) : res poly :=
  if feq (pl_max c) (pl_min c) then Ok c
  else
    let data_len := Z.of_nat (length data) in
    if points =? 0 then Panic PDivZero
    else
      let step := Z.max (data_len / points) 1 in
      do values <- map_res (fun f => index data (f64_as_usize f)) (hinted_positions data_len step);
      Ok {| pl_id := pl_id c; pl_points := values; pl_min := pl_min c; pl_max := pl_max c;
            pl_step := wrap_u 8 step; pl_error := pl_error c; pl_bitdepth := pl_bitdepth c |}.

(** The default number of points, polynomial.rs:220-224 and 308-312. *)
Definition baseline_points (data_len : Z) : Z :=
  if data_len / 100 <=? 3 then 3 else data_len / 100.

(** Polynomial::compress, polynomial.rs:307-314. *)
Definition poly_compress (c : poly) (data : list f64) : res poly :=
  compress_hinted c data (baseline_points (Z.of_nat (length data))).

(** Polynomial::get_positions, polynomial.rs:329-340. [step_by(0)] panics; on an empty frame
    [frame_size - 1] underflows. *)
Definition get_positions (p : profile) (c : poly) (frame_size : Z) : res (list Z) :=
  if pl_step c =? 0 then Panic PDivZero
  else
    let points := step_range frame_size (pl_step c) in
    do last <- arith_u p 64 (frame_size - 1);
    Ok (match last_opt points with
        | Some l => if l =? last then points else points ++ [last]
        | None => points ++ [last]
        end).

(** splines::Key with the two interpolation modes used. *)
Inductive interpolation := ILinear | ICatmullRom.
Record key := { k_t : f64; k_v : f64; k_i : interpolation }.

(** f64::lerp of splines' Interpolate: [a * (1 - t) + b * t]. *)
Definition spline_lerp (t a b : f64) : f64 := fadd (fmul a (fsub f1 t)) (fmul b t).

(** Interpolate::cubic_hermite for f64: arguments are (time, value) pairs. *)
Definition cubic_hermite (t : f64) (x a b y : key) : f64 :=
  let f2 := int_as_f64 2 in
  let f3 := int_as_f64 3 in
  let two_t := fmul t f2 in
  let three_t := fmul t f3 in
  let t2 := fmul t t in
  let t3 := fmul t2 t in
  let two_t3 := fmul two_t t2 in
  let two_t2 := fmul two_t t in
  let three_t2 := fmul three_t t in
  let m0 := fmul (fdiv (fsub (k_v b) (k_v x)) (fsub (k_t b) (k_t x))) (fsub (k_t b) (k_t a)) in
  let m1 := fmul (fdiv (fsub (k_v y) (k_v a)) (fsub (k_t y) (k_t a))) (fsub (k_t b) (k_t a)) in
  fadd (fadd (fadd
    (fmul (k_v a) (fadd (fsub two_t3 three_t2) f1))
    (fmul m0 (fadd (fsub t3 two_t2) t)))
    (fmul (k_v b) (fsub three_t2 two_t3)))
    (fmul m1 (fsub t3 t2)).

(** splines' search_lower_cp: a binary search for [t] among keys sorted by strictly
    increasing time; written as a linear search (same result on such keys).
    [Found i]: key i has time t. [Ins i]: i keys lie below t. *)
Inductive search := Found (i : nat) | Ins (i : nat).
Fixpoint search_keys (keys : list key) (t : f64) (i : nat) : search :=
  match keys with
  | [] => Ins i
  | k :: keys' => if feq (k_t k) t then Found i
                  else if flt (k_t k) t then search_keys keys' t (S i)
                  else Ins i
  end.
Definition search_lower_cp (keys : list key) (t : f64) : option nat :=
  let len := length keys in
  if (len <? 2)%nat then None
  else match search_keys keys t 0 with
       | Ins O => None
       | Ins (S i) => if (len <=? S i)%nat then None else Some i
       | Found i => if (i =? len - 1)%nat then None else Some i
       end.

(** Spline::sample: [nt = (t - t0) / (t1 - t0)]. *)
Definition spline_sample (keys : list key) (t : f64) : option f64 :=
  match search_lower_cp keys t with
  | None => None
  | Some i =>
      match nth_error keys i, nth_error keys (S i) with
      | Some cp0, Some cp1 =>
          let nt := fdiv (fsub t (k_t cp0)) (fsub (k_t cp1) (k_t cp0)) in
          match k_i cp0 with
          | ILinear => Some (spline_lerp nt (k_v cp0) (k_v cp1))
          | ICatmullRom =>
              if (i =? 0)%nat || (length keys - 2 <=? i)%nat then None
              else match nth_error keys (i - 1), nth_error keys (S (S i)) with
                   | Some cpm0, Some cpm1 => Some (cubic_hermite nt cpm0 cp0 cp1 cpm1)
                   | _, _ => None
                   end
          end
      | _, _ => None
      end
  end.

(** Spline::clamped_sample. *)
Definition clamped_sample (keys : list key) (t : f64) : option f64 :=
  match keys with
  | [] => None
  | first :: _ =>
      match spline_sample keys t with
      | Some v => Some v
      | None =>
          if fle t (k_t first) then Some (k_v first)
          else match last_opt keys with
               | Some lst => if fle (k_t lst) t then Some (k_v lst) else None
               | None => None
               end
      end
  end.

(** Construction of the keys, polynomial.rs:344-356. Spline::from_vec sorts by time: the
    positions are increasing already, so the sort is the identity and is left out. *)
Fixpoint build_keys (total i : nat) (points : list Z) (values : list f64) : list key :=
  match points, values with
  | p :: points', v :: values' =>
      {| k_t := int_as_f64 p; k_v := v;
         k_i := if (0 <? i)%nat && (2 <? total - i)%nat then ICatmullRom else ILinear |}
      :: build_keys total (S i) points' values'
  | _, _ => []
  end.

(** The sampling loop, polynomial.rs:360-372; [samp v] is [spline.clamped_sample(v as f64)]. *)
Fixpoint sample_loop (samp : Z -> option f64) (mn mx : f64) (prev : f64) (vs : list Z) : list f64 :=
  match vs with
  | [] => []
  | v :: vs' =>
      let spline_value := match samp v with Some x => x | None => prev end in
      round_and_limit_f64 spline_value mn mx DECIMAL_PRECISION
      :: sample_loop samp mn mx spline_value vs'
  end.

(** [0..frame_size]. *)
Definition range (n : nat) : list Z := map Z.of_nat (seq 0 n).

(** Polynomial::polynomial_to_data, polynomial.rs:342-373. *)
Definition polynomial_to_data (p : profile) (c : poly) (frame_size : nat) : res (list f64) :=
  do points <- get_positions p c (Z.of_nat frame_size);
  let keys := build_keys (length points) 0 points (pl_points c) in
  Ok (sample_loop (fun v => clamped_sample keys (int_as_f64 v)) (pl_min c) (pl_max c)
        (pl_min c) (range frame_size)).

Section Idw.
(** IDW::new(points, values).evaluate(x). *)
Variable idw : list f64 -> list f64 -> f64 -> f64.

(** Polynomial::idw_to_data, polynomial.rs:375-393. *)
Definition idw_to_data (p : profile) (c : poly) (frame_size : nat) : res (list f64) :=
  do points <- get_positions p c (Z.of_nat frame_size);
  let fpoints := map int_as_f64 points in
  Ok (map (fun v => round_and_limit_f64 (idw fpoints (pl_points c) (int_as_f64 v))
                      (pl_min c) (pl_max c) DECIMAL_PRECISION) (range frame_size)).

(** The method dispatch, polynomial.rs:202-207, 241-244, 400-403. *)
Definition method_to_data (p : profile) (c : poly) (frame_size : nat) : res (list f64) :=
  match pl_id c with
  | PIdw => idw_to_data p c frame_size
  | PPolynomial => polynomial_to_data p c frame_size
  end.

(** Polynomial::to_data, polynomial.rs:395-404. *)
Definition poly_to_data (p : profile) (c : poly) (frame_size : nat) : res (list f64) :=
  if feq (pl_max c) (pl_min c) then Ok (repeat (pl_max c) frame_size)
  else method_to_data p c frame_size.

(** The increments of the error control loop, polynomial.rs:252-253. *)
Definition jump_increment (iterations data_len : Z) : option Z :=
  if iterations <=? 17 then Some (Z.max (data_len / 10) 1)
  else if iterations <=? 22 then Some (Z.max (data_len / 100) 1)
  else None.

(** One entry of the loop at polynomial.rs:231-270; [iterations] counts completed rounds.
    The loop leaves at the latest in round 23, so 24 units of fuel always suffice; PFuel
    is proved unreachable (C18). *)
Fixpoint bounded_loop (p : profile) (fuel : nat) (data : list f64) (target : f64)
    (c : poly) (current_err : f64) (jump iterations : Z) : res (poly * f64) :=
  if negb (flt target (round_f64 current_err 4)) then Ok (c, current_err)
  else
    match fuel with
    | O => Panic PFuel
    | S fuel' =>
        let data_len := Z.of_nat (length data) in
        let iterations := iterations + 1 in
        do c <- compress_hinted c data (baseline_points data_len + jump);
        do out <- method_to_data p c (length data);
        do current_err <- calculate_error data out;
        match jump_increment iterations data_len with
        | Some inc =>
            if (length (pl_points c) =? length data)%nat then Ok (c, f0)
            else bounded_loop p fuel' data target c current_err (jump + inc) iterations
        | None =>
            if fgt target (round_f64 current_err 4) then Ok (c, current_err)
            else
              do c <- compress_hinted c data data_len;
              Ok (c, f0)
        end
    end.

(** Polynomial::compress_bounded, polynomial.rs:209-277. *)
Definition poly_compress_bounded (p : profile) (c : poly) (data : list f64) (max_err : f64)
    : res poly :=
  if feq (pl_max c) (pl_min c) then Ok c
  else
    let target := round_f64 max_err 3 in
    do r <- bounded_loop p 24 data target c (fadd max_err f1) 0 0;
    let '(c, err) := r in
    Ok {| pl_id := pl_id c; pl_points := pl_points c; pl_min := pl_min c; pl_max := pl_max c;
          pl_step := pl_step c; pl_error := Some err; pl_bitdepth := pl_bitdepth c |}.

(** polynomial, polynomial.rs:407-413. *)
Definition polynomial (data : list f64) (t : ptype) : res (list Z) :=
  do s <- data_stats data;
  do c <- poly_compress (poly_new (st_min s) (st_max s) t (st_bitdepth s)) data;
  Ok (enc_poly c).

(** polynomial_allowed_error, polynomial.rs:415-425. *)
Definition polynomial_allowed_error (p : profile) (data : list f64) (allowed_error : f64) (t : ptype)
    : res cresult :=
  do s <- data_stats data;
  do c <- poly_compress_bounded p (poly_new (st_min s) (st_max s) t (st_bitdepth s)) data allowed_error;
  Ok {| cr_data := enc_poly c;
        cr_error := match pl_error c with Some e => e | None => f0 end |}.

(** to_data, polynomial.rs:427-430, with Polynomial::decompress, 316-320. *)
Definition polynomial_decompress (p : profile) (sample_number : nat) (bytes : list Z) : res (list f64) :=
  do c <- decode_unwrap dec_poly bytes; poly_to_data p c sample_number.
End Idw.
