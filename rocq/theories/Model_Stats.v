(** atsc/src/optimizer/utils.rs: series statistics and sample width selection. *)
From Coq Require Import List ZArith Bool.
From Verif Require Import Base Model_Float Model_Bincode.
Import ListNotations.
Open Scope Z_scope.

(** Bitdepth, atsc/src/optimizer/utils.rs:20-26. *)
Inductive bitdepth := BF64 | BI32 | BI16 | BU8.

(** Derived Encode/Decode of Bitdepth: the variant index as a varint u32. *)
Definition bitdepth_tag (b : bitdepth) : Z :=
  match b with BF64 => 0 | BI32 => 1 | BI16 => 2 | BU8 => 3 end.
Definition enc_bitdepth (b : bitdepth) : list Z := enc_u32 (bitdepth_tag b).
Definition dec_bitdepth : decoder bitdepth :=
  dlet t <- dec_u32;
  if t =? 0 then dret BF64
  else if t =? 1 then dret BI32
  else if t =? 2 then dret BI16
  else if t =? 3 then dret BU8
  else dfail UnexpectedVariant.

(** A sample written with a given width: [value as u8] etc. followed by Encode, and Decode
    followed by [as f64]. The same match appears in constant.rs:44-61 and 72-93,
    rle.rs:47-64 and 75-105 (through rle_as_u8/i16/i32, 113-135), polynomial.rs:61-81 and
    95-116. *)
Definition enc_sample (b : bitdepth) (x : f64) : list Z :=
  match b with
  | BU8 => enc_u8 (f64_as_u8 x)
  | BI16 => enc_i16 (f64_as_i16 x)
  | BI32 => enc_i32 (f64_as_i32 x)
  | BF64 => enc_f64 x
  end.
Definition dec_sample (b : bitdepth) : decoder f64 :=
  match b with
  | BU8 => dlet z <- dec_u8; dret (int_as_f64 z)
  | BI16 => dlet z <- dec_i16; dret (int_as_f64 z)
  | BI32 => dlet z <- dec_i32; dret (int_as_f64 z)
  | BF64 => dec_f64
  end.

(** split_n, atsc/src/optimizer/utils.rs:115-160, on the 64-bit pattern of [x].
    [mantissa as u64] of a negative i64 is [mod 2^64]; [<<] drops high bits. *)
Definition FRACT_SCALE : f64 :=
  let k := int_as_f64 65536 in fdiv f1 (fmul (fmul (fmul k k) k) k).
Definition split_n (x : f64) : Z * f64 :=
  let bits := to_bits x in
  let is_negative := wrap_s 64 bits <? 0 in
  let exponent := Z.land (Z.shiftr bits 52) (2 ^ 11 - 1) in
  let mantissa := Z.lor (Z.land bits (2 ^ 52 - 1)) (2 ^ 52) in
  let mantissa := if is_negative then - mantissa else mantissa in
  let shl := exponent + (64 - 53 - 1023 + 1) in
  if shl <=? 0 then
    let shr := - shl in
    if shr <? 64 then
      (0, fmul (int_as_f64 (Z.shiftr (wrap_u 64 mantissa) shr)) FRACT_SCALE)
    else (0, f0)
  else if shl <? 64 then
    (Z.shiftr mantissa (64 - shl),
     fmul (int_as_f64 (wrap_u 64 (Z.shiftl (wrap_u 64 mantissa) shl))) FRACT_SCALE)
  else if shl <? 128 then
    (wrap_s 64 (Z.shiftl mantissa (shl - 64)), f0)
  else (0, f0).

(** DataStats::bitdepth, atsc/src/optimizer/utils.rs:91-113. *)
Definition bitdepth_of (max_int min_int : Z) : bitdepth :=
  let bd :=
    if max_int <=? 255 then 8
    else if max_int <=? 32767 then 16
    else if max_int <=? 2147483647 then 32
    else 64 in
  let bd_signed :=
    if (0 <=? min_int) && (min_int <=? 255) then 8
    else if -32768 <=? min_int then 16
    else if -2147483648 <=? min_int then 32
    else 64 in
  let m := Z.max bd bd_signed in
  if m =? 8 then BU8 else if m =? 16 then BI16 else if m =? 32 then BI32 else BF64.

(** DataStats, atsc/src/optimizer/utils.rs:28-36. *)
Record stats := {
  st_max : f64; st_max_loc : nat;
  st_min : f64; st_min_loc : nat;
  st_mean : f64;
  st_bitdepth : bitdepth;
  st_fractional : bool }.

(** Loop state of DataStats::new. *)
Record scan := {
  sc_i : nat; sc_max : f64; sc_max_loc : nat; sc_min : f64; sc_min_loc : nat;
  sc_sum : f64; sc_fractional : bool }.

(** Body of the loop at atsc/src/optimizer/utils.rs:50-64. *)
Definition scan_step (s : scan) (v : f64) : scan :=
  let gt := fgt v (sc_max s) in
  let lt := flt v (sc_min s) in
  {| sc_i := S (sc_i s);
     sc_max := if gt then v else sc_max s;
     sc_max_loc := if gt then sc_i s else sc_max_loc s;
     sc_min := if lt then v else sc_min s;
     sc_min_loc := if lt then sc_i s else sc_min_loc s;
     sc_sum := fadd (sc_sum s) v;
     sc_fractional := if fne (snd (split_n v)) f0 then true else sc_fractional s |}.

(** DataStats::new, atsc/src/optimizer/utils.rs:39-89. [data[0]] panics on no data. *)
Definition data_stats (data : list f64) : res stats :=
  match data with
  | [] => Panic PIndex
  | d0 :: _ =>
      let s := fold_left scan_step data
        {| sc_i := 0; sc_max := d0; sc_max_loc := 0; sc_min := d0; sc_min_loc := 0;
           sc_sum := f0; sc_fractional := false |} in
      let max_int := fst (split_n (sc_max s)) in
      let min_int := fst (split_n (sc_min s)) in
      Ok {| st_max := sc_max s; st_max_loc := sc_max_loc s;
            st_min := sc_min s; st_min_loc := sc_min_loc s;
            st_mean := fdiv (sc_sum s) (int_as_f64 (Z.of_nat (length data)));
            st_bitdepth := if sc_fractional s then BF64 else bitdepth_of max_int min_int;
            st_fractional := sc_fractional s |}
  end.
