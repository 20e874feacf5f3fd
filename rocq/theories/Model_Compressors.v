(** The three lossless-style compressors: atsc/src/compressor/noop.rs, constant.rs, rle.rs,
    and CompressorResult (atsc/src/compressor/mod.rs:46-59). *)
From Coq Require Import List ZArith Bool.
From Verif Require Import Base Model_Float Model_Bincode Model_Stats.
Import ListNotations.
Open Scope Z_scope.

(** CompressorResult, atsc/src/compressor/mod.rs:46-59. *)
Record cresult := { cr_data : list Z; cr_error : f64 }.

(** *** noop.rs *)

(** NOOP_COMPRESSOR_ID, atsc/src/compressor/noop.rs:22. *)
Definition NOOP_COMPRESSOR_ID : Z := 250.
(** Noop::optimize, noop.rs:37-43. *)
Definition noop_optimize (data : list f64) : list Z :=
  map (fun x => f64_as_i64 (fround x)) data.
(** noop, noop.rs:72-77, with Noop::to_bytes (62-65) and the derived Encode (23-27). *)
Definition noop (data : list f64) : list Z :=
  enc_u8 NOOP_COMPRESSOR_ID ++ enc_vec enc_i64 (noop_optimize data).
(** Derived Decode of Noop, noop.rs:23-27. *)
Definition dec_noop : decoder (list Z) :=
  dlet _ <- dec_u8; dec_vec dec_i64.
(** noop_to_data, noop.rs:79-83: the sample count is ignored. *)
Definition noop_to_data (sample_number : nat) (bytes : list Z) : res (list f64) :=
  do l <- decode_unwrap dec_noop bytes; Ok (map int_as_f64 l).

(** *** constant.rs *)

(** CONSTANT_COMPRESSOR_ID, constant.rs:26. *)
Definition CONSTANT_COMPRESSOR_ID : Z := 30.
(** Encode for Constant, constant.rs:37-64. *)
Definition enc_constant (b : bitdepth) (c : f64) : list Z :=
  enc_u8 CONSTANT_COMPRESSOR_ID ++ enc_bitdepth b ++ enc_sample b c.
(** Decode for Constant, constant.rs:66-101. *)
Definition dec_constant : decoder f64 :=
  dlet _ <- dec_u8; dlet b <- dec_bitdepth; dec_sample b.
(** constant_compressor, constant.rs:135-139: the constant is the minimum. *)
Definition constant_compressor (data : list f64) (s : stats) : cresult :=
  {| cr_data := enc_constant (st_bitdepth s) (st_min s); cr_error := f0 |}.
(** constant_to_data, constant.rs:141-144 and Constant::to_data, 129-132. *)
Definition constant_to_data (sample_number : nat) (bytes : list Z) : res (list f64) :=
  do c <- decode_unwrap dec_constant bytes; Ok (repeat c sample_number).

(** *** rle.rs *)

(** RLE_COMPRESSOR_ID, rle.rs:27. *)
Definition RLE_COMPRESSOR_ID : Z := 60.

(** BTreeMap<u64, Vec<usize>> (rle.rs:146) as an association list kept sorted by key.
    The get-clone-push-insert / insert-fresh pair of rle.rs:158-171. *)
Fixpoint bt_push (key : Z) (idx : Z) (m : list (Z * list Z)) : list (Z * list Z) :=
  match m with
  | [] => [(key, [idx])]
  | (k, l) :: m' =>
      if key <? k then (key, [idx]) :: m
      else if key =? k then (k, l ++ [idx]) :: m'
      else (k, l) :: bt_push key idx m'
  end.

(** The scanning loop of IndexRLE::new, rle.rs:147-176; [i] is the position of the head of
    [data], [cur] is current_index. *)
Fixpoint rle_scan (data : list f64) (i cur : Z) (m : list (Z * list Z)) : list (Z * list Z) :=
  match data with
  | [] => m
  | value :: rest =>
      let run_ends := match rest with [] => true | next :: _ => fne next value end in
      if run_ends then rle_scan rest (i + 1) (i + 1) (bt_push (to_bits value) cur m)
      else rle_scan rest (i + 1) cur m
  end.

(** IndexRLE::new, rle.rs:142-189 (map iteration in key order, keys back to floats). *)
Definition rle_new (data : list f64) : list (f64 * list Z) :=
  map (fun '(bits, idx) => (from_bits bits, idx)) (rle_scan data 0 0 []).

(** Encode for IndexRLE, rle.rs:40-67: Vec<(T, Vec<usize>)>. *)
Definition enc_rle_entry (b : bitdepth) (e : f64 * list Z) : list Z :=
  enc_sample b (fst e) ++ enc_vec enc_usize (snd e).
Definition enc_rle (b : bitdepth) (rle : list (f64 * list Z)) : list Z :=
  enc_u8 RLE_COMPRESSOR_ID ++ enc_bitdepth b ++ enc_vec (enc_rle_entry b) rle.
(** Decode for IndexRLE, rle.rs:69-109. *)
Definition dec_rle_entry (b : bitdepth) : decoder (f64 * list Z) :=
  dlet v <- dec_sample b; dlet idx <- dec_vec dec_usize; dret (v, idx).
Definition dec_rle : decoder (list (f64 * list Z)) :=
  dlet _ <- dec_u8; dlet b <- dec_bitdepth; dec_vec (dec_rle_entry b).

(** [flattened.sort_unstable_by_key(index)], rle.rs:221. For pairwise different indices
    (all that the compressor writes) the result is unique; equal indices, possible only in
    forged payloads, are sorted stably here while Rust leaves their order unspecified. *)
Fixpoint insert_by_index (e : Z * f64) (l : list (Z * f64)) : list (Z * f64) :=
  match l with
  | [] => [e]
  | h :: l' => if fst e <=? fst h then e :: l else h :: insert_by_index e l'
  end.
Definition sort_by_index (l : list (Z * f64)) : list (Z * f64) :=
  fold_right insert_by_index [] l.

(** [for idx in data.iter_mut().take(hi).skip(lo) { *idx = v }], rle.rs:231-233, where the
    head of [l] has position [i]. *)
Fixpoint fill_range {A} (i lo hi : Z) (v : A) (l : list A) : list A :=
  match l with
  | [] => []
  | x :: l' => (if (lo <=? i) && (i <? hi) then v else x) :: fill_range (i + 1) lo hi v l'
  end.

(** The loop of rle.rs:224-234 over the sorted (index, value) pairs. *)
Fixpoint rle_fill (frame_size : Z) (runs : list (Z * f64)) (data : list f64) : list f64 :=
  match runs with
  | [] => data
  | (start_index, value) :: runs' =>
      let end_index := match runs' with (s, _) :: _ => s | [] => frame_size end in
      rle_fill frame_size runs' (fill_range 0 start_index end_index value data)
  end.

(** IndexRLE::to_data, rle.rs:204-236. *)
Definition rle_expand (rle : list (f64 * list Z)) (frame_size : nat) : list f64 :=
  let flattened := flat_map (fun '(v, idx) => map (fun i => (i, v)) idx) rle in
  rle_fill (Z.of_nat frame_size) (sort_by_index flattened) (repeat f0 frame_size).

(** rle_compressor, rle.rs:239-243. *)
Definition rle_compressor (data : list f64) (s : stats) : cresult :=
  {| cr_data := enc_rle (st_bitdepth s) (rle_new data); cr_error := f0 |}.
(** rle_to_data, rle.rs:245-248. *)
Definition rle_to_data (sample_number : nat) (bytes : list Z) : res (list f64) :=
  do rle <- decode_unwrap dec_rle bytes; Ok (rle_expand rle sample_number).
