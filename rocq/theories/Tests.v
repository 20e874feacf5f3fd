(** Conformance tests (tests, not proofs): the expected values of /repo's own unit tests,
    recomputed by the model. They tie the model, including the reconstructed third-party
    pieces (bincode, splines), to outputs the repository records. *)
From Coq Require Import List ZArith Bool.
From Verif Require Import Base Model_Float Model_Bincode Model_Stats Model_Compressors Model_Utils
  Model_Polynomial Model_Fft Model_Stream.
Import ListNotations.
Open Scope Z_scope.

Local Notation I := int_as_f64.
(** The double nearest to num/den. *)
Definition dec (num den : Z) : f64 := fdiv (I num) (I den).
Definition dmap (den : Z) (l : list Z) : list f64 := map (fun z => dec z den) l.
(** Bit-for-bit comparison of float lists. *)
Definition bits (r : res (list f64)) : res (list Z) := do l <- r; Ok (map to_bits l).

(** atsc/src/compressor/noop.rs:90-121 *)
Example t_noop : noop (map I [1;1;1;1;1]) = [250;5;2;2;2;2;2]. Proof. vm_compute. reflexivity. Qed.
Example t_noop_opt : noop_optimize (dmap 10 [15;27;33;49]) = [2;3;3;5]. Proof. vm_compute. reflexivity. Qed.
Example t_noop_dec : bits (noop_to_data 5 (noop (map I [1;2;3;4;1]))) = Ok (map to_bits (map I [1;2;3;4;1])).
Proof. vm_compute. reflexivity. Qed.

(** atsc/src/compressor/constant.rs:150-168 *)
Example t_const_u8 : compress {| e_idw := fun _ _ x => x; e_fft := {| fe_fft := fun l => l; fe_ifft := fun l => l; fe_pops := fun l => l |} |}
   Constant (map I [1;1;1;1;1]) = Ok [30;3;1].
Proof. vm_compute. reflexivity. Qed.
Example t_const_f64 :
  (do s <- data_stats (dmap 100000 [123456;123456]); Ok (cr_data (constant_compressor [] s)))
  = Ok [30; 0; 56; 50; 143; 252; 193; 192; 243; 63].
Proof. vm_compute. reflexivity. Qed.

(** atsc/src/compressor/rle.rs:290-321 *)
Definition rle_bytes (l : list f64) := do s <- data_stats l; Ok (cr_data (rle_compressor l s)).
Definition rle_v : list f64 := map I [1;1;1;1;2;2;1;1;1;1;2;2;3;3;3;3;3;3;1;1;1;1;1;1;1;1;1].
Example t_rle_u8 : rle_bytes rle_v = Ok [60; 3; 3; 1; 3; 0; 6; 18; 2; 2; 4; 10; 3; 1; 12].
Proof. vm_compute. reflexivity. Qed.
Example t_rle_rt : bits (do b <- rle_bytes rle_v; rle_to_data 27 b) = Ok (map to_bits rle_v).
Proof. vm_compute. reflexivity. Qed.
Example t_rle_simple : rle_bytes (map I [1;2;2;3;3;3;4;4;4;4;5;5;5;5;5])
  = Ok [60; 3; 5; 1; 1; 0; 2; 1; 1; 3; 1; 3; 4; 1; 6; 5; 1; 10].
Proof. vm_compute. reflexivity. Qed.
Example t_rle_f64 : rle_bytes (dmap 100000 [123456;123456;123456;123456;123456])
  = Ok [60; 0; 1; 56; 50; 143; 252; 193; 192; 243; 63; 1; 0].
Proof. vm_compute. reflexivity. Qed.

(** atsc/src/optimizer/utils.rs:166-203 *)
Definition stats_view (r : res stats) :=
  do s <- r; Ok (st_bitdepth s, to_bits (st_min s), to_bits (st_max s), to_bits (st_mean s),
                 st_min_loc s, st_max_loc s, st_fractional s).
Example t_stats_1 : stats_view (data_stats (map I [1;4;7]))
  = Ok (BU8, to_bits (I 1), to_bits (I 7), to_bits (I 4), 0%nat, 2%nat, false).
Proof. vm_compute. reflexivity. Qed.
Example t_stats_2 : stats_view (data_stats (dmap 10 [15;45;90]))
  = Ok (BF64, to_bits (dec 15 10), to_bits (I 9), to_bits (I 5), 0%nat, 2%nat, true).
Proof. vm_compute. reflexivity. Qed.

(** atsc/src/utils/error.rs:143-197 *)
Definition v1 := map I [1;2;3;4;5].
Definition v2 := dmap 10 [25;40;60;80;100].
Definition err_bits (r : res f64) := do x <- r; Ok (to_bits x).
Example t_mse : err_bits (error_mse v1 v2) = Ok (to_bits (dec 1125 100)). Proof. vm_compute. reflexivity. Qed.
Example t_mse0 : err_bits (error_mse v1 v1) = Ok (to_bits f0). Proof. vm_compute. reflexivity. Qed.
Example t_nmsqe : err_bits (error_nmsqe v1 v2) = Ok (to_bits (dec 10227272727272727 10000000000000000)).
Proof. vm_compute. reflexivity. Qed.
Example t_mae : err_bits (error_mae v1 v2) = Ok (to_bits (dec 31 10)). Proof. vm_compute. reflexivity. Qed.
Example t_mape : err_bits (error_mape v1 v2) = Ok (to_bits (dec 11 10)). Proof. vm_compute. reflexivity. Qed.
Example t_smape : err_bits (error_smape v1 v1) = Ok (to_bits f0). Proof. vm_compute. reflexivity. Qed.
Example t_smape2 : (do x <- error_smape v1 v2; Ok (flt x (dec 353 1000))) = Ok true. Proof. vm_compute. reflexivity. Qed.
Example t_smape3 : (do x <- error_smape [I 1] [I 2]; Ok (fgt x (dec 33 100))) = Ok true. Proof. vm_compute. reflexivity. Qed.

(** atsc/src/utils/mod.rs:80-101 *)
Example t_next_size : map next_size [2048;512;256;128;12432] = [2187;576;288;144;13122].
Proof. vm_compute. reflexivity. Qed.
Example t_decomposable : map is_decomposable [2048;512] = [Some true; Some true].
Proof. vm_compute. reflexivity. Qed.
Example t_round_limit :
  map to_bits [round_and_limit_f64 (I 3) (I 2) (I 4) 1; round_and_limit_f64 (I 5) (I 2) (I 4) 1;
               round_and_limit_f64 (I 1) (I 2) (I 4) 1;
               round_and_limit_f64 (dec 3123452312 1000000000) (I 2) (I 4) 3]
  = map to_bits [I 3; I 4; I 2; dec 3123 1000].
Proof. vm_compute. reflexivity. Qed.

(** atsc/src/optimizer/mod.rs:150-165 *)
Example t_chunks :
  map (fun n => chunks_loop 20 n) [131072 * 3 + 1765; 31; 2048; 12032]
  = [Some [131072; 131072; 131072; 1024; 512; 229]; Some [31]; Some [2048];
     Some [8192; 2048; 1024; 512; 256]].
Proof. vm_compute. reflexivity. Qed.

(** atsc/src/compressor/polynomial.rs:437-599 *)
Example t_poly_u8 : polynomial (map I [1;0;1;1;2;1;1;1;3;1;1;5]) PPolynomial
  = Ok [0; 3; 4; 1; 2; 3; 5; 0; 0; 0; 0; 0; 0; 0; 0; 0; 0; 0; 0; 0; 0; 20; 64; 4].
Proof. vm_compute. reflexivity. Qed.
Example t_poly_i16 : polynomial (map I [1;0;1;1;2;1;1;1;3;1;1;500]) PPolynomial
  = Ok [0; 2; 4; 2; 4; 6; 251; 232; 3; 0; 0; 0; 0; 0; 0; 0; 0; 0; 0; 0; 0; 0; 64; 127; 64; 4].
Proof. vm_compute. reflexivity. Qed.
Example t_poly_i32 :
  polynomial (map I [40001;40000;40001;40001;40002;40001;40001;40001;40003;40001;40001;40005]) PPolynomial
  = Ok [0; 1; 4; 252; 130; 56; 1; 0; 252; 132; 56; 1; 0; 252; 134; 56; 1; 0; 252; 138; 56;
        1; 0; 0; 0; 0; 0; 0; 136; 227; 64; 0; 0; 0; 0; 160; 136; 227; 64; 4].
Proof. vm_compute. reflexivity. Qed.
Example t_poly_f64 : polynomial (dmap 10 [11;1;11;11;20;10;10;10;30;10;10;50]) PPolynomial
  = Ok [0; 0; 4; 154; 153; 153; 153; 153; 153; 241; 63; 0; 0; 0; 0; 0; 0; 0; 64; 0; 0; 0;
        0; 0; 0; 8; 64; 0; 0; 0; 0; 0; 0; 20; 64; 154; 153; 153; 153; 153; 153; 185; 63; 0;
        0; 0; 0; 0; 0; 20; 64; 4].
Proof. vm_compute. reflexivity. Qed.
Definition v17 := map I [1;1;1;1;2;3;5;1;2;7;1;1;1;3;1;1;5].
(** A textbook inverse distance weighting with exponent 2. *)
Definition idw_ref (pts vals : list f64) (x : f64) : f64 :=
  let fix hit pts vals := match pts, vals with
    | p :: pts', v :: vals' => if feq p x then Some v else hit pts' vals'
    | _, _ => None end in
  match hit pts vals with
  | Some v => v
  | None =>
     let ws := map (fun p => let d := fsub x p in fdiv f1 (fmul d d)) pts in
     fdiv (fsum (zip_map fmul ws vals)) (fsum ws)
  end.
Example t_poly_rt : bits (do b <- polynomial v17 PPolynomial; polynomial_decompress idw_ref Dev 17 b)
  = Ok (map to_bits (dmap 1000 [1000;1400;1800;2200;2600;3000;2824;2392;1848;1336;1000;1000;1000;1000;1000;1000;5000])).
Proof. vm_compute. reflexivity. Qed.
Example t_poly_linear : bits (do b <- polynomial (map I [1;2;3;4;5;6;7;8;9;10;11;12]) PPolynomial; polynomial_decompress idw_ref Dev 12 b)
  = Ok (map to_bits (map I [1;2;3;4;5;6;7;8;9;10;11;12])).
Proof. vm_compute. reflexivity. Qed.
Example t_idw_rt : bits (do b <- polynomial v17 PIdw; polynomial_decompress idw_ref Dev 17 b)
  = Ok (map to_bits (dmap 100000 [100000; 113167; 162573; 232782; 283429; 300000; 283350; 234163; 168979; 118400; 100000;
                118933; 164488; 196340; 177047; 100000; 500000])).
Proof. vm_compute. reflexivity. Qed.
Example t_idw_linear : bits (do b <- polynomial (map I [1;2;3;4;5;6;7;8;9;10;11;12]) PIdw; polynomial_decompress idw_ref Dev 12 b)
  = Ok (map to_bits (dmap 100000 [100000; 162873; 351429; 484995; 500000; 540622; 705871; 864807; 900000; 937719;
                1118119; 1200000])).
Proof. vm_compute. reflexivity. Qed.
Definition allowed (t : ptype) (e : f64) :=
  do r <- polynomial_allowed_error idw_ref Dev v17 e t;
  do out <- polynomial_decompress idw_ref Dev 17 (cr_data r);
  do err <- calculate_error v17 out; Ok (fle err e).
Example t_poly_allowed : allowed PPolynomial (dec 5 100) = Ok true. Proof. vm_compute. reflexivity. Qed.
Example t_idw_allowed : allowed PIdw (dec 2 100) = Ok true. Proof. vm_compute. reflexivity. Qed.
Example t_poly_line : polynomial (map I [1;1;1;1]) PPolynomial
  = Ok [0; 3; 0; 0; 0; 0; 0; 0; 0; 240; 63; 0; 0; 0; 0; 0; 0; 240; 63; 1].
Proof. vm_compute. reflexivity. Qed.

(** atsc/src/compressor/fft.rs:550-560: the recorded bytes decode to the frequencies of the
    test and re-encode to themselves (the transform itself is not modelled). *)
Definition fft_bytes : list Z :=
  [15; 2; 0; 0; 0; 152; 65; 0; 0; 0; 0; 4; 0; 0; 96; 192; 102; 144; 138; 64; 0; 0; 160; 64; 0; 0; 128; 63].
Example t_fft_bytes :
  (do c <- decode_unwrap dec_fft fft_bytes;
   Ok (enc_fft c, map fq_pos (ff_freqs c), f32_eq (ff_max c) (int_as_f32 5), f32_eq (ff_min c) (int_as_f32 1)))
  = Ok (fft_bytes, [0; 4], true, true).
Proof. vm_compute. reflexivity. Qed.
(** fft.rs:591-600 *)
Example t_gibbs :
  let d := I 1 :: repeat (I 2) 2046 ++ [I 3] in
  let g := gibbs_sizing d in
  (length g =? Z.to_nat 2187)%nat = true
  /\ feq (nth 2 g f0) (I 1) = true /\ feq (nth (Z.to_nat 2185) g f0) (I 3) = true.
Proof. vm_compute. auto. Qed.

(** atsc/src/data.rs:142-175 *)
Definition env0 : env :=
  {| e_idw := idw_ref; e_fft := {| fe_fft := fun l => l; fe_ifft := fun l => l; fe_pops := fun l => l |} |}.
Example t_stream_bytes :
  (do s <- compress_chunk_with env0 Dev stream_new (repeat (I 1) 1024) Constant; Ok (stream_to_bytes s))
  = Ok [66; 82; 82; 79; 1; 0; 0; 0; 1; 1; 41; 251; 0; 4; 3; 3; 30; 3; 1].
Proof. vm_compute. reflexivity. Qed.
Example t_stream_rt :
  (do s <- compress_chunk_with env0 Dev stream_new (repeat (I 1) 1024) Constant;
   do s2 <- stream_from_bytes (stream_to_bytes s); bits (stream_decompress env0 Dev s2))
  = Ok (map to_bits (repeat (I 1) 1024)).
Proof. vm_compute. reflexivity. Qed.
