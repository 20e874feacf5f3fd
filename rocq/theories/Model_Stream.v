(** Compressor dispatch, frames, header, stream, optimiser plan and the compress/decompress
    pipeline of the CLI: atsc/src/compressor/mod.rs, frame/mod.rs, header.rs, data.rs,
    optimizer/mod.rs, main.rs, utils/readers/bro_reader.rs. *)
From Coq Require Import List ZArith Bool.
From Verif Require Import Base Model_Float Model_Bincode Model_Stats Model_Compressors Model_Utils
  Model_Polynomial Model_Fft.
Import ListNotations.
Open Scope Z_scope.

(** Everything the compressors take from third-party crates. *)
Record env := {
  e_idw : list f64 -> list f64 -> f64 -> f64;   (* inverse_distance_weight *)
  e_fft : fft_env }.                            (* rustfft, BinaryHeap *)

(** Compressor, atsc/src/compressor/mod.rs:34-44. *)
Inductive compressor := Noop | FFT | Idw | Constant | Polynomial | Auto | RLE.

(** Derived Encode/Decode of Compressor: variant index as varint u32. *)
Definition compressor_tag (c : compressor) : Z :=
  match c with
  | Noop => 0 | FFT => 1 | Idw => 2 | Constant => 3 | Polynomial => 4 | Auto => 5 | RLE => 6
  end.
Definition enc_compressor (c : compressor) : list Z := enc_u32 (compressor_tag c).
Definition dec_compressor : decoder compressor :=
  dlet t <- dec_u32;
  if t =? 0 then dret Noop
  else if t =? 1 then dret FFT
  else if t =? 2 then dret Idw
  else if t =? 3 then dret Constant
  else if t =? 4 then dret Polynomial
  else if t =? 5 then dret Auto
  else if t =? 6 then dret RLE
  else dfail UnexpectedVariant.

(** CompressorFrame, frame/mod.rs:25-33. *)
Record frame := { fr_size : Z; fr_samples : Z; fr_compressor : compressor; fr_data : list Z }.

(** Derived Encode/Decode of CompressorFrame, frame/mod.rs:24. *)
Definition enc_frame (f : frame) : list Z :=
  enc_usize (fr_size f) ++ enc_usize (fr_samples f) ++ enc_compressor (fr_compressor f)
  ++ enc_bytes (fr_data f).
Definition dec_frame : decoder frame :=
  dlet s <- dec_usize; dlet n <- dec_usize; dlet c <- dec_compressor; dlet d <- dec_bytes;
  dret {| fr_size := s; fr_samples := n; fr_compressor := c; fr_data := d |}.

Section Env.
Variable e : env.
Variable p : profile.

(** Compressor::compress, compressor/mod.rs:62-73. *)
Definition compress (c : compressor) (data : list f64) : res (list Z) :=
  do s <- data_stats data;
  match c with
  | Noop => Ok (noop data)
  | FFT => fft (e_fft e) data
  | Constant => Ok (cr_data (constant_compressor data s))
  | Polynomial => polynomial data PPolynomial
  | Idw => polynomial data PIdw
  | RLE => Ok (cr_data (rle_compressor data s))
  | Auto => Panic PTodo
  end.

(** Compressor::get_compress_bounded_results, compressor/mod.rs:93-107. *)
Definition compress_results (c : compressor) (data : list f64) (max_error : f64) : res cresult :=
  do s <- data_stats data;
  match c with
  | Noop => Ok {| cr_data := noop data; cr_error := f0 |}
  | FFT => fft_compressor (e_fft e) data max_error s
  | Constant => Ok (constant_compressor data s)
  | RLE => Ok (rle_compressor data s)
  | Polynomial => polynomial_allowed_error (e_idw e) p data max_error PPolynomial
  | Idw => polynomial_allowed_error (e_idw e) p data max_error PIdw
  | Auto => Panic PTodo
  end.

(** Compressor::compress_bounded, compressor/mod.rs:75-91: the same calls, error dropped. *)
Definition compress_bounded (c : compressor) (data : list f64) (max_error : f64) : res (list Z) :=
  do s <- data_stats data;
  match c with
  | Noop => Ok (noop data)
  | FFT => do r <- fft_compressor (e_fft e) data max_error s; Ok (cr_data r)
  | Constant => Ok (cr_data (constant_compressor data s))
  | Polynomial =>
      do r <- polynomial_allowed_error (e_idw e) p data max_error PPolynomial; Ok (cr_data r)
  | Idw => do r <- polynomial_allowed_error (e_idw e) p data max_error PIdw; Ok (cr_data r)
  | RLE => Ok (cr_data (rle_compressor data s))
  | Auto => Panic PTodo
  end.

(** Compressor::decompress, compressor/mod.rs:109-119. *)
Definition decompress (c : compressor) (samples : nat) (data : list Z) : res (list f64) :=
  match c with
  | Noop => noop_to_data samples data
  | FFT => fft_to_data (e_fft e) samples data
  | Constant => constant_to_data samples data
  | Polynomial => polynomial_decompress (e_idw e) p samples data
  | Idw => polynomial_decompress (e_idw e) p samples data
  | RLE => rle_to_data samples data
  | Auto => Panic PTodo
  end.

(** CompressorFrame::close, frame/mod.rs:51-57: size_of_val of sample_count (8), compressor
    (1), data (24, a Vec header) and frame_size (8). *)
Definition CLOSED_SIZE : Z := 8 + 1 + 24 + 8.

(** CompressorFrame::new + compress + close, frame/mod.rs:39-63, data.rs:36-51. *)
Definition frame_compress (c : compressor) (data : list f64) : res frame :=
  do d <- compress c data;
  Ok {| fr_size := CLOSED_SIZE; fr_samples := Z.of_nat (length data); fr_compressor := c; fr_data := d |}.

(** CompressorFrame::new + compress_bounded + close, frame/mod.rs:66-69. *)
Definition frame_compress_bounded (c : compressor) (data : list f64) (max_error : f32) : res frame :=
  do d <- compress_bounded c data (f32_as_f64 max_error);
  Ok {| fr_size := CLOSED_SIZE; fr_samples := Z.of_nat (length data); fr_compressor := c; fr_data := d |}.

(** COMPRESSION_SPEED, frame/mod.rs:22. *)
Definition COMPRESSION_SPEED : list Z := [2147483647; 4096; 2048; 1024; 512; 256; 128].

(** Iterator::min_by_key(compressed_data.len()): the first of the shortest. *)
Fixpoint min_by_len (l : list (cresult * compressor)) : option (cresult * compressor) :=
  match l with
  | [] => None
  | x :: l' =>
      match min_by_len l' with
      | None => Some x
      | Some y => if (length (cr_data (fst x)) <=? length (cr_data (fst y)))%nat then Some x else Some y
      end
  end.

(** Eligible compressors, frame/mod.rs:78. *)
Definition compressor_list : list compressor := [FFT; Polynomial; RLE].

(** Running every candidate, frame/mod.rs:97-105 and 117-125. (Rust evaluates lazily in the
    first case; the order and the results are the same.) *)
Definition run_candidates (data : list f64) (max_error : f64) : res (list (cresult * compressor)) :=
  map_res (fun c => do r <- compress_results c data max_error; Ok (r, c)) compressor_list.

(** [result.error <= max_error as f64], frame/mod.rs:106, 134, 143. *)
Definition within (max_error : f64) (x : cresult * compressor) : bool := fle (cr_error (fst x)) max_error.

(** CompressorFrame::compress_best + close, frame/mod.rs:72-149. *)
Definition compress_best (data : list f64) (max_error : f32) (speed : Z) : res frame :=
  let max_error := f32_as_f64 max_error in
  let sample_count := Z.of_nat (length data) in
  do data_sample <- index COMPRESSION_SPEED speed;
  do s <- data_stats data;
  do chosen <-
    (if feq (st_min s) (st_max s) then
       do r <- compress_results Constant data max_error; Ok (r, Constant)
     else if data_sample <=? sample_count then
       do rs <- run_candidates (firstn (Z.to_nat data_sample) data) max_error;
       match min_by_len (filter (within max_error) rs) with
       | None => Panic PUnwrap
       | Some (_, c) => do r <- compress_results c data max_error; Ok (r, c)
       end
     else
       do rs <- run_candidates data max_error;
       match (if forallb (fun x => negb (within max_error x)) rs then min_by_len rs
              else min_by_len (filter (within max_error) rs)) with
       | None => Panic PUnwrap
       | Some x => Ok x
       end);
  Ok {| fr_size := CLOSED_SIZE; fr_samples := sample_count; fr_compressor := snd chosen;
        fr_data := cr_data (fst chosen) |}.

(** CompressorFrame::decompress, frame/mod.rs:152-158. *)
Definition frame_decompress (f : frame) : res (list f64) :=
  decompress (fr_compressor f) (Z.to_nat (fr_samples f)) (fr_data f).

(** CompressorHeader, header.rs:24-28; CompressedStream, data.rs:22-26. *)
Record header := { h_version : Z; h_frames : Z }.
Record stream := { s_header : header; s_frames : list frame }.

(** CURRENT_VERSION, header.rs:23; CompressorHeader::new, header.rs:45-50;
    CompressedStream::new, data.rs:28-33. *)
Definition CURRENT_VERSION : Z := 1.
Definition stream_new : stream :=
  {| s_header := {| h_version := CURRENT_VERSION; h_frames := 0 |}; s_frames := [] |}.

(** CompressorHeader::add_frame (header.rs:52-54, a u8 increment) after pushing the frame
    (data.rs:40-41, 49-50, 73-74). A panic leaves no usable stream. *)
Definition push_frame (s : stream) (f : frame) : res stream :=
  do n <- arith_u p 8 (h_frames (s_header s) + 1);
  Ok {| s_header := {| h_version := h_version (s_header s); h_frames := n |};
        s_frames := s_frames s ++ [f] |}.

(** CompressedStream::compress_chunk, data.rs:36-42 (default compressor: Noop). *)
Definition compress_chunk (s : stream) (chunk : list f64) : res stream :=
  do f <- frame_compress Noop chunk; push_frame s f.
(** CompressedStream::compress_chunk_with, data.rs:45-51. *)
Definition compress_chunk_with (s : stream) (chunk : list f64) (c : compressor) : res stream :=
  do f <- frame_compress c chunk; push_frame s f.
(** CompressedStream::compress_chunk_bounded_with, data.rs:54-75. *)
Definition compress_chunk_bounded_with (s : stream) (chunk : list f64) (c : compressor)
    (max_error : f32) (speed : Z) : res stream :=
  do f <- match c with
          | Auto => compress_best chunk max_error speed
          | _ => frame_compress_bounded c chunk max_error
          end;
  push_frame s f.

(** CompressorHeader::to_bytes, header.rs:60-67 ("BRRO" = 66 82 82 79). *)
Definition BRRO : list Z := [66; 82; 82; 79].
Definition header_bytes (h : header) : list Z := BRRO ++ le_bytes 4 (h_version h) ++ [h_frames h].
(** CompressorHeader::from_bytes, header.rs:69-85, with verify_header_versions, 30-42. *)
Definition header_from_bytes (b : list Z) : res header :=
  if negb (if list_eq_dec Z.eq_dec (firstn 4 b) BRRO then true else false) then Panic PExplicit
  else
    let version := le_val (firstn 4 (skipn 4 b)) in
    if CURRENT_VERSION <? version then Panic PExplicit
    else Ok {| h_version := version; h_frames := nth 8 b 0 |}.

(** CompressedStream::to_bytes, data.rs:78-84. *)
Definition stream_to_bytes (s : stream) : list Z :=
  header_bytes (s_header s) ++ enc_vec enc_frame (s_frames s).
(** CompressedStream::from_bytes, data.rs:88-103. *)
Definition stream_from_bytes (bytes : list Z) : res stream :=
  if (length bytes <? 9)%nat then Panic PIndex
  else
    do h <- header_from_bytes (firstn 9 bytes);
    do fs <- decode_unwrap (dec_vec dec_frame) (skipn 9 bytes);
    Ok {| s_header := h; s_frames := fs |}.

(** CompressedStream::decompress, data.rs:104-109. *)
Definition stream_decompress (s : stream) : res (list f64) :=
  do l <- map_res frame_decompress (s_frames s); Ok (concat l).

(** *** optimizer/mod.rs *)

(** MAX_FRAME_SIZE and MIN_FRAME_SIZE, optimizer/mod.rs:27, 30. *)
Definition MAX_FRAME_SIZE : Z := 131072.
Definition MIN_FRAME_SIZE : Z := 512.

(** OptimizerPlan::clean_data, optimizer/mod.rs:64-71. *)
Definition clean_data (data : list f64) : list f64 :=
  filter (fun x => negb (fis_nan x || fis_infinite x)) data.

(** One round of get_chunks_sizes, optimizer/mod.rs:80-96: chunk size pushed, remaining length. *)
Definition next_chunk (len : Z) : Z * Z :=
  if MAX_FRAME_SIZE <=? len then (MAX_FRAME_SIZE, len - MAX_FRAME_SIZE)
  else if len <=? MIN_FRAME_SIZE then (len, 0)
  else (prev_power_of_two len, len - prev_power_of_two len).
(** The while loop; fuel = number of samples suffices since every chunk is positive.
    [None]: fuel exhausted, proved unreachable (C10). *)
Fixpoint chunks_loop (fuel : nat) (len : Z) : option (list Z) :=
  if len <=? 0 then Some []
  else match fuel with
       | O => None
       | S fuel' =>
           let '(size, rest) := next_chunk len in
           match chunks_loop fuel' rest with
           | Some l => Some (size :: l)
           | None => None
           end
       end.
(** OptimizerPlan::get_chunks_sizes, optimizer/mod.rs:78-98. *)
Definition get_chunks_sizes (len : nat) : res (list Z) :=
  match chunks_loop len (Z.of_nat len) with Some l => Ok l | None => Panic PFuel end.

(** OptimizerPlan, optimizer/mod.rs:38-43. *)
Record plan := { pn_data : list f64; pn_chunks : list Z; pn_compressors : list compressor }.

(** [&data[s..s+size]] with its bounds check. *)
Definition slice {A} (l : list A) (s size : Z) : res (list A) :=
  if Z.of_nat (length l) <? s + size then Panic PIndex
  else Ok (firstn (Z.to_nat size) (skipn (Z.to_nat s) l)).

(** OptimizerPlan::assign_compressor with max_error = None, optimizer/mod.rs:117-134, and
    get_compressor, 112-115 (always FFT; its map is lazy and never runs). *)
Fixpoint assign_compressor (data : list f64) (chunks : list Z) (s : Z) : res (list compressor) :=
  match chunks with
  | [] => Ok []
  | size :: chunks' =>
      do _ <- slice data s size;
      do r <- assign_compressor data chunks' (s + size);
      Ok (FFT :: r)
  end.

(** OptimizerPlan::plan, optimizer/mod.rs:47-56. *)
Definition make_plan (data : list f64) : res plan :=
  let c_data := clean_data data in
  do chunks <- get_chunks_sizes (length c_data);
  do comps <- assign_compressor c_data chunks 0;
  Ok {| pn_data := c_data; pn_chunks := chunks; pn_compressors := comps |}.

(** OptimizerPlan::set_compressor, optimizer/mod.rs:58-61. *)
Definition set_compressor (pl : plan) (c : compressor) : plan :=
  {| pn_data := pn_data pl; pn_chunks := pn_chunks pl;
     pn_compressors := repeat c (length (pn_compressors pl)) |}.

(** OptimizerPlan::get_execution, optimizer/mod.rs:101-109. *)
Fixpoint execution_loop (data : list f64) (comps : list compressor) (chunks : list Z) (i s : Z)
    : res (list (compressor * list f64)) :=
  match chunks with
  | [] => Ok []
  | size :: chunks' =>
      do c <- index comps i;
      do d <- slice data s size;
      do r <- execution_loop data comps chunks' (i + 1) (s + size);
      Ok ((c, d) :: r)
  end.
Definition get_execution (pl : plan) : res (list (compressor * list f64)) :=
  execution_loop (pn_data pl) (pn_compressors pl) (pn_chunks pl) 0 0.

(** *** main.rs *)

(** The --compressor choices map one to one to Compressor, main.rs:137-145 and 222-232; the
    lossy ones (FFT, Polynomial, IDW and Auto) are compressed with the error bound,
    main.rs:150-162. *)
Definition is_bounded (c : compressor) : bool :=
  match c with FFT | Polynomial | Idw | Auto => true | _ => false end.

(** [arguments.error as f32 / 100.0], main.rs:157. *)
Definition cli_error (err : Z) : f32 := f32_div (int_as_f32 err) (int_as_f32 100).

(** compress_data, main.rs:130-165. *)
Definition compress_data (data : list f64) (c : compressor) (err level : Z) : res (list Z) :=
  do pl <- make_plan data;
  do ex <- get_execution (set_compressor pl c);
  do s <- fold_res (fun s '(cpr, chunk) =>
            if is_bounded c then compress_chunk_bounded_with s chunk cpr (cli_error err) level
            else compress_chunk_with s chunk cpr) ex stream_new;
  Ok (stream_to_bytes s).

(** decompress_data, main.rs:168-172. *)
Definition decompress_data (bytes : list Z) : res (list f64) :=
  do s <- stream_from_bytes bytes; stream_decompress s.

(** bro_reader::read_file on a file with the given contents, bro_reader.rs:31-46:
    fewer than 12 bytes is an I/O error, a wrong mark gives [None]. *)
Inductive read_result := RIoError | RNotBro | RBro (bytes : list Z).
Definition bro_read (contents : list Z) : read_result :=
  if (length contents <? 12)%nat then RIoError
  else if list_eq_dec Z.eq_dec (firstn 4 contents) BRRO then RBro contents
  else RNotBro.
End Env.
