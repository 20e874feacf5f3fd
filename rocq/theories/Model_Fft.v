(** atsc/src/compressor/fft.rs. The transforms of [rustfft] and the pop order of
    std's BinaryHeap are arbitrary functions ([Record fft_env]) over which every theorem
    quantifies; the assumptions a theorem makes about them are in its statement. *)
From Coq Require Import List ZArith Bool.
From Verif Require Import Base Model_Float Model_Bincode Model_Stats Model_Compressors Model_Utils
  Model_Polynomial.
Import ListNotations.
Open Scope Z_scope.

(** Complex<f32>: (re, im). *)
Definition c32 : Type := f32 * f32.

Definition f32_zero : f32 := int_as_f32 0.

(** FrequencyPoint, fft.rs:33-39. *)
Record freq := { fq_pos : Z; fq_re : f32; fq_im : f32 }.

(** Derived Encode/Decode of FrequencyPoint. *)
Definition enc_freq (f : freq) : list Z := enc_u16 (fq_pos f) ++ enc_f32 (fq_re f) ++ enc_f32 (fq_im f).
Definition dec_freq : decoder freq :=
  dlet p <- dec_u16; dlet r <- dec_f32; dlet i <- dec_f32;
  dret {| fq_pos := p; fq_re := r; fq_im := i |}.

(** What the code takes from its dependencies. [fe_fft n] / [fe_ifft n] are the planned
    forward / inverse transforms of size n (fft.rs:272-276, 318-323, 339-340, 448-451);
    [fe_pops] lists a BinaryHeap built from a vector in the order its pops return the
    elements (fft.rs:245-248; ordered by complex norm, fft.rs:66-106). *)
Record fft_env := {
  fe_fft : list c32 -> list c32;
  fe_ifft : list c32 -> list c32;
  fe_pops : list freq -> list freq }.

(** FFT, fft.rs:110-116. *)
Record fft_c := { ff_freqs : list freq; ff_max : f32; ff_min : f32; ff_error : option f64 }.

(** FFT_COMPRESSOR_ID and DECIMAL_PRECISION, fft.rs:28-29. *)
Definition FFT_COMPRESSOR_ID : Z := 15.

(** Encode for FFT, fft.rs:119-130. *)
Definition enc_fft (c : fft_c) : list Z :=
  enc_u8 FFT_COMPRESSOR_ID ++ enc_vec enc_freq (ff_freqs c) ++ enc_f32 (ff_max c) ++ enc_f32 (ff_min c).
(** BorrowDecode for FFT, fft.rs:146-158. *)
Definition dec_fft : decoder fft_c :=
  dlet _ <- dec_u8;
  dlet fs <- dec_vec dec_freq;
  dlet mx <- dec_f32;
  dlet mn <- dec_f32;
  dret {| ff_freqs := fs; ff_max := mx; ff_min := mn; ff_error := None |}.

(** FFT::new, fft.rs:162-171, and f64_to_f32, 173-180 (the overflow is only logged). *)
Definition fft_new (mn mx : f64) : fft_c :=
  {| ff_freqs := []; ff_max := f64_as_f32 mx; ff_min := f64_as_f32 mn; ff_error := None |}.

(** FFT::gibbs_sizing, fft.rs:184-204. *)
Definition gibbs_added (n : nat) : nat := Z.to_nat (next_size (Z.of_nat n)) - n.
Definition gibbs_sizing (data : list f64) : list f64 :=
  let added_len := gibbs_added (length data) in
  let prefix_len := (added_len / 2)%nat in
  let suffix_len := (added_len - prefix_len)%nat in
  match data, last_opt data with
  | first :: _, Some lst => repeat first prefix_len ++ data ++ repeat lst suffix_len
  | _, _ => []
  end.

(** FFT::round, fft.rs:208-218, with decimals = 5. *)
Definition fft_round (c : fft_c) (x : f32) : f64 :=
  let y := int_as_f64 (10 ^ 5) in
  let out := fdiv (fround (fmul (f32_as_f64 x) y)) y in
  if fgt out (f32_as_f64 (ff_max c)) then f32_as_f64 (ff_max c)
  else if flt out (f32_as_f64 (ff_min c)) then f32_as_f64 (ff_min c)
  else out.

(** FFT::optimize, fft.rs:221-228. *)
Definition fft_optimize (data : list f64) : list c32 :=
  map (fun x => (f64_as_f32 x, f32_zero)) data.

(** Bins with their position as u16, fft.rs:239-243 ([pos as u16] drops high bits). *)
Definition bins (buffer : list c32) : list freq :=
  map (fun '(k, (re, im)) => {| fq_pos := wrap_u 16 (Z.of_nat k); fq_re := re; fq_im := im |})
      (combine (seq 0 (length buffer)) buffer).

Definition freq_is_zero (f : freq) : bool := f32_eq (fq_im f) f32_zero && f32_eq (fq_re f) f32_zero.

(** The popping loop, fft.rs:247-255. *)
Fixpoint pop_freqs (n : nat) (pops : list freq) : list freq :=
  match n, pops with
  | S n', item :: pops' => if freq_is_zero item then [] else item :: pop_freqs n' pops'
  | _, _ => []
  end.

Section Env.
Variable env : fft_env.

(** FFT::fft_trim, fft.rs:231-257. *)
Definition fft_trim (buffer : list c32) (max_freq : nat) : res (list freq) :=
  if (max_freq =? 1)%nat then
    match buffer with
    | [] => Panic PIndex
    | (re, im) :: _ => Ok [{| fq_pos := 0; fq_re := re; fq_im := im |}]
    end
  else Ok (pop_freqs max_freq (fe_pops env (bins buffer))).

(** [buffer.truncate(len / 2 + 1)], fft.rs:279-280, 327-328, 385-386. *)
Definition half_spectrum (buffer : list c32) : list c32 := firstn (length buffer / 2 + 1) buffer.

Definition with_freqs (c : fft_c) (fs : list freq) : fft_c :=
  {| ff_freqs := fs; ff_max := ff_max c; ff_min := ff_min c; ff_error := ff_error c |}.

(** FFT::compress_hinted, fft.rs:262-282. *)
Definition fft_compress_hinted (c : fft_c) (data : list f64) (max_freq : nat) : res fft_c :=
  if f32_eq (ff_max c) (ff_min c) then Ok c
  else
    do fs <- fft_trim (half_spectrum (fe_fft env (fft_optimize data))) max_freq;
    Ok (with_freqs c fs).

(** Default number of frequencies, fft.rs:298-302 and 373. *)
Definition default_freqs (n : nat) : nat := if (n / 100 <=? 3)%nat then 3%nat else (n / 100)%nat.

(** FFT::compress, fft.rs:366-388. *)
Definition fft_compress (c : fft_c) (data : list f64) : res fft_c :=
  fft_compress_hinted c data (default_freqs (length data)).

(** [data[i] = v] with a bounds check. *)
Fixpoint set_nth {A} (i : nat) (v : A) (l : list A) : res (list A) :=
  match l, i with
  | [], _ => Panic PIndex
  | _ :: l', O => Ok (v :: l')
  | x :: l', S i' => do r <- set_nth i' v l'; Ok (x :: r)
  end.

(** to_complex / to_inv_complex, fft.rs:50-62. *)
Definition to_complex (f : freq) : c32 := (fq_re f, fq_im f).
Definition to_inv_complex (f : freq) : c32 := (fq_re f, f32_mul (fq_im f) (int_as_f32 (-1))).

(** Body of the loop of get_mirrored_freqs, fft.rs:411-420. [len - pos] cannot underflow:
    [data[pos]] has just been bounds checked. *)
Definition mirror_step (len : nat) (data : list c32) (f : freq) : res (list c32) :=
  let pos := Z.to_nat (fq_pos f) in
  do data <- set_nth pos (to_complex f) data;
  if (pos =? 0)%nat then Ok data
  else set_nth (len - pos) (to_inv_complex f) data.

(** FFT::get_mirrored_freqs, fft.rs:401-422. *)
Definition get_mirrored_freqs (c : fft_c) (len : nat) : res (list c32) :=
  fold_res (mirror_step len) (ff_freqs c) (repeat (f32_zero, f32_zero) len).

(** [idata.iter().map(|f| self.round(f.re / len, 5))], fft.rs:341-344 and 455-461. *)
Definition fft_scale (c : fft_c) (len : nat) (data : list c32) : list f64 :=
  map (fun f => fft_round c (f32_div (fst f) (int_as_f32 (Z.of_nat len)))) data.

(** The increments of the error loop, fft.rs:348-352. *)
Definition fft_jump_increment (iterations : Z) (max_freq : nat) : option nat :=
  if iterations <=? 17 then Some (Nat.max (max_freq / 2) 1)
  else if iterations <=? 22 then Some (Nat.max (max_freq / 10) 1)
  else None.

(** [(x * 1000.0) as i32], fft.rs:334. *)
Definition permille (x : f64) : Z := f64_as_i32 (fmul x (int_as_f64 1000)).

(** The loop at fft.rs:334-353, entered at most 24 times. *)
Fixpoint fft_loop (fuel : nat) (g_data : list f64) (spectrum : list c32) (max_err : f64)
    (c : fft_c) (current_err : f64) (max_freq jump : nat) (iterations : Z) : res (fft_c * f64) :=
  if negb (permille max_err <? permille current_err) then Ok (c, current_err)
  else
    match fuel with
    | O => Panic PFuel
    | S fuel' =>
        let iterations := iterations + 1 in
        let len := length g_data in
        do fs <- fft_trim spectrum (max_freq + jump);
        let c := with_freqs c fs in
        do idata <- get_mirrored_freqs c len;
        let out := fft_scale c len (fe_ifft env idata) in
        do current_err <- calculate_error g_data out;
        match fft_jump_increment iterations max_freq with
        | Some inc => fft_loop fuel' g_data spectrum max_err c current_err max_freq (jump + inc) iterations
        | None => Ok (c, current_err)
        end
    end.

(** Should the data be padded, fft.rs:305-309 and 432. *)
Definition gibbs_applies (n : nat) : bool := (128 <=? n)%nat.
Definition gibbs_data (data : list f64) : list f64 :=
  if gibbs_applies (length data) then gibbs_sizing data else data.

(** FFT::compress_bounded, fft.rs:288-362. *)
Definition fft_compress_bounded (c : fft_c) (data : list f64) (max_err : f64) : res fft_c :=
  if f32_eq (ff_max c) (ff_min c) then Ok c
  else
    let max_freq := default_freqs (length data) in
    let g_data := gibbs_data data in
    let spectrum := half_spectrum (fe_fft env (fft_optimize g_data)) in
    do r <- fft_loop 24 g_data spectrum max_err c (fadd max_err f1) max_freq 0 0;
    let '(c, err) := r in
    Ok {| ff_freqs := ff_freqs c; ff_max := ff_max c; ff_min := ff_min c; ff_error := Some err |}.

(** FFT::to_data, fft.rs:426-462. *)
Definition trim_sizes (frame_size : nat) : nat * nat :=
  if gibbs_applies frame_size then
    let added_len := gibbs_added frame_size in
    let prefix_len := (added_len / 2)%nat in
    (prefix_len, (added_len - prefix_len)%nat)
  else (0%nat, 0%nat).
Definition fft_expand (c : fft_c) (frame_size : nat) : res (list f64) :=
  if f32_eq (ff_max c) (ff_min c) then Ok (repeat (f32_as_f64 (ff_max c)) frame_size)
  else
    let '(prefix_len, suffix_len) := trim_sizes frame_size in
    let gibbs_frame_size := (frame_size + prefix_len + suffix_len)%nat in
    do data <- get_mirrored_freqs c gibbs_frame_size;
    let data := fe_ifft env data in
    Ok (fft_scale c gibbs_frame_size
          (firstn (length data - prefix_len - suffix_len) (skipn prefix_len data))).

(** The min/max scan of fft, fft_allowed_error and fft_set (fft.rs:468-477, 496-505, 528-537). *)
Definition minmax_step (mm : f64 * f64) (e : f64) : f64 * f64 :=
  let '(mn, mx) := mm in
  (if flt e mn then e else mn, if fgt e mx then e else mx).
Definition fft_minmax (data : list f64) : res (f64 * f64) :=
  match data with
  | [] => Panic PIndex
  | d0 :: _ => Ok (fold_left minmax_step data (d0, d0))
  end.

(** fft, fft.rs:466-484. *)
Definition fft (data : list f64) : res (list Z) :=
  do mm <- fft_minmax data;
  do c <- fft_compress (fft_new (fst mm) (snd mm)) data;
  Ok (enc_fft c).

(** fft_set, fft.rs:526-544. *)
Definition fft_set (data : list f64) (freqs : nat) : res (list Z) :=
  do mm <- fft_minmax data;
  do c <- fft_compress_hinted (fft_new (fst mm) (snd mm)) data freqs;
  Ok (enc_fft c).

(** fft_compressor, fft.rs:516-524. *)
Definition fft_compressor (data : list f64) (allowed_error : f64) (s : stats) : res cresult :=
  do c <- fft_compress_bounded (fft_new (st_min s) (st_max s)) data allowed_error;
  Ok {| cr_data := enc_fft c; cr_error := match ff_error c with Some e => e | None => f0 end |}.

(** fft_allowed_error, fft.rs:494-512. *)
Definition fft_allowed_error (data : list f64) (allowed_error : f64) : res cresult :=
  do mm <- fft_minmax data;
  do c <- fft_compress_bounded (fft_new (fst mm) (snd mm)) data allowed_error;
  Ok {| cr_data := enc_fft c; cr_error := match ff_error c with Some e => e | None => f0 end |}.

(** fft_to_data, fft.rs:487-490. *)
Definition fft_to_data (sample_number : nat) (bytes : list Z) : res (list f64) :=
  do c <- decode_unwrap dec_fft bytes; fft_expand c sample_number.
End Env.
