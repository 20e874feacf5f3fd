(** The command-line tools: csv-compressor/src/metric.rs and main.rs, atsc/src/main.rs (file and directory processing),
    tools/src/bin/wav2wbro.rs. *)
From Coq Require Import List ZArith Bool.
From Verif Require Import Base Model_Float Model_Bincode Model_Vsri Model_Wavbrro Model_Csv Model_Stream.
Import ListNotations.
Open Scope Z_scope.

(** * csv-compressor/src/metric.rs *)
(** metric.rs:25-28 struct Metric. *)
Record metric := Metric { mt_wbro : wavbrro; mt_vsri : vsri }.
(** metric.rs:24 (derived default) *)
Definition metric_default : metric := Metric wb_new vsri_new.

(** metric.rs:55-67 append_samples. The second component is the sample of UpdateForPointError, if any. *)
Fixpoint append_samples (p : profile) (m : metric) (samples : list sample) : res (metric * option sample) :=
  match samples with
  | [] => Ok (m, None)
  | s :: rest =>
    do ts <- day_elapsed_seconds (Z.quot (sm_ts s) 1000);
    do (v, ok) <- update_for_point p (mt_vsri m) ts;
    if ok : bool
    then do w <- wb_add p (mt_wbro m) (sm_val s); append_samples p (Metric w v) rest
    else Ok (Metric (mt_wbro m) v, Some s)
  end.

(** metric.rs:70-74 from_samples. *)
Inductive metric_result := MetricOk (m : metric) | UpdateForPointError (s : sample).
Definition from_samples (p : profile) (samples : list sample) : res metric_result :=
  do (m, e) <- append_samples p metric_default samples;
  match e with None => Ok (MetricOk m) | Some s => Ok (UpdateForPointError s) end.

(** metric.rs:88-98 get_samples; [i as i32] wraps. *)
Fixpoint pair_samples (p : profile) (v : vsri) (i : nat) (values : list f64) : res (list sample) :=
  match values with
  | [] => Ok []
  | x :: r =>
    do t <- get_time p v (wrap_s 32 (Z.of_nat i));
    match t with
    | None => Panic PUnwrap
    | Some t => do rest <- pair_samples p v (S i) r; Ok (Sample t x :: rest)
    end
  end.
Definition get_samples (p : profile) (m : metric) : res (list sample) := pair_samples p (mt_vsri m) 0 (wb_samples (mt_wbro m)).

(** * Files, by path. Two different names are taken to be two different files (no links, and a path spelled in one way only). *)
Definition name := text.
Definition files := name -> option (list Z).
Definition put (fs : files) (n : name) (content : list Z) : files := fun m => if text_eqb m n then Some content else fs m.

(** PathBuf::set_extension (std::path on Unix; not part of /repo). The file name is the last component of the path, where slashes (47) and
    "/." at the end do not count; if it is missing or one of "." and ".." the path stays. What follows the name's last dot is replaced,
    unless the only dot is the first character (then, or without a dot, the extension is appended). *)
Definition ch_dot : Z := 46.
Fixpoint last_dot (l : name) : option name :=
  match l with
  | [] => None
  | c :: r =>
    match last_dot r with
    | Some s => Some (c :: s)
    | None => if c =? ch_dot then Some [] else None
    end
  end.
Definition file_stem (n : name) : name :=
  match last_dot n with
  | Some [] | None => n
  | Some s => s
  end.
Definition ch_slash : Z := 47.
Fixpoint trim_end (reversed : name) : name :=
  match reversed with
  | c :: r =>
    if c =? ch_slash then trim_end r
    else if c =? ch_dot then match r with d :: _ => if d =? ch_slash then trim_end r else reversed | [] => reversed end
    else reversed
  | [] => []
  end.
(** The last component and what is before it (reversed). *)
Fixpoint last_component (reversed : name) : name * name :=
  match reversed with
  | c :: r => if c =? ch_slash then ([], reversed) else let (f, d) := last_component r in (f ++ [c], d)
  | [] => ([], [])
  end.
Definition set_extension (n : name) (ext : text) : name :=
  let (f, d) := last_component (trim_end (rev n)) in
  if text_eqb f [] || text_eqb f [ch_dot] || text_eqb f [ch_dot; ch_dot] then n
  else rev d ++ file_stem f ++ [ch_dot] ++ ext.
Definition ext_bro : text := [98; 114; 111].
Definition ext_wbro : text := [119; 98; 114; 111].
Definition ext_wavbro : text := [119; 97; 118; 98; 114; 111].
Definition ext_vsri : text := [118; 115; 114; 105].
Definition ext_csv : text := [99; 115; 118].

(** How a call ended: normally, with an error returned, or by a panic. Everything written before stays on disk. *)
Inductive tool_error := IoError | WbroFormatError | CsvError (e : csv_error).
Inductive outcome := Done | Failed (e : tool_error) | Panicked.

Section Tools.
Variable e : env.
Variable p : profile.
Variable nt : number_text.

(** The operating system is taken to write files completely (see C38 for short writes). *)
Definition wbro_file (content : list Z) : res (list Z) := write_wavbrro_file (Wrote (length wbro_header)) (Wrote (length content)) content.
Definition put_wbro (fs : files) (n : name) (w : wavbrro) : files * outcome :=
  match (do c <- wb_to_bytes w; wbro_file c) with
  | Ok f => (put fs n f, Done)
  | Panic _ => (fs, Panicked)
  end.

(** * atsc/src/main.rs *)
(** main.rs:174-220 Args, as far as it influences the files; [a_fields] has the default time,value (main.rs:218), so the
    fallback of main.rs:96 is never used. *)
Record atsc_args := {
  a_compressor : compressor; a_error : Z; a_level : Z; a_uncompress : bool; a_csv : bool; a_no_header : bool; a_fields : text }.

(** main.rs:104-113 and 115-125: compress and write next to the input. *)
Definition compress_to (a : atsc_args) (fs : files) (n : name) (data : list f64) : files * outcome :=
  match compress_data e p data (a_compressor a) (a_error a) (a_level a) with
  | Ok bytes => (put fs (set_extension n ext_bro) bytes, Done)
  | Panic _ => (fs, Panicked)
  end.

(** main.rs:70-127 process_single_file. *)
Definition process_single_file (a : atsc_args) (fs : files) (n : name) : files * outcome :=
  if a_uncompress a then
    match fs n with
    | None => (fs, Failed IoError)
    | Some b =>
      match bro_read b with
      | RIoError => (fs, Failed IoError)
      | RNotBro => (fs, Done)
      | RBro bytes =>
        match decompress_data e p bytes with
        | Panic _ => (fs, Panicked)
        | Ok out => put_wbro fs (set_extension n ext_wbro) (wb_from_slice out)
        end
      end
    end
  else if a_csv a then
    let samples :=
      if a_no_header a then read_samples nt (fs n)
      else match split_on ch_comma (a_fields a) with
           | h0 :: h1 :: _ => read_samples_with_headers nt (fs n) h0 h1
           | _ => Panic PIndex
           end in
    match samples with
    | Panic _ => (fs, Panicked)
    | Ok (CsvFailed err) => (fs, Failed (CsvError err))
    | Ok (Samples l) => compress_to a fs n (map sm_val l)
    end
  else
    match from_file (fs n) with
    | Panic _ => (fs, Panicked)
    | Ok WbIoError => (fs, Failed IoError)
    | Ok WbFormatError => (fs, Failed WbroFormatError)
    | Ok (WbSamples data) => compress_to a fs n data
    end.

(** main.rs:50-68 process_directory. [entries] are the paths (the directory joined with the names) the operating system yields, in its order; it may or may not
    include files created during the walk. Names that are no files (any more) are skipped. *)
Fixpoint process_directory (a : atsc_args) (fs : files) (entries : list name) : files * outcome :=
  match entries with
  | [] => (fs, Done)
  | n :: rest =>
    match fs n with
    | None => process_directory a fs rest
    | Some _ =>
      let (fs1, o1) := process_single_file a fs n in
      match o1 with
      | Done => process_directory a fs1 rest
      | Panicked => (fs1, Panicked)
      | Failed _ =>
        let (fs2, o2) := process_single_file a fs1 n in
        match o2 with
        | Done => process_directory a fs2 rest
        | _ => (fs2, o2)
        end
      end
    end
  end.

(** * csv-compressor/src/main.rs *)
(** main.rs:32-81 Args. The error default is 5; the compressors are those of atsc without RLE. *)
Record csvc_args := {
  c_input : name; c_output : option name; c_uncompress : bool; c_no_compression : bool; c_output_vsri : bool; c_output_wavbrro : bool;
  c_compressor : compressor; c_error : Z; c_level : Z }.

(** main.rs:94-126 compress_data and 129-133 decompress_data are those of atsc (is_bounded treats the common compressors alike).
    main.rs:141-211 process_args; every failure is an [expect]. *)
Definition csvc_uncompress (a : csvc_args) (fs : files) : files * outcome :=
  let base := match c_output a with Some o => o | None => c_input a end in
  match fs (c_input a) with
  | None => (fs, Panicked)
  | Some b =>
    match bro_read b with
    | RIoError => (fs, Panicked)
    | RNotBro => (fs, Done)
    | RBro bytes =>
      match (do out <- decompress_data e p bytes; do w <- fold_res (wb_add p) out wb_new; Ok (out, w)) with
      | Panic _ => (fs, Panicked)
      | Ok (out, w) =>
        match fs (set_extension (c_input a) ext_vsri) with
        | None => (fs, Panicked)
        | Some ib =>
          match load ib with
          | Panic _ => (fs, Panicked)
          | Ok index =>
            let wname := set_extension base ext_wbro in
            let (fs1, o1) := put_wbro fs wname (wb_from_slice out) in
            match o1 with
            | Done =>
              match get_samples p (Metric w index) with
              | Panic _ => (fs1, Panicked)
              | Ok samples => (put fs1 (set_extension wname ext_csv) (write_samples_text nt samples), Done)
              end
            | _ => (fs1, o1)
            end
          end
        end
      end
    end
  end.

(** main.rs:136-139 process_csv. *)
Definition process_csv (file : option (list Z)) : res metric :=
  match read_samples_from_csv_file nt file with
  | None => Panic PUnwrap
  | Some samples =>
    do r <- from_samples p samples;
    match r with MetricOk m => Ok m | UpdateForPointError _ => Panic PUnwrap end
  end.

(** main.rs:183-210, the branch without -u. *)
Definition csvc_compress (a : csvc_args) (fs : files) : files * outcome :=
  let base := match c_output a with Some o => o | None => c_input a end in
  match process_csv (fs (c_input a)) with
  | Panic _ => (fs, Panicked)
  | Ok m =>
    let (fs1, o1) := if c_output_wavbrro a then put_wbro fs (set_extension base ext_wavbro) (mt_wbro m) else (fs, Done) in
    match o1 with
    | Done =>
      let fs2 := if c_output_vsri a then put fs1 (set_extension base ext_vsri) (flush_bytes (mt_vsri m)) else fs1 in
      if c_no_compression a then (fs2, Done)
      else match compress_data e p (wb_samples (mt_wbro m)) (c_compressor a) (c_error a) (c_level a) with
           | Panic _ => (fs2, Panicked)
           | Ok bytes => (put fs2 (set_extension base ext_bro) bytes, Done)
           end
    | _ => (fs1, o1)
    end
  end.

(** main.rs:141-150. *)
Definition csvc_process_args (a : csvc_args) (fs : files) : files * outcome :=
  if c_uncompress a then csvc_uncompress a fs else csvc_compress a fs.
End Tools.

(** * tools/src/bin/wav2wbro.rs *)
(** wav2wbro.rs:61-72 join_u16_into_f64. *)
Definition join_u16_into_f64 (b0 b1 b2 b3 : Z) : f64 :=
  from_bits (Z.lor (Z.lor (Z.lor b0 (Z.shiftl b1 16)) (Z.shiftl b2 32)) (Z.shiftl b3 48)).

(** wav2wbro.rs:35-59 read_metrics_from_wav: [channels] and the 16-bit samples are what the hound crate delivers ([None]: it refuses
    the file; samples it fails to read, which panic, are not modelled). The holder of four words is kept between frames. *)
Fixpoint set_nth (i : nat) (x : Z) (l : list Z) : option (list Z) :=
  match i, l with
  | O, _ :: r => Some (x :: r)
  | S k, y :: r => option_map (cons y) (set_nth k x r)
  | _, [] => None
  end.
Fixpoint read_wav (channels : nat) (holder : list Z) (current : nat) (samples : list Z) : res (list f64) :=
  match samples with
  | [] => Ok []
  | s :: rest =>
    match set_nth current (wrap_u 16 s) holder with
    | None => Panic PIndex
    | Some h =>
      if (S current =? channels)%nat
      then do r <- read_wav channels h 0 rest; Ok (join_u16_into_f64 (nth 0 h 0) (nth 1 h 0) (nth 2 h 0) (nth 3 h 0) :: r)
      else read_wav channels h (S current) rest
    end
  end.
Definition read_metrics_from_wav (wav : option (nat * list Z)) : res (list f64) :=
  match wav with
  | None => Ok []
  | Some (channels, samples) => read_wav channels [0; 0; 0; 0] 0 samples
  end.

(** wav2wbro.rs:85-99: NaN samples are not added. *)
Definition add_unless_nan (p : profile) (w : wavbrro) (x : f64) : res wavbrro := if fis_nan x then Ok w else wb_add p w x.
Definition wav_to_wavbrro (p : profile) (wav : option (nat * list Z)) : res wavbrro :=
  do data <- read_metrics_from_wav wav; fold_res (add_unless_nan p) data wb_new.

(** wav2wbro.rs:25-33 is_wav_file: [None] is the panic on a file of fewer than 12 bytes. *)
Definition mark_riff : list Z := [82; 73; 70; 70].
Definition mark_wave : list Z := [87; 65; 86; 69].
Definition is_wav_file (b : list Z) : option bool :=
  if (length b <? 12)%nat then None
  else Some ((if list_eq_dec Z.eq_dec (firstn 4 b) mark_riff then true else false) && (if list_eq_dec Z.eq_dec (firstn 4 (skipn 8 b)) mark_wave then true else false)).

(** [str::strip_suffix]. *)
Definition strip_suffix (n suffix : text) : option text :=
  let k := (length n - length suffix)%nat in
  if (length suffix <=? length n)%nat && text_eqb (skipn k n) suffix then Some (firstn k n) else None.
Definition ext_wav : text := [119; 97; 118].

(** [==] on vectors of doubles. *)
Fixpoint feq_list (a b : list f64) : bool :=
  match a, b with
  | [], [] => true
  | x :: a', y :: b' => feq x y && feq_list a' b'
  | _, _ => false
  end.

(** wav2wbro.rs:85-110 main. [decode] is the hound crate. The boolean tells whether the message of line 106 is printed. *)
Definition wav2wbro_main (p : profile) (decode : list Z -> option (nat * list Z)) (validate : bool) (fs : files) (n : name) : files * outcome * bool :=
  match fs n with
  | None => (fs, Panicked, false)
  | Some b =>
    match is_wav_file b with
    | Some true =>
      match (do data <- read_metrics_from_wav (decode b); do w <- fold_res (add_unless_nan p) data wb_new; Ok (data, w)) with
      | Panic _ => (fs, Panicked, false)
      | Ok (data, w) =>
        match strip_suffix n ext_wav with
        | None => (fs, Panicked, false)
        | Some stem =>
          let (fs1, o) := put_wbro fs (stem ++ ext_wbro) w in
          match o with
          | Done => if validate then (if feq_list data (wb_samples w) then (fs1, Done, true) else (fs1, Panicked, false)) else (fs1, Done, false)
          | _ => (fs1, o, false)
          end
        end
      end
    | _ => (fs, Panicked, false)
    end
  end.
