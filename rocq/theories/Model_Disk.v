(** The file operations the command-line tools issue, one by one, so that a process can be stopped between or within them.
    The functions follow those of Model_Cli and return the operations instead of the final files. What is modelled is a process that
    stops (killed, or failing at a full disk); the operating system itself keeps running, so completed operations stay. *)
From Coq Require Import List ZArith Bool.
From Verif Require Import Base Model_Float Model_Bincode Model_Vsri Model_Wavbrro Model_Csv Model_Stream Model_Cli.
Import ListNotations.
Open Scope Z_scope.

(** [File::create] (makes the file or empties it) and a write at an offset. *)
Inductive disk_op := Create (n : name) | WriteAt (n : name) (off : nat) (b : list Z).
Definition content (fs : files) (n : name) : list Z := match fs n with Some b => b | None => [] end.
Definition do_op (fs : files) (o : disk_op) : files :=
  match o with
  | Create n => put fs n []
  | WriteAt n off b => put fs n (write_at (content fs n) off b)
  end.
Definition run_ops (ops : list disk_op) (fs : files) : files := fold_left do_op ops fs.

(** What a process leaves that stops before, between or within its operations: a write may have come through in part. *)
Inductive stopped : list disk_op -> files -> files -> Prop :=
| stopped_here ops fs : stopped ops fs fs
| stopped_within n off b k rest fs : stopped (WriteAt n off b :: rest) fs (do_op fs (WriteAt n off (firstn k b)))
| stopped_later o rest fs fs' : stopped rest (do_op fs o) fs' -> stopped (o :: rest) fs fs'.

(** [std::fs::write] (create, then write_all). *)
Definition write_whole (n : name) (b : list Z) : list disk_op := [Create n; WriteAt n 0 b].
(** wavbrro/src/write.rs:21-28 write_wavbrro_file. *)
Definition write_wbro (n : name) (b : list Z) : list disk_op := [Create n; WriteAt n 0 wbro_header; WriteAt n (length wbro_header) b].

Section Tools.
Variable e : env.
Variable p : profile.
Variable nt : number_text.

Definition ops_wbro (n : name) (w : wavbrro) : list disk_op * outcome :=
  match wb_to_bytes w with
  | Ok b => (write_wbro n b, Done)
  | Panic _ => ([], Panicked)
  end.

(** atsc/src/main.rs:104-113 and 115-125. *)
Definition ops_compress_to (a : atsc_args) (n : name) (data : list f64) : list disk_op * outcome :=
  match compress_data e p data (a_compressor a) (a_error a) (a_level a) with
  | Ok bytes => (write_whole (set_extension n ext_bro) bytes, Done)
  | Panic _ => ([], Panicked)
  end.

(** atsc/src/main.rs:70-127 process_single_file. *)
Definition ops_single_file (a : atsc_args) (fs : files) (n : name) : list disk_op * outcome :=
  if a_uncompress a then
    match fs n with
    | None => ([], Failed IoError)
    | Some b =>
      match bro_read b with
      | RIoError => ([], Failed IoError)
      | RNotBro => ([], Done)
      | RBro bytes =>
        match decompress_data e p bytes with
        | Panic _ => ([], Panicked)
        | Ok out => ops_wbro (set_extension n ext_wbro) (wb_from_slice out)
        end
      end
    end
  else if a_csv a then
    let samples :=
      if a_no_header a then read_samples nt (fs n)
      else match split_on ch_comma (a_fields a) with
           | h0 :: h1 :: _ => read_samples_with_headers nt (fs n) h0 h1
           | _ => Panic PIndex
           end in
    match samples with
    | Panic _ => ([], Panicked)
    | Ok (CsvFailed err) => ([], Failed (CsvError err))
    | Ok (Samples l) => ops_compress_to a n (map sm_val l)
    end
  else
    match from_file (fs n) with
    | Panic _ => ([], Panicked)
    | Ok WbIoError => ([], Failed IoError)
    | Ok WbFormatError => ([], Failed WbroFormatError)
    | Ok (WbSamples data) => ops_compress_to a n data
    end.

(** csv-compressor/src/main.rs:148-181. The CSV writer buffers; its pieces are one write here. *)
Definition ops_csvc_uncompress (a : csvc_args) (fs : files) : list disk_op * outcome :=
  let base := match c_output a with Some o => o | None => c_input a end in
  match fs (c_input a) with
  | None => ([], Panicked)
  | Some b =>
    match bro_read b with
    | RIoError => ([], Panicked)
    | RNotBro => ([], Done)
    | RBro bytes =>
      match (do out <- decompress_data e p bytes; do w <- fold_res (wb_add p) out wb_new; Ok (out, w)) with
      | Panic _ => ([], Panicked)
      | Ok (out, w) =>
        match fs (set_extension (c_input a) ext_vsri) with
        | None => ([], Panicked)
        | Some ib =>
          match load ib with
          | Panic _ => ([], Panicked)
          | Ok index =>
            let wname := set_extension base ext_wbro in
            let (ops1, o1) := ops_wbro wname (wb_from_slice out) in
            match o1 with
            | Done =>
              match get_samples p (Metric w index) with
              | Panic _ => (ops1, Panicked)
              | Ok samples => (ops1 ++ write_whole (set_extension wname ext_csv) (write_samples_text nt samples), Done)
              end
            | _ => (ops1, o1)
            end
          end
        end
      end
    end
  end.

(** csv-compressor/src/main.rs:183-210; vsri/src/lib.rs:434-453 flush (create, buffered writes). *)
Definition ops_csvc_compress (a : csvc_args) (fs : files) : list disk_op * outcome :=
  let base := match c_output a with Some o => o | None => c_input a end in
  match process_csv p nt (fs (c_input a)) with
  | Panic _ => ([], Panicked)
  | Ok m =>
    let (ops1, o1) := if c_output_wavbrro a then ops_wbro (set_extension base ext_wavbro) (mt_wbro m) else ([], Done) in
    match o1 with
    | Done =>
      let ops2 := ops1 ++ (if c_output_vsri a then write_whole (set_extension base ext_vsri) (flush_bytes (mt_vsri m)) else []) in
      if c_no_compression a then (ops2, Done)
      else match compress_data e p (wb_samples (mt_wbro m)) (c_compressor a) (c_error a) (c_level a) with
           | Panic _ => (ops2, Panicked)
           | Ok bytes => (ops2 ++ write_whole (set_extension base ext_bro) bytes, Done)
           end
    | _ => (ops1, o1)
    end
  end.

(** csv-compressor/src/main.rs:141-150. *)
Definition ops_csvc (a : csvc_args) (fs : files) : list disk_op * outcome :=
  if c_uncompress a then ops_csvc_uncompress a fs else ops_csvc_compress a fs.
End Tools.
