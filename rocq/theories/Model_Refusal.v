(** The tools on a disk that may refuse: every call to the operating system is answered from a list, and what the code makes of the answer
    is modelled call by call. The functions follow those of Model_Cli and Model_Command, which describe the disk that never refuses. *)
From Coq Require Import List ZArith Bool.
From Verif Require Import Base Model_Float Model_Bincode Model_Vsri Model_Wavbrro Model_Csv Model_Stream Model_Cli Model_Disk Model_Args Model_Command.
Import ListNotations.
Open Scope Z_scope.

(** What the operating system answers to a call: it does all of it, only a part (of a write: the first [k] bytes; of a read: some bytes),
    it was interrupted by a signal, or it refuses (no permission, no space left, a broken medium). A list that is used up stands for a
    system that does everything from then on. *)
Inductive answer := All | Part (k : nat) | Interrupted | Refused.
Definition answers := list answer.

(** Opening and reading a file to its end (File::open, read_exact, read_to_end, BufRead::lines of std): short reads and interrupted calls
    are repeated; a refusal is the error a missing file gives as well. bro_reader.rs:25-46, wavbrro/src/read.rs:23-37, vsri/src/lib.rs:455-497. *)
Fixpoint read_whole (file : option (list Z)) (os : answers) : option (list Z) * answers :=
  match os with
  | [] => (file, [])
  | All :: os' => (file, os')
  | Part _ :: os' | Interrupted :: os' => read_whole file os'
  | Refused :: os' => (None, os')
  end.
(** The csv crate's reader (atsc/src/csv.rs, csv-compressor/src/csv.rs:43-47) repeats short reads, but not interrupted ones. *)
Fixpoint read_csv_whole (file : option (list Z)) (os : answers) : option (list Z) * answers :=
  match os with
  | [] => (file, [])
  | All :: os' => (file, os')
  | Part _ :: os' => read_csv_whole file os'
  | Interrupted :: os' | Refused :: os' => (None, os')
  end.

(** File::create (std): repeated when interrupted. The boolean is false for an error. *)
Fixpoint create_file (fs : files) (n : name) (os : answers) : files * answers * bool :=
  match os with
  | [] => (put fs n [], [], true)
  | All :: os' | Part _ :: os' => (put fs n [], os', true)
  | Interrupted :: os' => create_file fs n os'
  | Refused :: os' => (fs, os', false)
  end.
(** Write::write_all (std) at the end of a file: until everything is written; a write of no bytes is an error, an interrupted one is repeated. *)
Fixpoint write_all (fs : files) (n : name) (b : list Z) (os : answers) : files * answers * bool :=
  match b with
  | [] => (fs, os, true)
  | _ =>
    match os with
    | [] => (put fs n (content fs n ++ b), [], true)
    | All :: os' => (put fs n (content fs n ++ b), os', true)
    | Part O :: os' => (fs, os', false)
    | Part k :: os' => write_all (put fs n (content fs n ++ firstn k b)) n (skipn k b) os'
    | Interrupted :: os' => write_all fs n b os'
    | Refused :: os' => (fs, os', false)
    end
  end.
(** std::fs::write. *)
Definition write_file (fs : files) (n : name) (b : list Z) (os : answers) : files * answers * bool :=
  let '(fs1, os1, ok) := create_file fs n os in if ok then write_all fs1 n b os1 else (fs1, os1, false).

(** FileExt::write_at (std): one call; how much was written is its result, which wavbrro/src/write.rs:24-26 does not look at. *)
Definition write_once (fs : files) (n : name) (off : nat) (b : list Z) (os : answers) : files * answers * bool :=
  match os with
  | [] => (do_op fs (WriteAt n off b), [], true)
  | All :: os' => (do_op fs (WriteAt n off b), os', true)
  | Part k :: os' => (do_op fs (WriteAt n off (firstn k b)), os', true)
  | Interrupted :: os' | Refused :: os' => (fs, os', false)
  end.
(** wavbrro/src/write.rs:21-28 write_wavbrro_file; every error is an [expect]. *)
Definition write_wbro_file (fs : files) (n : name) (b : list Z) (os : answers) : files * answers * bool :=
  let '(fs1, os1, ok1) := create_file fs n os in
  if ok1 then
    let '(fs2, os2, ok2) := write_once fs1 n 0 wbro_header os1 in
    if ok2 then write_once fs2 n (length wbro_header) b os2 else (fs2, os2, false)
  else (fs1, os1, false).

Section Tools.
Variable e : env.
Variable p : profile.
Variable nt : number_text.
(** BufWriter (std): how many of the bytes that are still to be written lie in its buffer when a write fails. *)
Variable kept : list Z -> nat.
(** csv::Writer: the pieces, one after the other, in which its buffer is emptied. *)
Variable pieces : list Z -> list (list Z).

(** vsri/src/lib.rs:434-453 flush_to: create, buffered writes, an explicit flush. After an error the BufWriter is dropped, which writes what its
    buffer still holds, whatever comes of it. *)
Definition write_buffered (fs : files) (n : name) (b : list Z) (os : answers) : files * answers * bool :=
  let '(fs1, os1, ok) := create_file fs n os in
  if ok then
    let '(fs2, os2, ok2) := write_all fs1 n b os1 in
    if ok2 then (fs2, os2, true)
    else
      let rest := skipn (length (content fs2 n)) b in
      let '(fs3, os3, _) := write_all fs2 n (firstn (kept rest) rest) os2 in (fs3, os3, false)
  else (fs1, os1, false).

(** csv-compressor/src/csv.rs:50-58 write_samples_to_csv_file: no flush; the last piece is written when the csv::Writer is dropped, which ignores
    errors. If an earlier piece fails, the error is returned, and the drop writes that piece from its start once more. *)
Fixpoint write_pieces (fs : files) (n : name) (ps : list (list Z)) (os : answers) : files * answers * bool :=
  match ps with
  | [] => (fs, os, true)
  | [last] => let '(fs1, os1, _) := write_all fs n last os in (fs1, os1, true)
  | q :: rest =>
    let '(fs1, os1, ok) := write_all fs n q os in
    if ok then write_pieces fs1 n rest os1
    else let '(fs2, os2, _) := write_all fs1 n q os1 in (fs2, os2, false)
  end.
Definition write_csv_file (fs : files) (n : name) (b : list Z) (os : answers) : files * answers * bool :=
  let '(fs1, os1, ok) := create_file fs n os in if ok then write_pieces fs1 n (pieces b) os1 else (fs1, os1, false).

(** wavbrro/src/wavbrro.rs:114-124 to_file_with_data, to_file. *)
Definition refusing_wbro (fs : files) (n : name) (w : wavbrro) (os : answers) : files * answers * outcome :=
  match wb_to_bytes w with
  | Panic _ => (fs, os, Panicked)
  | Ok b => let '(fs1, os1, ok) := write_wbro_file fs n b os in (fs1, os1, if ok then Done else Panicked)
  end.

(** * atsc *)
(** atsc/src/main.rs:104-113 and 115-125; the error of std::fs::write is returned. *)
Definition refusing_compress_to (a : atsc_args) (fs : files) (n : name) (data : list f64) (os : answers) : files * answers * outcome :=
  match compress_data e p data (a_compressor a) (a_error a) (a_level a) with
  | Panic _ => (fs, os, Panicked)
  | Ok bytes => let '(fs1, os1, ok) := write_file fs (set_extension n ext_bro) bytes os in (fs1, os1, if ok then Done else Failed IoError)
  end.

(** atsc/src/main.rs:70-127 process_single_file. *)
Definition refusing_single_file (a : atsc_args) (fs : files) (n : name) (os : answers) : files * answers * outcome :=
  if a_uncompress a then
    let (file, os1) := read_whole (fs n) os in
    match file with
    | None => (fs, os1, Failed IoError)
    | Some b =>
      match bro_read b with
      | RIoError => (fs, os1, Failed IoError)
      | RNotBro => (fs, os1, Done)
      | RBro bytes =>
        match decompress_data e p bytes with
        | Panic _ => (fs, os1, Panicked)
        | Ok out => refusing_wbro fs (set_extension n ext_wbro) (wb_from_slice out) os1
        end
      end
    end
  else if a_csv a then
    let (file, os1) := read_csv_whole (fs n) os in
    let samples :=
      if a_no_header a then read_samples nt file
      else match split_on ch_comma (a_fields a) with
           | h0 :: h1 :: _ => read_samples_with_headers nt file h0 h1
           | _ => Panic PIndex
           end in
    match samples with
    | Panic _ => (fs, os1, Panicked)
    | Ok (CsvFailed err) => (fs, os1, Failed (CsvError err))
    | Ok (Samples l) => refusing_compress_to a fs n (map sm_val l) os1
    end
  else
    let (file, os1) := read_whole (fs n) os in
    match from_file file with
    | Panic _ => (fs, os1, Panicked)
    | Ok WbIoError => (fs, os1, Failed IoError)
    | Ok WbFormatError => (fs, os1, Failed WbroFormatError)
    | Ok (WbSamples data) => refusing_compress_to a fs n data os1
    end.

(** atsc/src/main.rs:50-68 process_directory. [known n]: the system tells what the path is; [Path::is_file] answers no if it does not, and the path
    is skipped. An error in listing the directory is returned (line 52, 53). *)
Fixpoint refusing_directory (a : atsc_args) (known : name -> bool) (fs : files) (entries : list name) (os : answers) : files * answers * outcome :=
  match entries with
  | [] => (fs, os, Done)
  | n :: rest =>
    let (listed, os0) := read_whole (Some []) os in
    match listed with
    | None => (fs, os0, Failed IoError)
    | Some _ =>
      match (if known n then fs n else None) with
      | None => refusing_directory a known fs rest os0
      | Some _ =>
        let '(fs1, os1, o1) := refusing_single_file a fs n os0 in
        match o1 with
        | Done => refusing_directory a known fs1 rest os1
        | Panicked => (fs1, os1, Panicked)
        | Failed _ =>
          let '(fs2, os2, o2) := refusing_single_file a fs1 n os1 in
          match o2 with
          | Done => refusing_directory a known fs2 rest os2
          | _ => (fs2, os2, o2)
          end
        end
      end
    end
  end.

(** atsc/src/main.rs:28-48 process_args: std::fs::metadata may be refused. *)
Definition refusing_process_args (a : atsc_args) (known : name -> bool) (fs : files) (sp : specials) (input : name) (os : answers) : files * outcome :=
  if known input then
    match fs input with
    | Some _ => let '(fs', _, o) := refusing_single_file a fs input os in (fs', o)
    | None =>
      match sp input with
      | Some (Listing entries) => let '(fs', _, o) := refusing_directory a known fs (map (join input) entries) os in (fs', o)
      | Some Neither | None => (fs, Failed IoError)
      end
    end
  else (fs, Failed IoError).
(** main.rs:234-243 main. *)
Definition refusing_atsc_command (ws : list text) (known : name -> bool) (fs : files) (sp : specials) (os : answers) : files * option Z :=
  match atsc_parse ws with
  | None => (fs, None)
  | Some (input, a) => let (fs', o) := refusing_process_args a known fs sp input os in (fs', Some (status_of o))
  end.

(** * csv-compressor *)
(** csv-compressor/src/main.rs:148-181; every error is an [expect]. *)
Definition refusing_csvc_uncompress (a : csvc_args) (fs : files) (os : answers) : files * outcome :=
  let base := match c_output a with Some o => o | None => c_input a end in
  let (file, os1) := read_whole (fs (c_input a)) os in
  match file with
  | None => (fs, Panicked)
  | Some b =>
    match bro_read b with
    | RIoError => (fs, Panicked)
    | RNotBro => (fs, Done)
    | RBro bytes =>
      match (do out <- decompress_data e p bytes; do w <- fold_res (wb_add p) out wb_new; Ok (out, w)) with
      | Panic _ => (fs, Panicked)
      | Ok (out, w) =>
        let (ifile, os2) := read_whole (fs (set_extension (c_input a) ext_vsri)) os1 in
        match ifile with
        | None => (fs, Panicked)
        | Some ib =>
          match load ib with
          | Panic _ => (fs, Panicked)
          | Ok index =>
            let wname := set_extension base ext_wbro in
            let '(fs1, os3, o1) := refusing_wbro fs wname (wb_from_slice out) os2 in
            match o1 with
            | Done =>
              match get_samples p (Metric w index) with
              | Panic _ => (fs1, Panicked)
              | Ok samples =>
                let '(fs2, _, ok) := write_csv_file fs1 (set_extension wname ext_csv) (write_samples_text nt samples) os3 in
                (fs2, if ok then Done else Panicked)
              end
            | _ => (fs1, o1)
            end
          end
        end
      end
    end
  end.

(** csv-compressor/src/main.rs:183-210. *)
Definition refusing_csvc_compress (a : csvc_args) (fs : files) (os : answers) : files * outcome :=
  let base := match c_output a with Some o => o | None => c_input a end in
  let (file, os1) := read_csv_whole (fs (c_input a)) os in
  match process_csv p nt file with
  | Panic _ => (fs, Panicked)
  | Ok m =>
    let '(fs1, os2, o1) := if c_output_wavbrro a then refusing_wbro fs (set_extension base ext_wavbro) (mt_wbro m) os1 else (fs, os1, Done) in
    match o1 with
    | Done =>
      let '(fs2, os3, ok) := if c_output_vsri a then write_buffered fs1 (set_extension base ext_vsri) (flush_bytes (mt_vsri m)) os2 else (fs1, os2, true) in
      if ok then
        if c_no_compression a then (fs2, Done)
        else match compress_data e p (wb_samples (mt_wbro m)) (c_compressor a) (c_error a) (c_level a) with
             | Panic _ => (fs2, Panicked)
             | Ok bytes => let '(fs3, _, ok3) := write_file fs2 (set_extension base ext_bro) bytes os3 in (fs3, if ok3 then Done else Panicked)
             end
      else (fs2, Panicked)
    | _ => (fs1, o1)
    end
  end.

(** csv-compressor/src/main.rs:141-150 and 213-231 main; a refused metadata panics like a missing file. *)
Definition refusing_csvc_command (ws : list text) (known : name -> bool) (fs : files) (os : answers) : files * option Z :=
  match csvc_parse ws with
  | None => (fs, None)
  | Some c =>
    match (if known (c_input c) then fs (c_input c) else None) with
    | Some _ => let (fs', o) := if c_uncompress c then refusing_csvc_uncompress c fs os else refusing_csvc_compress c fs os in (fs', Some (status_of o))
    | None => (fs, Some 101)
    end
  end.
End Tools.
