(** tools/src/bin/wav2wbro.rs from the words of the command line to the exit status, on a disk that never refuses and on one that may. *)
From Coq Require Import List ZArith Bool String.
From Verif Require Import Base Model_Float Model_Bincode Model_Wavbrro Model_Csv Model_Stream Model_Cli Model_Disk Model_Args Model_Command Model_Refusal.
Import ListNotations.
Open Scope Z_scope.
Local Open Scope string_scope.
Local Open Scope list_scope.
Local Open Scope Z_scope.

(** wav2wbro.rs:75-83 Args (--help and --version are clap's). *)
Definition wav_decls : list opt_decl := [
  Opt None (Some (txt "validate")) false;
  Opt (letter "h") (Some (txt "help")) false;
  Opt (letter "V") (Some (txt "version")) false ].
Definition wav_parse (ws : list text) : option (name * bool) :=
  match parse_words wav_decls ws with
  | None => None
  | Some os =>
    if negb (at_most_once 3 os) || has_flag 1 os || has_flag 2 os then None
    else match inputs os with
         | [t] => match t with [] => None | _ => Some (t, has_flag 0 os) end
         | _ => None
         end
  end.

(** wav2wbro.rs:85-110 main. The boolean tells whether the message of line 106 is printed. Words are valid UTF-8 (line 89). *)
Definition wav_command (p : profile) (decode : list Z -> option (nat * list Z)) (ws : list text) (fs : files) : files * option Z * bool :=
  match wav_parse ws with
  | None => (fs, None, false)
  | Some (n, validate) => let '(fs', o, told) := wav2wbro_main p decode validate fs n in (fs', Some (status_of o), told)
  end.

(** What the hound crate meets when it opens and reads the file a second time (wav2wbro.rs:36-58): everything is read; it cannot be opened or its
    header cannot be read (lines 38-43: no samples); a sample cannot be read (line 51: unwrap). *)
Inductive reading := ReadsAll | NotOpened | BreaksOff.
Definition metrics_read (decode : list Z -> option (nat * list Z)) (how : reading) (b : list Z) : res (list f64) :=
  match how with ReadsAll => read_metrics_from_wav (decode b) | NotOpened => read_metrics_from_wav None | BreaksOff => Panic PUnwrap end.
(** wav2wbro.rs:85-110 on a disk that may refuse: lines 26-29 open the file and read its first bytes, line 99 writes the output (see Model_Refusal). *)
Definition refusing_wav (p : profile) (decode : list Z -> option (nat * list Z)) (how : reading) (validate : bool) (fs : files) (n : name) (os : answers) : files * outcome * bool :=
  let (file, os1) := read_whole (fs n) os in
  match file with
  | None => (fs, Panicked, false)
  | Some b =>
    match is_wav_file b with
    | Some true =>
      match (do data <- metrics_read decode how b; do w <- fold_res (add_unless_nan p) data wb_new; Ok (data, w)) with
      | Panic _ => (fs, Panicked, false)
      | Ok (data, w) =>
        match strip_suffix n ext_wav with
        | None => (fs, Panicked, false)
        | Some stem =>
          let '(fs1, _, o) := refusing_wbro fs (stem ++ ext_wbro) w os1 in
          match o with
          | Done => if validate then (if feq_list data (wb_samples w) then (fs1, Done, true) else (fs1, Panicked, false)) else (fs1, Done, false)
          | _ => (fs1, o, false)
          end
        end
      end
    | _ => (fs, Panicked, false)
    end
  end.
Definition refusing_wav_command (p : profile) (decode : list Z -> option (nat * list Z)) (how : reading) (ws : list text) (fs : files) (os : answers) : files * option Z * bool :=
  match wav_parse ws with
  | None => (fs, None, false)
  | Some (n, validate) => let '(fs', o, told) := refusing_wav p decode how validate fs n os in (fs', Some (status_of o), told)
  end.
