(** What --verbose prints (atsc/src/main.rs:78-80, 102-104, 115-117): [println!("Input={:?}", data)] and [println!("Output={:?}", data)], with Rust's
    [Debug] for f64 and for vectors (core::fmt, not part of /repo). Standard output is taken to accept everything (println panics otherwise); what the
    logger writes to standard error is not modelled. *)
From Coq Require Import List ZArith Bool String.
From Verif Require Import Base Model_Float Model_Vsri Model_Wavbrro Model_Csv Model_Number Model_Stream Model_Cli Model_Args Model_Command.
Import ListNotations.
Open Scope Z_scope.

(** core::fmt::float::float_to_general_debug: the exponential notation below 1e-4 (but not for 0) and from 1e16 on. *)
Definition debug_exponential (x : f64) : bool :=
  let a := fabs x in
  fle (int_as_f64 (10 ^ 16)) a || (negb (feq a (int_as_f64 0)) && flt a (nearest_decimal false 1 (-4))).

(** core::num::flt2dec::to_shortest_str with one decimal at least (digits_to_dec_str). *)
Definition debug_decimal (m k : Z) : text :=
  let ds := show_int m in
  let len := Z.of_nat (List.length ds) in
  let point := len + k in
  if point <=? 0 then [48; 46] ++ zeros (- point) ++ ds
  else if point <? len then firstn (Z.to_nat point) ds ++ [46] ++ skipn (Z.to_nat point) ds
  else ds ++ zeros k ++ [46; 48].
(** core::num::flt2dec::to_shortest_exp_str, lower case, no decimal if there is one digit only (digits_to_exp_str). *)
Definition debug_scientific (m k : Z) : text :=
  let ds := show_int m in
  let len := Z.of_nat (List.length ds) in
  firstn 1 ds ++ (if 1 <? len then [46] ++ skipn 1 ds else []) ++ [101] ++ show_int (len + k - 1).

(** flt2dec's shortest mode (Grisu, and Dragon where Grisu gives up): the shortest decimal, of those the nearest, the upper one of two equally near. *)
Definition debug_f64 (x : f64) : text := shown (fun _ => true) (if debug_exponential x then debug_scientific else debug_decimal) x.

(** core::fmt::builders::DebugList. *)
Fixpoint commas (l : list text) : text :=
  match l with
  | [] => []
  | [a] => a
  | a :: r => a ++ [44; 32] ++ commas r
  end.
Definition debug_vec (data : list f64) : text := [91] ++ commas (map debug_f64 data) ++ [93].
(** println!, if the option is given. *)
Definition say (verbose : bool) (label : string) (data : list f64) : text := if verbose then txt label ++ debug_vec data ++ [10] else [].

Section Verbose.
Variable e : env.
Variable p : profile.
Variable nt : number_text.
Variable verbose : bool.

(** main.rs:70-127 process_single_file, with what is printed. *)
Definition process_single_file_says (a : atsc_args) (fs : files) (n : name) : files * outcome * text :=
  if a_uncompress a then
    match fs n with
    | None => (fs, Failed IoError, [])
    | Some b =>
      match bro_read b with
      | RIoError => (fs, Failed IoError, [])
      | RNotBro => (fs, Done, [])
      | RBro bytes =>
        match decompress_data e p bytes with
        | Panic _ => (fs, Panicked, [])
        | Ok out => let said := say verbose "Output=" out in (put_wbro fs (set_extension n ext_wbro) (wb_from_slice out), said)
        end
      end
    end
  else if a_csv a then
    let samples :=
      if a_no_header a then read_samples nt (fs n)
      else match split_on ch_comma (a_fields a) with
           | h0 :: h1 :: _ => read_samples_with_headers nt (fs n) h0 h1
           | _ => Panic PIndex
           end in
    match samples with
    | Panic _ => (fs, Panicked, [])
    | Ok (CsvFailed err) => (fs, Failed (CsvError err), [])
    | Ok (Samples l) => let data := map sm_val l in let said := say verbose "Input=" data in (compress_to e p a fs n data, said)
    end
  else
    match from_file (fs n) with
    | Panic _ => (fs, Panicked, [])
    | Ok WbIoError => (fs, Failed IoError, [])
    | Ok WbFormatError => (fs, Failed WbroFormatError, [])
    | Ok (WbSamples data) => let said := say verbose "Input=" data in (compress_to e p a fs n data, said)
    end.

(** main.rs:50-68 process_directory. *)
Fixpoint process_directory_says (a : atsc_args) (fs : files) (entries : list name) : files * outcome * text :=
  match entries with
  | [] => (fs, Done, [])
  | n :: rest =>
    match fs n with
    | None => process_directory_says a fs rest
    | Some _ =>
      let '(fs1, o1, t1) := process_single_file_says a fs n in
      match o1 with
      | Done => let '(fs', o', t') := process_directory_says a fs1 rest in (fs', o', t1 ++ t')
      | Panicked => (fs1, Panicked, t1)
      | Failed _ =>
        let '(fs2, o2, t2) := process_single_file_says a fs1 n in
        match o2 with
        | Done => let '(fs', o', t') := process_directory_says a fs2 rest in (fs', o', t1 ++ t2 ++ t')
        | _ => (fs2, o2, t1 ++ t2)
        end
      end
    end
  end.

(** main.rs:28-48 process_args. *)
Definition atsc_process_args_says (a : atsc_args) (fs : files) (sp : specials) (input : name) : files * outcome * text :=
  match fs input with
  | Some _ => process_single_file_says a fs input
  | None =>
    match sp input with
    | Some (Listing entries) => process_directory_says a fs (map (join input) entries)
    | Some Neither | None => (fs, Failed IoError, [])
    end
  end.
End Verbose.

(** main.rs:201-203: the flag; and main.rs:234-243 main. *)
Definition atsc_verbose (ws : list text) : bool := match parse_words atsc_decls ws with Some os => has_flag 4 os | None => false end.
Definition atsc_command_says (e : env) (p : profile) (nt : number_text) (ws : list text) (fs : files) (sp : specials) : files * option Z * text :=
  match atsc_parse ws with
  | None => (fs, None, [])
  | Some (input, a) => let '(fs', o, t) := atsc_process_args_says e p nt (atsc_verbose ws) a fs sp input in (fs', Some (status_of o), t)
  end.
