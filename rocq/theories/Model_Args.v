(** Command lines: what clap 4 (derive) makes of the Args structs of atsc/src/main.rs and csv-compressor/src/main.rs.
    The parser itself is clap's (not in the repository); it is modelled for the features these structs use: options with and without a
    value, long and short names, clusters of short options, the marker ending the options, one positional argument. Words are lists of
    ASCII codes. [None]: nothing is processed (clap prints an error, the help or the version and the process ends). Which message is
    printed is not modelled. *)
From Coq Require Import List ZArith Bool String Ascii.
From Verif Require Import Base Model_Float Model_Csv Model_Stream Model_Cli.
Import ListNotations.
Open Scope Z_scope.

(** The codes of an ASCII string. *)
Definition txt (s : string) : text := map (fun c => Z.of_nat (nat_of_ascii c)) (list_ascii_of_string s).

(** A declared option: its short name, its long name, whether it takes a value. *)
Record opt_decl := Opt { od_short : option Z; od_long : option text; od_takes : bool }.
(** One use on the command line: option number [i] with a value, option number [i] without, a positional argument. *)
Inductive occurrence := Given (i : nat) (v : text) | Flag (i : nat) | Input (t : text).

(** clap looks an option up by its key: one letter, or the whole long name (no abbreviations). *)
Fixpoint find_from {A} (f : A -> bool) (l : list A) (i : nat) : option (nat * A) :=
  match l with
  | [] => None
  | x :: r => if f x then Some (i, x) else find_from f r (S i)
  end.
Definition find_short (ds : list opt_decl) (c : Z) : option (nat * opt_decl) :=
  find_from (fun d => match od_short d with Some s => s =? c | None => false end) ds 0.
Definition find_long (ds : list opt_decl) (n : text) : option (nat * opt_decl) :=
  find_from (fun d => match od_long d with Some s => text_eqb s n | None => false end) ds 0.

(** --name=value is split at the first equals sign (61). *)
Fixpoint split_eq (l : text) : text * option text :=
  match l with
  | [] => ([], None)
  | c :: r => if c =? 61 then ([], Some r) else let (n, v) := split_eq r in (c :: n, v)
  end.

(** A word that can be taken as a separate value or as a positional argument: anything not starting with a dash (45), or the dash alone. *)
Definition value_word (w : text) : bool :=
  match w with
  | [] => true
  | c :: r => negb (c =? 45) || match r with [] => true | _ => false end
  end.

(** The letters after a single dash: options without value, possibly followed by one that takes the rest of the word (without a leading
    equals sign) or, if nothing is left, the next word: the second component. *)
Fixpoint short_word (ds : list opt_decl) (l : text) : option (list occurrence * option nat) :=
  match l with
  | [] => Some ([], None)
  | c :: r =>
    match find_short ds c with
    | None => None
    | Some (i, d) =>
      if od_takes d
      then match r with
           | [] => Some ([], Some i)
           | e :: v => Some ([Given i (if e =? 61 then v else r)], None)
           end
      else match short_word ds r with Some (os, n) => Some (Flag i :: os, n) | None => None end
    end
  end.

(** What a word says on its own, and the option whose value is the next word, if any. *)
Definition one_word (ds : list opt_decl) (w : text) : option (list occurrence * option nat) :=
  match w with
  | 45 :: 45 :: l =>
    let (n, v) := split_eq l in
    match find_long ds n, v with
    | None, _ => None
    | Some (i, d), Some v => if od_takes d then Some ([Given i v], None) else None
    | Some (i, d), None => if od_takes d then Some ([], Some i) else Some ([Flag i], None)
    end
  | 45 :: c :: l => short_word ds (c :: l)
  | _ => Some ([Input w], None)
  end.

Fixpoint parse_words (ds : list opt_decl) (ws : list text) : option (list occurrence) :=
  match ws with
  | [] => Some []
  | w :: r =>
    if text_eqb w [45; 45] then Some (map Input r)
    else match one_word ds w with
         | None => None
         | Some (os, None) => option_map (app os) (parse_words ds r)
         | Some (os, Some i) =>
           match r with
           | v :: r' => if value_word v then option_map (fun l => os ++ Given i v :: l) (parse_words ds r') else None
           | [] => None
           end
         end
  end.

(** The value of an option, whether a flag is there, the positional arguments. *)
Definition occ_of (i : nat) (o : occurrence) : bool := match o with Given j _ | Flag j => (i =? j)%nat | Input _ => false end.
Definition at_most_once (n : nat) (os : list occurrence) : bool := forallb (fun i => (length (filter (occ_of i) os) <=? 1)%nat) (seq 0 n).
Definition value_of (i : nat) (os : list occurrence) : option text :=
  match filter (occ_of i) os with Given _ v :: _ => Some v | _ => None end.
Definition has_flag (i : nat) (os : list occurrence) : bool := existsb (occ_of i) os.
Definition inputs (os : list occurrence) : list text := flat_map (fun o => match o with Input t => [t] | _ => [] end) os.

(** clap::value_parser!(u8).range(0..n): the text is parsed as an i64 and must lie in the range. *)
Definition ranged (n : Z) (t : text) : option Z :=
  match parse_signed 64 10 dec_digit t with
  | Some z => if (0 <=? z) && (z <? n) then Some z else None
  | None => None
  end.
Definition with_default {A} (d : A) (f : text -> option A) (v : option text) : option A :=
  match v with None => Some d | Some t => f t end.

(** main.rs:222-232 (derived ValueEnum: the names in lower case, compared exactly). *)
Definition compressor_named (t : text) : option compressor :=
  if text_eqb t (txt "auto") then Some Auto
  else if text_eqb t (txt "noop") then Some Noop
  else if text_eqb t (txt "fft") then Some FFT
  else if text_eqb t (txt "constant") then Some Constant
  else if text_eqb t (txt "polynomial") then Some Polynomial
  else if text_eqb t (txt "idw") then Some Idw
  else if text_eqb t (txt "rle") then Some RLE
  else None.

Definition letter (s : string) : option Z := match txt s with [c] => Some c | _ => None end.

(** atsc/src/main.rs:174-220 Args. *)
Definition atsc_decls : list opt_decl := [
  Opt None (Some (txt "compressor")) true;
  Opt (letter "e") (Some (txt "error")) true;
  Opt (letter "u") None false;
  Opt (letter "c") (Some (txt "compression-selection-sample-level")) true;
  Opt None (Some (txt "verbose")) false;
  Opt None (Some (txt "csv")) false;
  Opt None (Some (txt "no-header")) false;
  Opt None (Some (txt "fields")) true;
  Opt (letter "h") (Some (txt "help")) false;
  Opt (letter "V") (Some (txt "version")) false ].
Definition atsc_parse (ws : list text) : option (name * atsc_args) :=
  match parse_words atsc_decls ws with
  | None => None
  | Some os =>
    if negb (at_most_once 10 os) || has_flag 8 os || has_flag 9 os then None
    else match inputs os,
               with_default Auto compressor_named (value_of 0 os),
               with_default 3 (ranged 51) (value_of 1 os),
               with_default 0 (ranged 7) (value_of 3 os) with
         | [t], Some c, Some err, Some level =>
           match t with
           | [] => None
           | _ => Some (t, {| a_compressor := c; a_error := err; a_level := level; a_uncompress := has_flag 2 os; a_csv := has_flag 5 os;
                              a_no_header := has_flag 6 os; a_fields := match value_of 7 os with Some f => f | None => txt "time,value" end |})
           end
         | _, _, _, _ => None
         end
  end.

(** csv-compressor/src/main.rs:32-92 Args and CompressorType (no rle); --output-csv is accepted and ignored. *)
Definition csvc_decls : list opt_decl := [
  Opt (letter "o") (Some (txt "output")) true;
  Opt (letter "u") None false;
  Opt None (Some (txt "no-compression")) false;
  Opt None (Some (txt "output-vsri")) false;
  Opt None (Some (txt "output-wavbrro")) false;
  Opt None (Some (txt "output-csv")) false;
  Opt None (Some (txt "compressor")) true;
  Opt (letter "e") (Some (txt "error")) true;
  Opt (letter "c") (Some (txt "compression-selection-sample-level")) true;
  Opt (letter "h") (Some (txt "help")) false;
  Opt (letter "V") (Some (txt "version")) false ].
Definition csvc_compressor_named (t : text) : option compressor := if text_eqb t (txt "rle") then None else compressor_named t.
Definition path_value (t : text) : option (option name) := match t with [] => None | _ => Some (Some t) end.
Definition csvc_parse (ws : list text) : option csvc_args :=
  match parse_words csvc_decls ws with
  | None => None
  | Some os =>
    if negb (at_most_once 11 os) || has_flag 9 os || has_flag 10 os then None
    else match inputs os, with_default None path_value (value_of 0 os),
               with_default Auto csvc_compressor_named (value_of 6 os),
               with_default 5 (ranged 51) (value_of 7 os),
               with_default 0 (ranged 7) (value_of 8 os) with
         | [t], Some out, Some c, Some err, Some level =>
           match t with
           | [] => None
           | _ => Some {| c_input := t; c_output := out; c_uncompress := has_flag 1 os; c_no_compression := has_flag 2 os; c_output_vsri := has_flag 3 os;
                          c_output_wavbrro := has_flag 4 os; c_compressor := c; c_error := err; c_level := level |}
           end
         | _, _, _, _, _ => None
         end
  end.
