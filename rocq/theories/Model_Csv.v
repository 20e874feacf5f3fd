(** CSV files: the parts of the csv crate that the tools use, atsc/src/csv.rs and csv-compressor/src/csv.rs.
    Text is a list of byte values, not necessarily UTF-8. Conversion between text and f64 belongs to the Rust standard library and the
    ryu crate; it enters as the two functions of [number_text]. *)
From Coq Require Import List ZArith Bool.
From Verif Require Import Base Model_Float Model_Vsri Model_Utf8.
Import ListNotations.
Open Scope Z_scope.

Definition text := list Z.

(** [str::parse::<f64>] and ryu's [Buffer::format]. *)
Record number_text := { parse_f64 : text -> option f64; show_f64 : f64 -> text }.

(** * csv-core 0.1 reader with its default settings: delimiter comma, double quotes doubled inside quotes, record terminator CR, LF
    or CRLF, empty lines skipped (csv-core Reader::transition_nfa; its states EndRecord, EndFieldDelim, EndFieldTerm, InRecordTerm
    are epsilon steps folded here, and its state CRLF behaves as StartRecord, since StartRecord skips a line feed too). *)
Definition ch_quote : Z := 34.
Inductive csv_state := StartRecord | StartField | InField | InQuoted | QuoteInQuoted.
Definition is_term (c : Z) : bool := (c =? ch_nl) || (c =? ch_cr).

Fixpoint csv_run (st : csv_state) (field : text) (record : list text) (input : text) : list (list text) :=
  match input with
  | [] => match st with StartRecord => [] | _ => [record ++ [field]] end
  | c :: r =>
    let start := if c =? ch_quote then csv_run InQuoted field record r
                 else if c =? ch_comma then csv_run StartField [] (record ++ [field]) r
                 else if is_term c then (record ++ [field]) :: csv_run StartRecord [] [] r
                 else csv_run InField (field ++ [c]) record r in
    let inside := if c =? ch_comma then csv_run StartField [] (record ++ [field]) r
                  else if is_term c then (record ++ [field]) :: csv_run StartRecord [] [] r
                  else csv_run InField (field ++ [c]) record r in
    match st with
    | StartRecord => if is_term c then csv_run StartRecord field record r else start
    | StartField => start
    | InField => inside
    | InQuoted => if c =? ch_quote then csv_run QuoteInQuoted field record r else csv_run InQuoted (field ++ [c]) record r
    | QuoteInQuoted => if c =? ch_quote then csv_run InQuoted (field ++ [c]) record r else inside
    end
  end.

(** The reader drops a UTF-8 byte-order mark at the start of the file. *)
Definition strip_bom (t : text) : text :=
  match t with
  | a :: b :: c :: r => if (a =? 239) && (b =? 187) && (c =? 191) then r else t
  | _ => t
  end.
Definition csv_records (t : text) : list (list text) := csv_run StartRecord [] [] (strip_bom t).

(** [Iterator::position(|h| h == name)]. *)
Definition text_eqb (a b : text) : bool := if list_eq_dec Z.eq_dec a b then true else false.
Fixpoint position (name : text) (headers : list text) : option nat :=
  match headers with
  | [] => None
  | h :: r => if text_eqb h name then Some O else option_map S (position name r)
  end.

(** atsc/src/csv.rs:27-31 and csv-compressor/src/csv.rs:26-30 struct Sample. *)
Record sample := Sample { sm_ts : Z; sm_val : f64 }.

(** atsc/src/csv.rs:4-23 Error. *)
Inductive csv_error := OpenFileFailed | TimestampFieldNotFound | ValueFieldNotFound | ParsingValueFailed | Unexpected.
Inductive csv_result := Samples (l : list sample) | CsvFailed (e : csv_error).

Section Text.
Variable nt : number_text.

(** atsc/src/csv.rs:55-72 (and 82-97 with column 0): the loop over the records. A record whose number of fields differs from the
    first record's, or one of whose fields is not UTF-8, is an error of the csv crate, so [record.unwrap()] panics. *)
Fixpoint collect_samples (width idx : nat) (records : list (list text)) (acc : list sample) : res csv_result :=
  match records with
  | [] => Ok (Samples acc)
  | r :: rs =>
    if (length r =? width)%nat && forallb utf8 r
    then match nth_error r idx with
         | None => Panic PUnwrap
         | Some f =>
           match parse_f64 nt f with
           | None => Ok (CsvFailed ParsingValueFailed)
           | Some v => collect_samples width idx rs (acc ++ [Sample 0 v])
           end
         end
    else Panic PUnwrap
  end.

(** atsc/src/csv.rs:36-73 read_samples_with_headers; [None] is a file that cannot be opened. [reader.headers()] fails for a header row
    that is not UTF-8. *)
Definition read_samples_with_headers (file : option text) (ts_field value_field : text) : res csv_result :=
  match file with
  | None => Ok (CsvFailed OpenFileFailed)
  | Some t =>
    let (headers, records) := match csv_records t with [] => ([], []) | h :: rs => (h, rs) end in
    if forallb utf8 headers
    then match position ts_field headers with
         | None => Ok (CsvFailed TimestampFieldNotFound)
         | Some _ =>
           match position value_field headers with
           | None => Ok (CsvFailed ValueFieldNotFound)
           | Some idx => collect_samples (length headers) idx records []
           end
         end
    else Ok (CsvFailed Unexpected)
  end.

(** atsc/src/csv.rs:78-98 read_samples. *)
Definition read_samples (file : option text) : res csv_result :=
  match file with
  | None => Ok (CsvFailed OpenFileFailed)
  | Some t =>
    let records := csv_records t in
    collect_samples (length (hd [] records)) 0 records []
  end.

(** * csv-compressor/src/csv.rs *)
(** [str::parse::<i64>] and, after 0x, [i64::from_str_radix(_, 16)] (csv crate, deserializer of integers). *)
Definition hex_digit (c : Z) : option Z :=
  if is_digit c then Some (c - 48)
  else if (97 <=? c) && (c <=? 102) then Some (c - 87)
  else if (65 <=? c) && (c <=? 70) then Some (c - 55)
  else None.
Fixpoint parse_radix (radix : Z) (dig : Z -> option Z) (l : text) (acc : Z) : option Z :=
  match l with
  | [] => Some acc
  | c :: r => match dig c with Some d => parse_radix radix dig r (acc * radix + d) | None => None end
  end.
Definition dec_digit (c : Z) : option Z := if is_digit c then Some (c - 48) else None.
Definition parse_signed (bits radix : Z) (dig : Z -> option Z) (l : text) : option Z :=
  let check v := if in_sb bits v then Some v else None in
  match l with
  | [] => None
  | c :: r =>
    if (c =? ch_minus) || (c =? ch_plus)
    then match r with
         | [] => None
         | _ :: _ => match parse_radix radix dig r 0 with Some v => check (if c =? ch_minus then - v else v) | None => None end
         end
    else match parse_radix radix dig l 0 with Some v => check v | None => None end
  end.
Definition parse_i64 (l : text) : option Z :=
  match l with
  | a :: b :: r => if (a =? 48) && (b =? 120) then parse_signed 64 16 hex_digit r else parse_signed 64 10 dec_digit l
  | _ => parse_signed 64 10 dec_digit l
  end.

Definition field_timestamp : text := [116; 105; 109; 101; 115; 116; 97; 109; 112].
Definition field_value : text := [118; 97; 108; 117; 101].

(** Deserializing one record into Sample by header names (csv crate's MapAccess, serde's derive): columns in order, unknown ones
    skipped, a repeated known column, an unparsable one or a missing one is an error ([None]). *)
Fixpoint deserialize_sample (headers fields : list text) (ts : option Z) (v : option f64) : option sample :=
  match headers, fields with
  | h :: hs, f :: fs =>
    if text_eqb h field_timestamp
    then match ts, parse_i64 f with None, Some t => deserialize_sample hs fs (Some t) v | _, _ => None end
    else if text_eqb h field_value
    then match v, parse_f64 nt f with None, Some x => deserialize_sample hs fs ts (Some x) | _, _ => None end
    else deserialize_sample hs fs ts v
  | _, _ => match ts, v with Some t, Some x => Some (Sample t x) | _, _ => None end
  end.

(** Deserializing one record without header names (csv crate's SeqAccess, serde's derive): the first field is the timestamp, the second
    the value, further ones are not looked at. *)
Definition deserialize_positional (fields : list text) : option sample :=
  match fields with
  | f0 :: f1 :: _ => match parse_i64 f0, parse_f64 nt f1 with Some t, Some x => Some (Sample t x) | _, _ => None end
  | _ => None
  end.

(** csv-compressor/src/csv.rs:43-47 read_samples_from_csv_file; [None] is a csv::Error (the first one met). The iterator
    ([Reader::deserialize], csv 1.3) asks for the header names with [rdr.headers().ok()]: a header row that is not UTF-8 counts as none,
    but is skipped all the same. *)
Fixpoint collect_deserialized (width : nat) (de : list text -> option sample) (records : list (list text)) : option (list sample) :=
  match records with
  | [] => Some []
  | r :: rs =>
    if (length r =? width)%nat && forallb utf8 r
    then match de r with
         | None => None
         | Some s => option_map (cons s) (collect_deserialized width de rs)
         end
    else None
  end.
Definition read_samples_from_csv_file (file : option text) : option (list sample) :=
  match file with
  | None => None
  | Some t =>
    match csv_records t with
    | [] => Some []
    | h :: rs => collect_deserialized (length h) (if forallb utf8 h then fun r => deserialize_sample h r None None else deserialize_positional) rs
    end
  end.

(** csv-compressor/src/csv.rs:50-58 write_samples_to_csv_file: the header with the first sample; an empty list writes nothing.
    The texts of numbers need no quotes. Errors of the operating system are not modelled. *)
Definition write_samples_text (samples : list sample) : text :=
  match samples with
  | [] => []
  | _ => field_timestamp ++ [ch_comma] ++ field_value ++ [ch_nl]
         ++ flat_map (fun s => show_int (sm_ts s) ++ [ch_comma] ++ show_f64 nt (sm_val s) ++ [ch_nl]) samples
  end.
End Text.
