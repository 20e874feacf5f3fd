(** vsri/src/lib.rs:457-490 load on files of any bytes: [BufRead::lines] checks that every line is UTF-8, and [str::trim] knows
    Unicode's white space. ([load] of Model_Vsri is this function on ASCII files.) *)
From Coq Require Import List ZArith Bool.
From Verif Require Import Base Model_Float Model_Stream Model_Wavbrro Model_Csv Model_Vsri Model_Cli Model_Utf8.
Import ListNotations.
Open Scope Z_scope.

(** The characters of a text that [str::from_utf8] accepts ([core::str::next_code_point]). *)
Fixpoint decode_chars (t : list Z) : list Z :=
  match t with
  | [] => []
  | a :: r =>
    if a <? 128 then a :: decode_chars r
    else match r with
    | [] => []
    | b :: r1 =>
      if a <? 224 then (a - 192) * 64 + (b - 128) :: decode_chars r1
      else match r1 with
      | [] => []
      | c :: r2 =>
        if a <? 240 then (a - 224) * 4096 + (b - 128) * 64 + (c - 128) :: decode_chars r2
        else match r2 with
        | [] => []
        | d :: r3 => (a - 240) * 262144 + (b - 128) * 4096 + (c - 128) * 64 + (d - 128) :: decode_chars r3
        end
      end
    end
  end.
Definition chars (t : list Z) : option (list Z) := if utf8 t then Some (decode_chars t) else None.

(** [char::is_whitespace] (core::unicode White_Space), and [str::trim]. *)
Definition is_white (u : Z) : bool :=
  between 9 13 u || (u =? 32) || (u =? 133) || (u =? 160) || (u =? 5760) || between 8192 8202 u || (u =? 8232) || (u =? 8233) ||
  (u =? 8239) || (u =? 8287) || (u =? 12288).
Fixpoint trim_start_u (l : list Z) : list Z :=
  match l with [] => [] | c :: r => if is_white c then trim_start_u r else l end.
Definition trim_u (l : list Z) : list Z := rev (trim_start_u (rev (trim_start_u l))).

(** [.trim().parse::<i32>()], lib.rs:470, 473, 478. The parser works on bytes; no byte of a character beyond ASCII is a digit or a sign,
    and neither is the character, so it is applied to the characters here. *)
Definition number_u (us : list Z) : option Z := parse_i32 (trim_u us).
(** lib.rs:476-481: split at commas, all of them numbers, exactly four. *)
Fixpoint numbers_u (parts : list (list Z)) : option (list Z) :=
  match parts with
  | [] => Some []
  | x :: r => match number_u x with None => None | Some z => match numbers_u r with None => None | Some zs => Some (z :: zs) end end
  end.
Definition segment_u (us : list Z) : option segment :=
  match numbers_u (split_on ch_comma us) with Some [a; b; c; d] => Some (Seg a b c d) | _ => None end.

(** What load returns: an index, the error InvalidData of [lines], or a panic of [unwrap]. *)
Inductive loaded := Loaded (v : vsri) | InvalidData | LoadPanics.

(** The loop, lib.rs:463-485; [i] lines were read before. *)
Fixpoint load_lines (i : nat) (ls : list (list Z)) (mn mx : Z) (segs : list segment) : loaded :=
  match ls with
  | [] => Loaded (Vsri mn mx segs)
  | l :: r =>
    match chars l with
    | None => InvalidData
    | Some us =>
      match i with
      | O => match number_u us with Some z => load_lines 1 r z mx segs | None => LoadPanics end
      | 1%nat => match number_u us with Some z => load_lines 2 r mn z segs | None => LoadPanics end
      | _ => match segment_u us with Some s => load_lines (S i) r mn mx (segs ++ [s]) | None => LoadPanics end
      end
    end
  end.
Definition load_any (bytes : list Z) : loaded := load_lines 0 (lines bytes) 0 0 [].

(** csv-compressor/src/main.rs:148-181 with the real load: the error of load is an [expect] (main.rs:162). Otherwise as csvc_uncompress of
    Model_Cli. *)
Definition csvc_uncompress_any (e : env) (p : profile) (nt : number_text) (a : csvc_args) (fs : files) : files * outcome :=
  let base := match c_output a with Some o => o | None => c_input a end in
  match fs (c_input a) with
  | None => (fs, Panicked)
  | Some b =>
    match bro_read b with
    | RIoError => (fs, Panicked)
    | RNotBro => (fs, Done)
    | RBro bytes =>
      match (do out <- decompress_data e p bytes; do w <- fold_res (wb_add p) out wb_new; Ok (out, w)) with
      | Panic _ => (fs, Panicked)
      | Ok (out, w) =>
        match fs (set_extension (c_input a) ext_vsri) with
        | None => (fs, Panicked)
        | Some ib =>
          match load_any ib with
          | InvalidData | LoadPanics => (fs, Panicked)
          | Loaded index =>
            let wname := set_extension base ext_wbro in
            let (fs1, o1) := put_wbro fs wname (wb_from_slice out) in
            match o1 with
            | Done =>
              match get_samples p (Metric w index) with
              | Panic _ => (fs1, Panicked)
              | Ok samples => (put fs1 (set_extension wname ext_csv) (write_samples_text nt samples), Done)
              end
            | _ => (fs1, o1)
            end
          end
        end
      end
    end
  end.
