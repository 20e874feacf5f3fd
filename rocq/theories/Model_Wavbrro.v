(** Model of the wavbrro crate: the .wbro container. *)
From Coq Require Import List ZArith Bool Lia.
From Verif Require Import Base Model_Float Model_Bincode.
Import ListNotations.
Open Scope Z_scope.

(** wavbrro/src/wavbrro.rs:24 MAX_CHUNK_SIZE. *)
Definition wb_chunk_size : nat := Z.to_nat 2048.

(** wavbrro/src/wavbrro.rs:37-47 struct WavBrro. *)
Record wavbrro := WB { wb_count : Z; wb_bitdepth : Z; wb_chunks : list (list f64) }.

(** wavbrro/src/wavbrro.rs:55-63 new (and 48-52 default). *)
Definition wb_new : wavbrro := WB 0 5 [].

(** wavbrro/src/wavbrro.rs:65-70 is_chunk_full. *)
Definition wb_full (w : wavbrro) : bool :=
  match rev (wb_chunks w) with
  | c :: _ => (wb_chunk_size <=? length c)%nat
  | [] => true
  end.

(** wavbrro/src/wavbrro.rs:87-93 add_sample; 72-75 create_chunk pushes an empty chunk ([with_capacity] only reserves memory). *)
Definition wb_add (p : profile) (w : wavbrro) (x : f64) : res wavbrro :=
  let chunks := if wb_full w then wb_chunks w ++ [[]] else wb_chunks w in
  do c <- arith_u p 32 (wb_count w + 1);
  match rev chunks with
  | last :: _ => Ok (WB c (wb_bitdepth w) (removelast chunks ++ [last ++ [x]]))
  | [] => Panic PUnwrap
  end.

(** [slice::chunks(n)]. *)
Fixpoint slice_chunks (fuel n : nat) (l : list f64) : list (list f64) :=
  match fuel, l with
  | S k, _ :: _ => firstn n l :: slice_chunks k n (skipn n l)
  | _, _ => []
  end.

(** wavbrro/src/wavbrro.rs:78-85 from_slice. *)
Definition wb_from_slice (data : list f64) : wavbrro :=
  WB (wrap_u 32 (Z.of_nat (length data))) 5 (slice_chunks (length data) wb_chunk_size data).

(** wavbrro/src/wavbrro.rs:97-99 get_samples. *)
Definition wb_samples (w : wavbrro) : list f64 := concat (wb_chunks w).

(** * rkyv 0.7 archive (the crate's layout, checked against wavbrro.rs:222-233 and the files in atsc/tests/wbros):
    the samples of all chunks; then per chunk a relative pointer (i32) and a length (u32); then the root: relative pointer and
    length of the chunk table, sample count (u32), bit depth (u8) and three zero bytes of padding.
    A relative pointer that does not fit 32 bits makes serialization panic. *)
Definition le_i32 (z : Z) : list Z := le_bytes 4 (wrap_u 32 z).
Definition rel_ptr (from to : Z) : res (list Z) :=
  if in_sb 32 (to - from) then Ok (le_i32 (to - from)) else Panic PUnwrap.
Definition chunk_bytes (c : list f64) : list Z := flat_map enc_f64 c.
Fixpoint vec_table (at_ : Z) (chunks : list (list f64)) (target : Z) : res (list Z) :=
  match chunks with
  | [] => Ok []
  | c :: r =>
    do p <- rel_ptr at_ target;
    do t <- vec_table (at_ + 8) r (target + 8 * Z.of_nat (length c));
    Ok (p ++ le_i32 (Z.of_nat (length c)) ++ t)
  end.
Definition total_samples (chunks : list (list f64)) : Z := Z.of_nat (length (concat chunks)).
(** wavbrro/src/wavbrro.rs:126-128 to_bytes. *)
Definition wb_to_bytes (w : wavbrro) : res (list Z) :=
  let chunks := wb_chunks w in
  let dl := 8 * total_samples chunks in
  do t <- vec_table dl chunks 0;
  do p <- rel_ptr (dl + 8 * Z.of_nat (length chunks)) dl;
  Ok (flat_map chunk_bytes chunks ++ t ++ p ++ le_i32 (Z.of_nat (length chunks)) ++ le_bytes 4 (wb_count w) ++ [wb_bitdepth w; 0; 0; 0]).

(** wavbrro/src/wavbrro.rs:130-132 from_bytes: rkyv's validation is modelled by its bounds and alignment checks (the buffer
    itself is taken to be 8-aligned, as allocators give); its further check that parts do not overlap is not modelled, so the
    model may accept a malformed archive the code refuses. Refusal panics ([expect]). *)
Definition slice (pos n : nat) (l : list Z) : list Z := firstn n (skipn pos l).
Definition in_bounds (bytes : list Z) (pos n : Z) : bool := (0 <=? pos) && (pos + n <=? Z.of_nat (length bytes)).
Definition read_u32 (bytes : list Z) (pos : Z) : res Z :=
  if in_bounds bytes pos 4 then Ok (le_val (slice (Z.to_nat pos) 4 bytes)) else Panic PUnwrap.
Definition read_vec (bytes : list Z) (pos : Z) : res (Z * Z) :=
  do r <- read_u32 bytes pos; do n <- read_u32 bytes (pos + 4); Ok (pos + wrap_s 32 r, n).
Fixpoint take_f64s (n : nat) (l : list Z) : list f64 :=
  match n with
  | O => []
  | S k => from_bits (le_val (firstn 8 l)) :: take_f64s k (skipn 8 l)
  end.
Definition read_f64s (bytes : list Z) (pos n : Z) : res (list f64) :=
  if in_bounds bytes pos (8 * n) && (pos mod 8 =? 0) then Ok (take_f64s (Z.to_nat n) (skipn (Z.to_nat pos) bytes)) else Panic PUnwrap.
Fixpoint read_chunks (bytes : list Z) (n : nat) (pos : Z) : res (list (list f64)) :=
  match n with
  | O => Ok []
  | S k => do (s, l) <- read_vec bytes pos; do c <- read_f64s bytes s l; do r <- read_chunks bytes k (pos + 8); Ok (c :: r)
  end.
Definition wb_from_bytes (bytes : list Z) : res wavbrro :=
  let root := Z.of_nat (length bytes) - 16 in
  if (0 <=? root) && (root mod 4 =? 0)
  then
    do (ct, cn) <- read_vec bytes root;
    if in_bounds bytes ct (8 * cn) && (ct mod 4 =? 0)
    then
      do chunks <- read_chunks bytes (Z.to_nat cn) ct;
      do count <- read_u32 bytes (root + 8);
      Ok (WB count (nth (Z.to_nat (root + 12)) bytes 0) chunks)
    else Panic PUnwrap
  else Panic PUnwrap.

(** * Files *)
(** wavbrro/src/write.rs:22: b"WBRO0000WBRO". *)
Definition wbro_mark : list Z := [87; 66; 82; 79].
Definition wbro_header : list Z := wbro_mark ++ [48; 48; 48; 48] ++ wbro_mark.

(** The answer of one positioned write: the number of bytes written (at most those given), or an error. *)
Inductive write_answer := Wrote (n : nat) | WriteError.

(** Writing [data] at offset [off] of a file with content [f]; a gap is filled with zeros. *)
Definition write_at (f : list Z) (off : nat) (data : list Z) : list Z :=
  match data with
  | [] => f
  | _ => firstn off f ++ repeat 0 (off - length f) ++ data ++ skipn (off + length data) f
  end.

(** wavbrro/src/write.rs:21-28 write_wavbrro_file, given what the operating system answers to the two writes. [File::create]
    truncates; a failing create is not modelled. The result is the content of the file. *)
Definition write_wavbrro_file (w1 w2 : write_answer) (content : list Z) : res (list Z) :=
  match w1 with
  | WriteError => Panic PUnwrap
  | Wrote n1 =>
    let f1 := write_at [] 0 (firstn n1 wbro_header) in
    match w2 with
    | WriteError => Panic PUnwrap
    | Wrote n2 => Ok (write_at f1 (length wbro_header) (firstn n2 content))
    end
  end.

(** wavbrro/src/wavbrro.rs:114-118 to_file_with_data and 121-124 to_file. *)
Definition to_file_with_data (w1 w2 : write_answer) (data : list f64) : res (list Z) :=
  do b <- wb_to_bytes (wb_from_slice data); write_wavbrro_file w1 w2 b.
Definition to_file (w1 w2 : write_answer) (w : wavbrro) : res (list Z) :=
  do b <- wb_to_bytes w; write_wavbrro_file w1 w2 b.

Inductive wb_read := WbSamples (l : list f64) | WbFormatError | WbIoError.

(** wavbrro/src/read.rs:23-29 is_wavbrro_file; [None] is the I/O error of read_exact on a file of fewer than 12 bytes. *)
Fixpoint list_eqb (a b : list Z) : bool :=
  match a, b with
  | [], [] => true
  | x :: a', y :: b' => (x =? y) && list_eqb a' b'
  | _, _ => false
  end.
Definition is_wavbrro_file (file : list Z) : option bool :=
  if (length file <? 12)%nat then None
  else Some (list_eqb (slice 0 4 file) wbro_mark && list_eqb (slice 8 4 file) wbro_mark).

(** wavbrro/src/wavbrro.rs:103-111 from_file (read.rs:31-37 reads all bytes from offset 12); a missing file is an I/O error. *)
Definition from_file (file : option (list Z)) : res wb_read :=
  match file with
  | None => Ok WbIoError
  | Some f =>
    match is_wavbrro_file f with
    | None => Ok WbIoError
    | Some false => Ok WbFormatError
    | Some true => do w <- wb_from_bytes (skipn 12 f); Ok (WbSamples (wb_samples w))
    end
  end.
