(** The bincode 2.0.0-rc.3 wire format under [config::standard()] (little endian,
    variable-length integers), as selected by BinConfig::get,
    atsc/src/compressor/mod.rs:122-131. bincode itself is a dependency whose source
    is not in /repo; this file models its documented format for exactly the types
    /repo encodes (u8, u16, u32, u64/usize, i16, i32, i64, f32, f64, Vec<T>, enum tags). *)
From Coq Require Import List ZArith Bool.
From Verif Require Import Base Model_Float.
Import ListNotations.
Open Scope Z_scope.

(** bincode DecodeError cases that can arise. *)
Inductive derr := UnexpectedEnd | InvalidIntegerType | UnexpectedVariant | OutOfFuel.

(** A decoder returns the value and the bytes it has not consumed. *)
Inductive dres (A : Type) :=
| DOk (a : A) (rest : list Z)
| DErr (e : derr).
Arguments DOk {A} a rest.
Arguments DErr {A} e.

Definition decoder (A : Type) := list Z -> dres A.

Definition dret {A} (a : A) : decoder A := fun bs => DOk a bs.
Definition dfail {A} (e : derr) : decoder A := fun _ => DErr e.
Definition dbind {A B} (d : decoder A) (f : A -> decoder B) : decoder B :=
  fun bs => match d bs with DOk a r => f a r | DErr e => DErr e end.
Notation "'dlet' x <- e ; f" := (dbind e (fun x => f))
  (at level 200, x pattern, e at level 100, f at level 200, right associativity).

(** Little-endian fixed width integers (to_le_bytes / from_le_bytes). *)
Fixpoint le_bytes (n : nat) (z : Z) : list Z :=
  match n with
  | O => []
  | S n' => (z mod 256) :: le_bytes n' (z / 256)
  end.
Fixpoint le_val (l : list Z) : Z :=
  match l with [] => 0 | b :: l' => b + 256 * le_val l' end.

(** Reader::read of exactly [n] bytes. *)
Fixpoint dec_take (n : nat) : decoder (list Z) :=
  fun bs =>
    match n with
    | O => DOk [] bs
    | S n' =>
        match bs with
        | [] => DErr UnexpectedEnd
        | b :: bs' =>
            match dec_take n' bs' with
            | DOk l r => DOk (b :: l) r
            | DErr e => DErr e
            end
        end
    end.

(** u8: one raw byte. *)
Definition enc_u8 (z : Z) : list Z := [z].
Definition dec_u8 : decoder Z :=
  fun bs => match bs with [] => DErr UnexpectedEnd | b :: r => DOk b r end.

(** Unsigned varints: <=250 in one byte, else a marker 251/252/253 and 2/4/8 bytes. *)
Definition enc_varint (z : Z) : list Z :=
  if z <=? 250 then [z]
  else if z <? 2 ^ 16 then 251 :: le_bytes 2 z
  else if z <? 2 ^ 32 then 252 :: le_bytes 4 z
  else 253 :: le_bytes 8 z.
(** [w] is the widest marker the target type accepts: 1 for u16, 2 for u32, 3 for u64
    and usize. Wider markers are InvalidIntegerType; non-minimal encodings are accepted. *)
Definition dec_varint (w : Z) : decoder Z :=
  dlet b <- dec_u8;
  if b <=? 250 then dret b
  else if b =? 251 then dlet l <- dec_take 2; dret (le_val l)
  else if (b =? 252) && (2 <=? w) then dlet l <- dec_take 4; dret (le_val l)
  else if (b =? 253) && (3 <=? w) then dlet l <- dec_take 8; dret (le_val l)
  else dfail InvalidIntegerType.
Definition enc_u16 := enc_varint.
Definition enc_u32 := enc_varint.
Definition enc_u64 := enc_varint.
Definition enc_usize := enc_varint.
Definition dec_u16 := dec_varint 1.
Definition dec_u32 := dec_varint 2.
Definition dec_u64 := dec_varint 3.
Definition dec_usize := dec_varint 3.

(** Signed integers are zig-zag mapped to the unsigned type of the same width. *)
Definition zigzag (z : Z) : Z := if z <? 0 then - 2 * z - 1 else 2 * z.
Definition unzigzag (n : Z) : Z := if Z.even n then n / 2 else - (n / 2) - 1.
Definition enc_int (z : Z) : list Z := enc_varint (zigzag z).
Definition dec_int (w : Z) : decoder Z := dlet n <- dec_varint w; dret (unzigzag n).
Definition enc_i16 := enc_int.
Definition enc_i32 := enc_int.
Definition enc_i64 := enc_int.
Definition dec_i16 := dec_int 1.
Definition dec_i32 := dec_int 2.
Definition dec_i64 := dec_int 3.

(** Floats: fixed-width little-endian bit pattern. *)
Definition enc_f64 (x : f64) : list Z := le_bytes 8 (to_bits x).
Definition dec_f64 : decoder f64 := dlet l <- dec_take 8; dret (from_bits (le_val l)).
Definition enc_f32 (x : f32) : list Z := le_bytes 4 (f32_to_bits x).
Definition dec_f32 : decoder f32 := dlet l <- dec_take 4; dret (f32_from_bits (le_val l)).

(** Vec<T>: length as u64, then the elements. *)
Definition enc_vec {A} (enc : A -> list Z) (l : list A) : list Z :=
  enc_u64 (Z.of_nat (length l)) ++ flat_map enc l.
(** The element loop [for _ in 0..len]; fuel: every element consumes at least one byte,
    so [S (length bs)] rounds suffice (OutOfFuel is unreachable for the element
    decoders used). Simplification: [Vec::with_capacity(len)] aborting on absurd lengths is
    not modelled; such inputs end in DErr here. *)
Fixpoint dec_loop {A} (dec : decoder A) (fuel : nat) (n : Z) : decoder (list A) :=
  fun bs =>
    if n <=? 0 then DOk [] bs
    else match fuel with
         | O => DErr OutOfFuel
         | S f =>
             match dec bs with
             | DErr e => DErr e
             | DOk a r =>
                 match dec_loop dec f (n - 1) r with
                 | DErr e => DErr e
                 | DOk l r' => DOk (a :: l) r'
                 end
             end
         end.
Definition dec_vec {A} (dec : decoder A) : decoder (list A) :=
  dlet n <- dec_u64; fun bs => dec_loop dec (S (length bs)) n bs.

(** Vec<u8>: length as u64 then raw bytes (bincode special-cases u8: one read). *)
Definition enc_bytes (l : list Z) : list Z := enc_u64 (Z.of_nat (length l)) ++ l.
Definition dec_bytes : decoder (list Z) :=
  dlet n <- dec_u64;
  fun bs => if Z.of_nat (length bs) <? n then DErr UnexpectedEnd
            else dec_take (Z.to_nat n) bs.

(** [bincode::decode_from_slice(data, config).unwrap()]: trailing bytes are ignored. *)
Definition decode_unwrap {A} (d : decoder A) (bs : list Z) : res A :=
  match d bs with DOk a _ => Ok a | DErr _ => Panic PUnwrap end.
