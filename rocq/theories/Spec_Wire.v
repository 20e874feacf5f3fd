(** The byte format of compressed streams as a grammar, independent of the encoders and
    decoders of the model: relations between values and the byte strings that spell them.
    Only the records of the model (streams, frames, frequency points) and the bit patterns
    and integer casts of doubles are taken from it. *)
From Coq Require Import List ZArith.
From Verif Require Import Base Model_Float Model_Stats Model_Polynomial Model_Fft Model_Stream.
Import ListNotations.
Open Scope Z_scope.

(** What the library writes, and what it accepts when reading. *)
Inductive usage := Written | Readable.
(** Widths of integers. *)
Inductive width := W16 | W32 | W64.
Definition as_wide_as (w v : width) : Prop :=
  match w, v with
  | W16, W16 | W32, W16 | W32, W32 | W64, _ => True
  | _, _ => False
  end.

Definition is_byte (b : Z) : Prop := 0 <= b < 256.

(** Unsigned numbers. Up to 250: the byte itself. Otherwise 251, 252 or 253 and the number in
    2, 4 or 8 bytes, least significant first, no marker being wider than the type of the
    number. The library writes the shortest of these, and reads any of them. *)
Inductive number (u : usage) (w : width) : Z -> list Z -> Prop :=
| number1 z : 0 <= z <= 250 -> number u w z [z]
| number2 z b0 b1 :
    Forall is_byte [b0; b1] -> z = b0 + 256 * b1 ->
    (u = Written -> 250 < z) -> number u w z [251; b0; b1]
| number4 z b0 b1 b2 b3 :
    as_wide_as w W32 -> Forall is_byte [b0; b1; b2; b3] ->
    z = b0 + 256 * (b1 + 256 * (b2 + 256 * b3)) ->
    (u = Written -> 65535 < z) -> number u w z [252; b0; b1; b2; b3]
| number8 z b0 b1 b2 b3 b4 b5 b6 b7 :
    as_wide_as w W64 -> Forall is_byte [b0; b1; b2; b3; b4; b5; b6; b7] ->
    z = b0 + 256 * (b1 + 256 * (b2 + 256 * (b3 + 256 * (b4 + 256 * (b5 + 256 * (b6 + 256 * b7)))))) ->
    (u = Written -> 4294967295 < z) -> number u w z [253; b0; b1; b2; b3; b4; b5; b6; b7].

(** Signed numbers: 0, -1, 1, -2, 2, ... are spelled as 0, 1, 2, 3, 4, ... *)
Definition signed (u : usage) (w : width) (z : Z) (bs : list Z) : Prop :=
  exists n, number u w n bs /\ ((0 <= z /\ n = 2 * z) \/ (z < 0 /\ n = -2 * z - 1)).

(** Floating-point numbers: the bit pattern, least significant byte first. *)
Definition double (x : f64) (bs : list Z) : Prop :=
  exists b0 b1 b2 b3 b4 b5 b6 b7,
    bs = [b0; b1; b2; b3; b4; b5; b6; b7] /\ Forall is_byte bs /\
    to_bits x = b0 + 256 * (b1 + 256 * (b2 + 256 * (b3 + 256 * (b4 + 256 * (b5 + 256 * (b6 + 256 * b7)))))).
Definition single (x : f32) (bs : list Z) : Prop :=
  exists b0 b1 b2 b3,
    bs = [b0; b1; b2; b3] /\ Forall is_byte bs /\
    f32_to_bits x = b0 + 256 * (b1 + 256 * (b2 + 256 * b3)).

(** Items one after the other; a sequence is their number followed by the items. *)
Inductive items {A} (item : A -> list Z -> Prop) : list A -> list Z -> Prop :=
| items_nil : items item [] []
| items_cons a l b bs : item a b -> items item l bs -> items item (a :: l) (b ++ bs).
Definition sequence {A} (u : usage) (item : A -> list Z -> Prop) (l : list A) (bs : list Z) : Prop :=
  exists n body, bs = n ++ body /\ number u W64 (Z.of_nat (length l)) n /\ items item l body.

(** The width tag of a payload. *)
Definition width_tag (b : bitdepth) : Z :=
  match b with BF64 => 0 | BI32 => 1 | BI16 => 2 | BU8 => 3 end.
(** A sample: written as an integer it is cut to the width by a saturating cast; read back
    it is that integer as a double. *)
Definition sample (u : usage) (b : bitdepth) (x : f64) (bs : list Z) : Prop :=
  match b with
  | BF64 => double x bs
  | BI32 => exists z, signed u W32 z bs /\
      match u with Written => z = f64_as_i32 x | Readable => x = int_as_f64 z end
  | BI16 => exists z, signed u W16 z bs /\
      match u with Written => z = f64_as_i16 x | Readable => x = int_as_f64 z end
  | BU8 => exists z, bs = [z] /\ is_byte z /\
      match u with Written => z = f64_as_u8 x | Readable => x = int_as_f64 z end
  end.

(** The first byte of a payload: written as the compressor's mark, not looked at when read. *)
Definition mark (u : usage) (m : Z) (b : Z) : Prop :=
  match u with Written => b = m | Readable => is_byte b end.

(** Payloads. *)
Definition noop_layout (u : usage) (ints : list Z) (bs : list Z) : Prop :=
  exists m rest, bs = m :: rest /\ mark u 250 m /\ sequence u (signed u W64) ints rest.

Definition constant_layout (u : usage) (b : bitdepth) (x : f64) (bs : list Z) : Prop :=
  exists m tag rest, bs = m :: tag ++ rest /\ mark u 30 m /\
    number u W32 (width_tag b) tag /\ sample u b x rest.

(** A value and the positions at which runs of it start. *)
Definition run (u : usage) (b : bitdepth) (r : f64 * list Z) (bs : list Z) : Prop :=
  exists v ps, bs = v ++ ps /\ sample u b (fst r) v /\ sequence u (number u W64) (snd r) ps.
Definition rle_layout (u : usage) (b : bitdepth) (runs : list (f64 * list Z)) (bs : list Z) : Prop :=
  exists m tag rest, bs = m :: tag ++ rest /\ mark u 60 m /\
    number u W32 (width_tag b) tag /\ sequence u (run u b) runs rest.

Definition frequency (u : usage) (f : freq) (bs : list Z) : Prop :=
  exists p r i, bs = p ++ r ++ i /\ number u W16 (fq_pos f) p /\ single (fq_re f) r /\ single (fq_im f) i.
Definition fft_layout (u : usage) (fs : list freq) (mx mn : f32) (bs : list Z) : Prop :=
  exists m rest bx bn, bs = m :: rest ++ bx ++ bn /\ mark u 15 m /\
    sequence u (frequency u) fs rest /\ single mx bx /\ single mn bn.

(** Interpolation: kind (0 polynomial, 1 inverse distance), width, points, minimum, maximum,
    step. *)
Definition interpolation_layout (u : usage) (kind : ptype) (b : bitdepth) (pts : list f64)
    (mn mx : f64) (step : Z) (bs : list Z) : Prop :=
  exists k tag ps bn bx, bs = k ++ tag ++ ps ++ bn ++ bx ++ [step] /\
    number u W32 (match kind with PPolynomial => 0 | PIdw => 1 end) k /\
    number u W32 (width_tag b) tag /\ sequence u (sample u b) pts ps /\
    double mn bn /\ double mx bx /\ is_byte step.

(** Frames: size, number of samples, compressor, number of payload bytes, payload. *)
Definition compressor_number (c : compressor) : Z :=
  match c with
  | Noop => 0 | FFT => 1 | Idw => 2 | Constant => 3 | Polynomial => 4 | Auto => 5 | RLE => 6
  end.
Definition frame_bytes (u : usage) (f : frame) (bs : list Z) : Prop :=
  exists sz n c len, bs = sz ++ n ++ c ++ len ++ fr_data f /\
    number u W64 (fr_size f) sz /\ number u W64 (fr_samples f) n /\
    number u W32 (compressor_number (fr_compressor f)) c /\
    number u W64 (Z.of_nat (length (fr_data f))) len /\ Forall is_byte (fr_data f).

(** Streams: the four letters BRRO, the version in 4 bytes, least significant first, the frame
    counter in one byte, the sequence of frames. *)
Definition stream_bytes (u : usage) (s : stream) (bs : list Z) : Prop :=
  exists v0 v1 v2 v3 rest,
    bs = [66; 82; 82; 79] ++ [v0; v1; v2; v3] ++ [h_frames (s_header s)] ++ rest /\
    Forall is_byte [v0; v1; v2; v3; h_frames (s_header s)] /\
    h_version (s_header s) = v0 + 256 * (v1 + 256 * (v2 + 256 * v3)) /\
    sequence u (frame_bytes u) (s_frames s) rest.
