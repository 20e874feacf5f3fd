(** A program that uses the library: it adds chunks to one stream, reads it, and writes it out and reads it back in, in any
    order, and carries on after a call that panicked (std::panic::catch_unwind, or a worker thread whose owner keeps the
    stream). *)
From Coq Require Import List ZArith Bool.
From Verif Require Import Base Model_Float Model_Stats Model_Compressors Model_Polynomial Model_Fft Model_Stream Props_Stream.
Import ListNotations.
Open Scope Z_scope.

(** One thing the program does with its stream. *)
Inductive act :=
| Call (a : addition)              (* compress_chunk, compress_chunk_with, compress_chunk_bounded_with: data.rs:38-76 *)
| Reload (trailing : list Z)       (* to_bytes, the bytes kept somewhere with more bytes after them, from_bytes: data.rs:79-103 *)
| Read.                            (* decompress: data.rs:104-109 *)

(** What the program sees. *)
Inductive reply :=
| Added                            (* the call returned *)
| Refused                          (* the call panicked before the stream was touched *)
| Overflowed                       (* the call panicked in the frame counter, after the frame had been pushed *)
| Reloaded
| Samples (out : list f64)
| Unreadable.                      (* decompress panicked *)

(** A chunk call whose panic is caught, data.rs:38-76. The frame is made first (data.rs:39-41, 48-50, 67-73), then pushed
    (42, 51, 74), then counted (43, 52, 75; header.rs:52-54, a u8 increment that panics in a debug build). *)
Definition call (e : env) (p : profile) (s : stream) (a : addition) : stream * reply :=
  match frame_of e p a with
  | Panic _ => (s, Refused)
  | Ok f =>
      match arith_u p 8 (h_frames (s_header s) + 1) with
      | Ok n => ({| s_header := {| h_version := h_version (s_header s); h_frames := n |}; s_frames := s_frames s ++ [f] |}, Added)
      | Panic _ => ({| s_header := s_header s; s_frames := s_frames s ++ [f] |}, Overflowed)
      end
  end.

(** One act. to_bytes takes the stream away (data.rs:79), so a failing from_bytes leaves the program without one. *)
Definition do_act (e : env) (p : profile) (s : stream) (x : act) : res (stream * reply) :=
  match x with
  | Call a => Ok (call e p s a)
  | Reload trailing => do s' <- stream_from_bytes (stream_to_bytes s ++ trailing); Ok (s', Reloaded)
  | Read => Ok (s, match stream_decompress e p s with Ok out => Samples out | Panic _ => Unreadable end)
  end.

(** A whole history, with what was seen at each step. *)
Fixpoint history (e : env) (p : profile) (s : stream) (l : list act) : res (stream * list reply) :=
  match l with
  | [] => Ok (s, [])
  | x :: l' =>
      do sr <- do_act e p s x;
      do rest <- history e p (fst sr) l';
      Ok (fst rest, snd sr :: snd rest)
  end.
