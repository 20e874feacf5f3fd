(** C44, infinite samples: a chunk of one infinity comes back through Fourier frames, sign and all, and is reported as exact. *)
From Coq Require Import List ZArith Bool Lia.
From Flocq Require Import IEEE754.Binary IEEE754.BinarySingleNaN.
From Verif Require Import Base Model_Float Model_Bincode Model_Stats Model_Compressors Model_Fft Model_Stream Spec BincodeFacts StatsFacts FftFacts Props_Fft Props_Library.
Import ListNotations.
Open Scope Z_scope.

Definition infinity (s : bool) : f64 := Binary.B754_infinity 53 1024 s.
(** The IEEE bit patterns of the infinities. *)
Example infinity_bits : to_bits (infinity false) = 0x7FF0000000000000 /\ to_bits (infinity true) = 0xFFF0000000000000.
Proof. split; vm_compute; reflexivity. Qed.

Lemma minmax_inf s n : fft_minmax (repeat (infinity s) (S n)) = Ok (infinity s, infinity s).
Proof.
  cbn [repeat fft_minmax]. f_equal. change (infinity s :: repeat (infinity s) n) with (repeat (infinity s) (S n)).
  induction (S n) as [|k IH]; [reflexivity|]. cbn [repeat fold_left]. destruct s; exact IH.
Qed.
(** Every call that makes Fourier frames makes one that reads back as the chunk. *)
Theorem C44_infinite_chunk : forall e p s n bound k data, data = repeat (infinity s) (S n) ->
  exists bytes, compress e FFT data = Ok bytes /\ compress_bounded e p FFT data bound = Ok bytes /\ fft_set (e_fft e) data k = Ok bytes /\
    (exists r, compress_results e p FFT data bound = Ok r /\ cr_data r = bytes /\ feq (cr_error r) f0 = true) /\
    decompress e p FFT (length data) bytes = Ok data.
Proof.
  intros e p s n bound k data ->. set (data := repeat (infinity s) (S n)). assert (Hne : data <> []) by discriminate.
  destruct (data_stats_total data Hne) as [st Hst]. assert (M := minmax_stats data st Hst). unfold data in M at 1. rewrite minmax_inf in M. apply ok_inj in M.
  assert (Mn : st_min st = infinity s) by (now apply (f_equal fst) in M). assert (Mx : st_max st = infinity s) by (now apply (f_equal snd) in M).
  set (c := fft_new (infinity s) (infinity s)). assert (E : f32_eq (ff_max c) (ff_min c) = true) by (destruct s; vm_compute; reflexivity).
  assert (Q : fft_minmax data = Ok (infinity s, infinity s)) by apply minmax_inf.
  assert (C1 : fft (e_fft e) data = Ok (enc_fft c)).
  { unfold fft. rewrite Q. cbn [bind fst snd]. fold c. unfold fft_compress, fft_compress_hinted. rewrite E. reflexivity. }
  assert (C2 : fft_compressor (e_fft e) data bound st = Ok {| cr_data := enc_fft c; cr_error := f0 |}).
  { unfold fft_compressor. rewrite Mn, Mx. fold c. unfold fft_compress_bounded. rewrite E. reflexivity. }
  exists (enc_fft c). split; [exact C1|]. split; [unfold compress_bounded; rewrite Hst; cbn [bind]; rewrite C2; reflexivity|].
  split; [unfold fft_set; rewrite Q; cbn [bind fst snd]; fold c; unfold fft_compress_hinted; rewrite E; reflexivity|].
  split; [exists {| cr_data := enc_fft c; cr_error := f0 |}; split; [unfold compress_results; rewrite Hst; exact C2|]; split; [reflexivity|]; vm_compute; reflexivity|].
  cbn [decompress]. unfold fft_to_data. rewrite decode_fft; [|split; [apply Forall_nil|cbn; lia]]. cbn [bind]. unfold fft_expand. cbn [no_error ff_max ff_min].
  rewrite E. unfold data. rewrite repeat_length. destruct s; reflexivity.
Qed.
Print Assumptions C44_infinite_chunk.
