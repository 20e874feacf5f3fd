(** C56 continued: the frames of a run of the command line. *)
From Coq Require Import List ZArith Bool Lia.
From Verif Require Import Base Model_Float Model_Bincode BincodeFacts Spec FloatFacts Model_Utils UtilsFacts Model_Stats StatsFacts Model_Compressors CompressorFacts Model_Polynomial Model_Fft Model_Stream
  StreamFacts PlanFacts PipelineFacts Props_Poly Props_Plan Props_Lossless Props_Fft Props_Stream Props_Pipeline Props_Cycles.
Import ListNotations.
Open Scope Z_scope.

(** What a frame says besides its payload. *)
Definition announces (c : compressor) (n : nat) (f : frame) : Prop :=
  fr_size f = 41 /\ fr_samples f = Z.of_nat n /\
  (c <> Auto -> fr_compressor f = c) /\ (c = Auto -> In (fr_compressor f) [Constant; FFT; Polynomial; RLE]).

Lemma call_announces e p c err level d f : env_ok e -> 0 <= err < 256 -> 0 <= level <= 6 -> d <> [] -> Z.of_nat (length d) <= 131072 ->
  frame_of e p (call_for c err level d) = Ok f -> announces c (length d) f.
Proof.
  intros He Hr Hl Hne Hn. assert (U : forall f, frame_compress e c d = Ok f -> c <> Auto -> announces c (length d) f).
  { intros g Hg Hc. unfold frame_compress in Hg. destruct (compress e c d) as [b|]; [|discriminate Hg]. cbn [bind] in Hg. apply ok_inj in Hg. subst g. unfold announces. cbn. split; [reflexivity|]. split; [reflexivity|]. split; [reflexivity|contradiction]. }
  assert (B : forall f, frame_compress_bounded e p c d (cli_error err) = Ok f -> c <> Auto -> announces c (length d) f).
  { intros g Hg Hc. unfold frame_compress_bounded in Hg. destruct (compress_bounded e p c d _) as [b|]; [|discriminate Hg]. cbn [bind] in Hg. apply ok_inj in Hg. subst g. unfold announces. cbn. split; [reflexivity|]. split; [reflexivity|]. split; [reflexivity|contradiction]. }
  unfold call_for. destruct c; cbn [is_bounded frame_of]; intros H; try (apply U; [exact H|discriminate]); try (apply B; [exact H|discriminate]).
  destruct (data_stats_total d Hne) as [st Hst].
  destruct (compress_best_cases e p d (cli_error err) level st He Hne ltac:(lia) Hl Hst (cli_error_nonneg err Hr)) as (c & r & Hb & _ & Hcase).
  rewrite Hb in H. apply ok_inj in H. subst f. unfold announces. cbn [fr_size fr_samples fr_compressor]. split; [reflexivity|]. split; [reflexivity|]. split; [congruence|]. intros _.
  destruct Hcase as [(_ & ->)|[(_ & _ & Hw)|(_ & _ & rp & Hw)]]; [now left| |]; destruct Hw as (Hw & _); right; exact Hw.
Qed.

(** The stream a run writes: version 1, a counter that is the number of frames modulo 256, and for each block of the finite samples one frame that
    announces size 41, the length of the block, and the requested compressor (under automatic selection: one of four). *)
Theorem C56_frames_written : forall e p data c err level,
  env_ok e -> 0 <= err < 256 -> 0 <= level <= 6 -> fits_counter p data ->
  exists s blocks, compress_data e p data c err level = Ok (stream_to_bytes s) /\ stream_from_bytes (stream_to_bytes s) = Ok s /\
    h_version (s_header s) = 1 /\ h_frames (s_header s) = Z.of_nat (length (s_frames s)) mod 256 /\
    concat blocks = finite_samples data /\ Forall (fun d => 1 <= Z.of_nat (length d) <= 131072) blocks /\
    Forall2 (fun d f => announces c (length d) f) blocks (s_frames s).
Proof.
  intros e p data c err level He Hr Hl Hf. rewrite <- clean_is. destruct (compress_data_calls e p data c err level) as (sizes & Hs & E).
  destruct (cut_facts _ _ Hs) as (Hc1 & Hc2 & Hc3). assert (Hcnt := counter_ok p data sizes Hf Hs).
  destruct (library_runs e p (map (call_for c err level) (cut (clean_data data) sizes)) He
    (proper_calls c err level _ Hr Hl Hc2) ltac:(rewrite map_length, Hc3; exact Hcnt)) as (s & outs & H1 & H2 & _).
  destruct (C04_frame_counter e p _ s H1) as (HF & Hh & Hv).
  exists s, (cut (clean_data data) sizes). split; [rewrite E, H1; reflexivity|]. split; [exact H2|]. split; [exact Hv|]. split; [exact Hh|]. split; [exact Hc1|].
  split; [eapply Forall_impl; [|exact Hc2]; intros d [D1 D2]; destruct d; [congruence|cbn [length] in *; lia]|].
  clear - HF Hc2 He Hr Hl. remember (map (call_for c err level) (cut (clean_data data) sizes)) as calls. revert Heqcalls Hc2. generalize (cut (clean_data data) sizes) as ds.
  induction HF as [|a f l fs Hf _ IH]; intros ds E Hc; destruct ds as [|d ds]; try discriminate E; [constructor|]. cbn [map] in E. inversion Hc as [|? ? [D1 D2] Hc']; subst.
  constructor; [apply (call_announces e p c err level); auto; congruence|apply IH; [congruence|exact Hc']].
Qed.
Print Assumptions C56_frames_written.

Example C56_frames_example : let data := map int_as_f64 [1; 2; 3] in
  fits_counter Dev data /\ (do b <- compress_data id_env Dev data RLE 5 0; do s <- stream_from_bytes b; Ok (map (fun f => (fr_size f, fr_samples f)) (s_frames s))) = Ok [(41, 3)].
Proof. cbv zeta. split; [apply fits_small; cbn; lia|vm_compute; reflexivity]. Qed.
