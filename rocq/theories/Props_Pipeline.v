(** C13 - C15, C46: the whole compress / decompress pipeline. *)
From Coq Require Import List ZArith Bool Lia ZifyBool Reals Lra.
From Verif Require Import Base Model_Float Model_Bincode BincodeFacts Spec FloatFacts Model_Utils UtilsFacts Model_Stats
  Model_Compressors Model_Polynomial Model_Fft Model_Stream StatsFacts CompressorFacts StreamFacts PlanFacts PolyApiFacts PipelineFacts
  Props_Stream Props_Lossless Props_Plan Props_Poly Props_Fft.
Import ListNotations.
Open Scope Z_scope.

Definition chunk_of (a : addition) : list f64 :=
  match a with AddDefault d => d | AddWith d _ => d | AddBounded d _ _ _ => d end.

(** Calls that are meant to succeed: a non-empty chunk, a concrete compressor, or (with an
    error bound) automatic selection with a non-negative bound and an existing level. *)
Definition proper_call (a : addition) : Prop :=
  chunk_of a <> [] /\ Z.of_nat (length (chunk_of a)) <= 2 ^ 53 /\
  match a with
  | AddDefault _ => True
  | AddWith _ c => c <> Auto
  | AddBounded _ c me level => c = Auto -> 0 <= level <= 6 /\ fle f0 (f32_as_f64 me) = true
  end.

Definition expands_to (e : env) (p : profile) (f : frame) (n : nat) : Prop :=
  exists out, frame_decompress e p f = Ok out /\ length out = n.

Lemma payload_frame e p c n bytes : Z.of_nat n <= 2 ^ 53 -> payload_ok e p c n bytes ->
  let f := {| fr_size := CLOSED_SIZE; fr_samples := Z.of_nat n; fr_compressor := c; fr_data := bytes |} in
  typed_frame f /\ 1 <= zlen (fr_data f) <= 26 * Z.of_nat n + 400 /\ expands_to e p f n.
Proof.
  intros Hn (H1 & H2 & H3). cbv zeta. split; [|split; [exact H2|]].
  - unfold typed_frame, CLOSED_SIZE. cbn [fr_size fr_samples fr_data]. unfold zlen in H2. repeat split; try lia. exact H1.
  - unfold expands_to, frame_decompress. cbn [fr_compressor fr_samples fr_data]. rewrite Nat2Z.id. exact H3.
Qed.

Lemma frame_of_ok e p a : env_ok e -> proper_call a -> exists f, frame_of e p a = Ok f /\ typed_frame f /\
  1 <= zlen (fr_data f) <= 26 * Z.of_nat (length (chunk_of a)) + 400 /\ expands_to e p f (length (chunk_of a)).
Proof.
  intros He (Hne & Hs & Hc).
  assert (D : forall c, c <> Auto -> exists f, frame_compress e c (chunk_of a) = Ok f /\ typed_frame f /\
     1 <= zlen (fr_data f) <= 26 * Z.of_nat (length (chunk_of a)) + 400 /\ expands_to e p f (length (chunk_of a))).
  { intros c Hca. destruct (compress_payload e p (chunk_of a) He Hne Hs c Hca) as (b & Hb & Hp).
    unfold frame_compress. rewrite Hb. cbn [bind]. eexists. split; [reflexivity|]. now apply payload_frame. }
  destruct a as [d|d c|d c me level]; cbn [chunk_of frame_of] in *.
  - apply D. discriminate.
  - apply D. exact Hc.
  - assert (B : forall c, c <> Auto -> exists f, frame_compress_bounded e p c d me = Ok f /\ typed_frame f /\
       1 <= zlen (fr_data f) <= 26 * Z.of_nat (length d) + 400 /\ expands_to e p f (length d)).
    { intros c' Hca. destruct (results_payload e p d He Hne Hs c' (f32_as_f64 me) Hca) as (b & _ & Hb & Hp).
      unfold frame_compress_bounded. rewrite Hb. cbn [bind]. eexists. split; [reflexivity|]. now apply payload_frame. }
    destruct c; try (apply B; discriminate). destruct (Hc eq_refl) as [Hl Hf].
    destruct (data_stats_total d Hne) as [st Hst].
    destruct (compress_best_cases e p d me level st He Hne Hs Hl Hst Hf) as (c & r & -> & Hr & Hcase).
    eexists. split; [reflexivity|]. apply payload_frame; [exact Hs|].
    assert (Hca : c <> Auto).
    { destruct Hcase as [(_ & ->)|[(_ & _ & Hw)|(_ & _ & rp & Hw)]]; [discriminate| |]; destruct Hw as (Hw & _); cbn [In] in Hw; intros ->; intuition discriminate. }
    destruct (results_payload e p d He Hne Hs c (f32_as_f64 me) Hca) as (r' & Hr' & _ & Hp). rewrite Hr in Hr'. apply ok_inj in Hr'. now subst r'.
Qed.

Lemma library_runs : forall e p l,
  env_ok e -> Forall proper_call l ->
  (length l <= 255)%nat \/ (p = Release /\ Z.of_nat (length l) < 2 ^ 64) ->
  exists s outs,
    add_all e p l = Ok s /\
    stream_from_bytes (stream_to_bytes s) = Ok s /\
    stream_decompress e p s = Ok (concat outs) /\
    Forall2 (fun a out => exists f, frame_of e p a = Ok f /\ frame_decompress e p f = Ok out /\ length out = length (chunk_of a)) l outs.
Proof.
  intros e p l He Hl Hcnt.
  assert (Hfr : forall a, In a l -> exists f, frame_of e p a = Ok f).
  { intros a Ha. rewrite Forall_forall in Hl. destruct (frame_of_ok e p a He (Hl a Ha)) as (f & Hf & _). eauto. }
  assert (Hs : exists s, add_all e p l = Ok s).
  { destruct Hcnt as [H|[-> _]]; [destruct (C04_counter_exact_up_to_255 e p l H Hfr) as (s & Hs & _); eauto|].
    unfold add_all. generalize stream_new. clear Hl. revert Hfr. induction l as [|a l IH]; intros Hfr s; [eexists; reflexivity|].
    cbn [fold_res]. rewrite add_frame_of. destruct (Hfr a (or_introl eq_refl)) as [f ->]. cbn [bind].
    unfold push_frame. assert (exists n, arith_u Release 8 (h_frames (s_header s) + 1) = Ok n) as [n ->].
    { unfold arith_u. destruct (in_ub _ _); eauto. }
    cbn [bind]. apply IH. intros b Hb. apply Hfr. now right. }
  destruct Hs as [s Hs]. destruct (C04_frame_counter e p l s Hs) as (HF & Hh & Hv).
  assert (Hlen := forall2_length _ _ _ HF).
  exists s. 
  assert (Houts : exists outs, map_res (frame_decompress e p) (s_frames s) = Ok outs /\ Forall2 (fun a out => exists f, frame_of e p a = Ok f /\ frame_decompress e p f = Ok out /\ length out = length (chunk_of a)) l outs
     /\ Forall typed_frame (s_frames s)).
  { clear - He Hl HF. revert Hl. induction HF as [|a f l fs Hf _ IH]; intros Hl; [exists []; split; [reflexivity|split; constructor]|].
    inversion Hl as [|? ? Ha Hl']; subst. destruct (IH Hl') as (outs & H1 & H2 & H3).
    destruct (frame_of_ok e p a He Ha) as (f' & Hf' & Ht & _ & out & Ho & Hol). rewrite Hf in Hf'. apply ok_inj in Hf'. subst f'.
    exists (out :: outs). cbn [map_res]. rewrite Ho. cbn [bind]. rewrite H1. cbn [bind]. split; [reflexivity|]. split; constructor; try assumption. exists f. tauto. }
  destruct Houts as (outs & Ho & Ho2 & Ht). exists outs. split; [exact Hs|]. split.
  - rewrite <- (app_nil_r (stream_to_bytes s)). apply C01_stream_roundtrip; [|lia]. split; [lia|].
    split; [rewrite Hh; apply Z.mod_pos_bound; lia|]. split; [exact Ht|]. destruct Hcnt; lia.
  - split; [unfold stream_decompress; rewrite Ho; reflexivity|exact Ho2].
Qed.

(** *** C13 *)
(** Library level: whatever chunks are added, with whatever compressors, the serialised stream
    parses back, and decompression returns the chunks' sample counts, frame by frame. *)
Theorem C13_library_sample_counts : forall e p l,
  env_ok e -> Forall proper_call l ->
  (length l <= 255)%nat \/ (p = Release /\ Z.of_nat (length l) < 2 ^ 64) ->
  exists s outs,
    add_all e p l = Ok s /\
    stream_from_bytes (stream_to_bytes s) = Ok s /\
    stream_decompress e p s = Ok (concat outs) /\
    Forall2 (fun a out => length out = length (chunk_of a)) l outs.
Proof.
  intros e p l He Hl Hc. destruct (library_runs e p l He Hl Hc) as (s & outs & H1 & H2 & H3 & H4). exists s, outs.
  split; [exact H1|]. split; [exact H2|]. split; [exact H3|].
  clear - H4. induction H4 as [|a o l outs (f & _ & _ & H) _ IH]; constructor; assumption.
Qed.
Print Assumptions C13_library_sample_counts.

(** The chunks of the command line's plan. *)
Definition call_for (c : compressor) (err level : Z) (d : list f64) : addition :=
  if is_bounded c then AddBounded d c (cli_error err) level else AddWith d c.

Lemma cli_error_nonneg err : 0 <= err < 256 -> fle f0 (f32_as_f64 (cli_error err)) = true.
Proof.
  intros H. assert (G : forallb (fun k => fle f0 (f32_as_f64 (cli_error (Z.of_nat k)))) (seq 0 256) = true) by (vm_compute; reflexivity).
  rewrite forallb_forall in G. specialize (G (Z.to_nat err)). rewrite Z2Nat.id in G by lia. apply G. apply in_seq. lia.
Qed.

(** compress_data is: cut the cleaned series, add every piece, serialise. *)
Lemma compress_data_calls e p data c err level : exists sizes,
  get_chunks_sizes (length (clean_data data)) = Ok sizes /\
  compress_data e p data c err level =
  do s <- add_all e p (map (call_for c err level) (cut (clean_data data) sizes)); Ok (stream_to_bytes s).
Proof.
  destruct (plan_spec data c) as (pl & H1 & _ & H2 & _ & _ & _ & H3). exists (pn_chunks pl). split; [exact H2|].
  unfold compress_data. rewrite H1. cbn [bind]. rewrite H3. cbn [bind]. f_equal. unfold add_all. generalize stream_new. clear H1 H2 H3.
  induction (cut (clean_data data) (pn_chunks pl)) as [|d l IH]; intros s; [reflexivity|].
  cbn [map fold_res]. unfold call_for at 1. destruct (is_bounded c) eqn:Eb; cbn [add].
  - destruct (compress_chunk_bounded_with e p s d c (cli_error err) level) as [s'|]; cbn [bind]; [|reflexivity]. apply IH.
  - destruct (compress_chunk_with e p s d c) as [s'|]; cbn [bind]; [|reflexivity]. apply IH.
Qed.

Lemma cut_facts (l : list f64) sizes : get_chunks_sizes (length l) = Ok sizes ->
  concat (cut l sizes) = l /\ Forall (fun d => d <> [] /\ Z.of_nat (length d) <= 131072) (cut l sizes) /\ length (cut l sizes) = length sizes.
Proof.
  intros H. destruct (get_chunks_sizes_spec (length l)) as (sz & H1 & H2 & H3). rewrite H in H1. apply ok_inj in H1. subst sz.
  assert (P := good_chunks_pos _ H3).
  destruct (cut_concat l sizes) as [C1 C2]; [eapply Forall_impl; [|exact P]; cbn; lia|exact H2|].
  split; [exact C1|]. split; [|transitivity (length (map (fun c : list f64 => Z.of_nat (length c)) (cut l sizes))); [now rewrite map_length|now rewrite C2]].
  rewrite <- C2 in P. rewrite Forall_map in P. eapply Forall_impl; [|exact P]. cbn beta. unfold MAX_FRAME_SIZE.
  intros d Hd. split; [intros ->; cbn in Hd; lia|lia].
Qed.

(** A length of at most 246 full chunks gives at most 255 chunks. *)
Lemma chunk_count_small fuel : forall len l k, chunks_loop fuel len = Some l -> 9 <= k <= 17 -> 0 <= len < 2 ^ k ->
  Z.of_nat (length l) <= k - 8.
Proof.
  induction fuel as [|fuel IH]; intros len l k; cbn [chunks_loop].
  - destruct (len <=? 0); [|discriminate]. intros H. assert (l = []) as -> by congruence. cbn. lia.
  - destruct (len <=? 0) eqn:E0; [intros H; assert (l = []) as -> by congruence; cbn; lia|].
    unfold next_chunk, MAX_FRAME_SIZE, MIN_FRAME_SIZE. intros H Hk Hl.
    assert (Hp17 : 2 ^ k <= 2 ^ 17) by (apply Z.pow_le_mono_r; lia).
    destruct (131072 <=? len) eqn:E1; [change (2 ^ 17) with 131072 in Hp17; lia|].
    destruct (len <=? 512) eqn:E2.
    + destruct fuel; cbn in H; assert (l = [len]) as -> by congruence; cbn; lia.
    + destruct (Z.eq_dec k 9) as [->|Hk9]; [cbn in Hl; lia|].
      rewrite prev_power_of_two_pos in H by lia.
      assert (J := Z.log2_spec len ltac:(lia)). assert (J0 := Z.log2_nonneg len). set (j := Z.log2 len) in *.
      destruct (chunks_loop fuel (len - 2 ^ j)) as [l'|] eqn:El; [|discriminate].
      assert (l = 2 ^ j :: l') as -> by congruence. cbn [length].
      assert (Hjk : j <= k - 1). { destruct (Z_le_gt_dec j (k - 1)); [lia|]. assert (2 ^ k <= 2 ^ j) by (apply Z.pow_le_mono_r; lia). lia. }
      assert (Hjj : 2 ^ j <= 2 ^ (k - 1)) by (apply Z.pow_le_mono_r; lia).
      assert (D : 2 ^ (Z.succ j) = 2 * 2 ^ j) by (apply Z.pow_succ_r; lia).
      specialize (IH (len - 2 ^ j) l' (k - 1) El ltac:(lia) ltac:(lia)). lia.
Qed.
Lemma chunk_count fuel : forall len l, chunks_loop fuel len = Some l -> 0 <= len -> len / 131072 <= Z.of_nat (length l) <= len / 131072 + 9.
Proof.
  induction fuel as [|fuel IH]; intros len l H Hl.
  - cbn [chunks_loop] in H. destruct (len <=? 0) eqn:E; [|discriminate]. assert (l = []) as -> by congruence. assert (len = 0) as -> by lia. cbn. lia.
  - destruct (Z_lt_ge_dec len 131072) as [Hs|Hs].
    + rewrite Z.div_small by lia. assert (C := chunk_count_small (S fuel) len l 17 H ltac:(lia) ltac:(change (2 ^ 17) with 131072; lia)). lia.
    + cbn [chunks_loop] in H. destruct (len <=? 0) eqn:E; [lia|]. unfold next_chunk, MAX_FRAME_SIZE in H.
      assert (131072 <=? len = true) as E1 by lia. rewrite E1 in H.
      destruct (chunks_loop fuel (len - 131072)) as [l'|] eqn:El; [|discriminate].
      assert (l = 131072 :: l') as -> by congruence. cbn [length]. specialize (IH _ _ El ltac:(lia)).
      assert (len / 131072 = (len - 131072) / 131072 + 1) as -> by (rewrite <- Z.div_add by lia; f_equal; lia). lia.
Qed.
Lemma sizes_count n sizes : get_chunks_sizes n = Ok sizes -> Z.of_nat n / 131072 <= Z.of_nat (length sizes) <= Z.of_nat n / 131072 + 9.
Proof.
  unfold get_chunks_sizes. destruct (chunks_loop n (Z.of_nat n)) as [l|] eqn:E; [|discriminate]. intros H. apply ok_inj in H. subst l.
  apply (chunk_count n); [exact E|lia].
Qed.

Lemma proper_calls c err level l : 0 <= err < 256 -> 0 <= level <= 6 -> Forall (fun d => d <> [] /\ Z.of_nat (length d) <= 131072) l ->
  Forall proper_call (map (call_for c err level) l).
Proof.
  intros Hr Hl H. apply Forall_map. eapply Forall_impl; [|exact H]. cbn beta. intros d [Hd Hs].
  unfold call_for, proper_call. destruct (is_bounded c) eqn:E; cbn [chunk_of]; (split; [exact Hd|]; split; [lia|]).
  - intros _. split; [exact Hl|]. now apply cli_error_nonneg.
  - intros ->. discriminate.
Qed.
Lemma chunk_of_call c err level d : chunk_of (call_for c err level d) = d.
Proof. unfold call_for. destruct (is_bounded c); reflexivity. Qed.

(** Samples that stay in the limits of the one-byte frame counter, or a build that wraps it. *)
Definition fits_counter (p : profile) (data : list f64) : Prop :=
  Z.of_nat (length (finite_samples data)) < 247 * 131072 \/ (p = Release /\ Z.of_nat (length data) < 2 ^ 60).

Lemma fits_small p data : Z.of_nat (length data) < 247 * 131072 -> fits_counter p data.
Proof. intros H. left. rewrite <- clean_is. assert (L := clean_data_length data). lia. Qed.
Lemma counter_ok p data sizes : fits_counter p data -> get_chunks_sizes (length (clean_data data)) = Ok sizes ->
  (length sizes <= 255)%nat \/ (p = Release /\ Z.of_nat (length sizes) < 2 ^ 64).
Proof.
  intros Hf H. assert (C := sizes_count _ _ H). unfold fits_counter in Hf. rewrite <- clean_is in Hf. destruct Hf as [Hf|[-> Hf]].
  - left. assert (Z.of_nat (length (clean_data data)) / 131072 < 247) by (apply Z.div_lt_upper_bound; lia). lia.
  - right. split; [reflexivity|]. assert (L := clean_data_length data).
    assert (Z.of_nat (length (clean_data data)) / 131072 <= Z.of_nat (length (clean_data data))) by (apply Z.div_le_upper_bound; lia). lia.
Qed.

(** What holds of every chunk holds of the whole run. *)
Lemma pipeline_with e p data c err level (R : list f64 -> list f64 -> Prop) :
  env_ok e -> 0 <= err < 256 -> 0 <= level <= 6 -> fits_counter p data ->
  (forall d f out, d <> [] -> Z.of_nat (length d) <= 131072 -> (forall x, In x d -> In x (clean_data data)) ->
     frame_of e p (call_for c err level d) = Ok f -> frame_decompress e p f = Ok out -> length out = length d -> R out d) ->
  exists bytes outs chunks,
    compress_data e p data c err level = Ok bytes /\ decompress_data e p bytes = Ok (concat outs) /\
    concat chunks = clean_data data /\ Forall (fun d => d <> [] /\ Z.of_nat (length d) <= 131072) chunks /\ Forall2 R outs chunks.
Proof.
  intros He Hr Hl Hf HR. destruct (compress_data_calls e p data c err level) as (sizes & Hs & ->).
  destruct (cut_facts _ _ Hs) as (Hc1 & Hc2 & Hc3).
  assert (Hcnt := counter_ok p data sizes Hf Hs).
  destruct (library_runs e p (map (call_for c err level) (cut (clean_data data) sizes)) He
    (proper_calls c err level _ Hr Hl Hc2) ltac:(rewrite map_length, Hc3; exact Hcnt)) as (s & outs & H1 & H2 & H3 & H4).
  rewrite H1. cbn [bind]. exists (stream_to_bytes s), outs, (cut (clean_data data) sizes). split; [reflexivity|].
  unfold decompress_data. rewrite H2. cbn [bind]. split; [exact H3|]. split; [exact Hc1|]. split; [exact Hc2|].
  assert (Hin : forall d, In d (cut (clean_data data) sizes) -> forall x, In x d -> In x (clean_data data)).
  { intros d Hd x Hx. rewrite <- Hc1. apply in_concat. eauto. }
  clear - H4 Hc2 Hin HR. remember (map (call_for c err level) (cut (clean_data data) sizes)) as calls.
  revert Heqcalls Hc2 Hin. generalize (cut (clean_data data) sizes) as ds. induction H4 as [|a o l outs (f & F1 & F2 & F3) _ IH]; intros ds E Hc2 Hin.
  - destruct ds; [constructor|discriminate].
  - destruct ds as [|d ds]; [discriminate|]. cbn [map] in E. assert (a = call_for c err level d) as -> by congruence.
    rewrite chunk_of_call in F3. inversion Hc2 as [|? ? [G1 G2] G3]; subst. constructor.
    + apply (HR d f o); auto. apply Hin. now left.
    + apply IH; [congruence|exact G3|]. intros d' Hd'. apply Hin. now right.
Qed.
Lemma forall2_concat {A B} (P : A -> B -> Prop) ls ms : Forall2 (Forall2 P) ls ms -> Forall2 P (concat ls) (concat ms).
Proof. induction 1; cbn [concat]; [constructor|]. now apply Forall2_app. Qed.

(** Command line level: every compressor choice, error and sampling level. *)
Theorem C13_pipeline_sample_count : forall e p data c err level,
  env_ok e -> 0 <= err < 256 -> 0 <= level <= 6 -> fits_counter p data ->
  exists bytes out,
    compress_data e p data c err level = Ok bytes /\
    decompress_data e p bytes = Ok out /\
    length out = length (finite_samples data).
Proof.
  intros e p data c err level He Hr Hl Hf. rewrite <- clean_is.
  destruct (pipeline_with e p data c err level (fun o d => length o = length d) He Hr Hl Hf) as (b & outs & chunks & H1 & H2 & H3 & _ & H4); [auto|].
  exists b, (concat outs). split; [exact H1|]. split; [exact H2|]. rewrite <- H3. clear - H4.
  induction H4 as [|o d l ds H _ IH]; [reflexivity|]. cbn [concat]. rewrite !app_length, H. now f_equal.
Qed.
Print Assumptions C13_pipeline_sample_count.

(** The limit is real: with overflow checks a longer series cannot be compressed at all. *)
Theorem C13_too_many_frames_refused : forall e data c err level,
  256 * 131072 <= Z.of_nat (length (finite_samples data)) ->
  refused (compress_data e Dev data c err level).
Proof.
  intros e data c err level H. rewrite <- clean_is in H. destruct (compress_data_calls e Dev data c err level) as (sizes & Hs & ->).
  destruct (cut_facts _ _ Hs) as (_ & _ & Hc3). assert (C := sizes_count _ _ Hs).
  assert (256 <= Z.of_nat (length (clean_data data)) / 131072) by (apply Z.div_le_lower_bound; lia).
  destruct (C04_overflow_panics_dev e (map (call_for c err level) (cut (clean_data data) sizes))) as [w ->]; [rewrite map_length, Hc3; lia|].
  now exists w.
Qed.
Print Assumptions C13_too_many_frames_refused.

Example C13_example : forall p,
  let data := ints [3; 1; 4; 1; 5; 9; 2; 6] in
  exists bytes out, compress_data id_env p data Auto 3 0 = Ok bytes /\ decompress_data id_env p bytes = Ok out /\ length out = 8%nat.
Proof.
  intros p data. apply (C13_pipeline_sample_count id_env p data Auto 3 0); [exact id_env_ok|lia|lia|].
  apply fits_small. change (length data) with 8%nat. lia.
Qed.

(** *** C14 *)
(** RLE through the whole command line path returns the finite samples exactly. *)
Theorem C14_rle_lossless : forall e p data err level,
  env_ok e -> 0 <= err < 256 -> 0 <= level <= 6 -> fits_counter p data ->
  Forall (fun x => finite x -> supported x) data ->
  exists bytes out cleaned,
    compress_data e p data RLE err level = Ok bytes /\
    decompress_data e p bytes = Ok out /\
    subsequence_of finite data cleaned /\ same_series out cleaned.
Proof.
  intros e p data err level He Hr Hl Hf Hs.
  destruct (pipeline_with e p data RLE err level same_series He Hr Hl Hf) as (b & outs & chunks & H1 & H2 & H3 & _ & H4).
  - intros d f out Hd Hdl Hin Hfr Ho _. assert (Hsup : Forall supported d).
    { apply Forall_forall. intros x Hx. destruct (clean_data_in data x (Hin x Hx)) as [G1 G2]. rewrite Forall_forall in Hs. now apply Hs. }
    unfold call_for in Hfr. cbn [is_bounded frame_of] in Hfr.
    destruct (C07_rle_lossless e p d Hd ltac:(unfold in_memory; lia) Hsup) as (b & o & C1 & C2 & C3).
    unfold frame_compress in Hfr. rewrite C1 in Hfr. cbn [bind] in Hfr. apply ok_inj in Hfr. subst f.
    unfold frame_decompress in Ho. cbn [fr_compressor fr_samples fr_data] in Ho. rewrite Nat2Z.id, C2 in Ho. apply ok_inj in Ho. now subst o.
  - exists b, (concat outs), (clean_data data). split; [exact H1|]. split; [exact H2|]. split; [apply C11_cleaning_keeps_finite|].
    rewrite <- H3. now apply forall2_concat.
Qed.
Print Assumptions C14_rle_lossless.

(** Noop through the whole command line path returns every finite sample rounded to the nearest
    integer (clamped to 64 bits, cf. C05). *)
Theorem C14_noop_nearest : forall e p data err level,
  env_ok e -> 0 <= err < 256 -> 0 <= level <= 6 -> fits_counter p data ->
  exists bytes out cleaned,
    compress_data e p data Noop err level = Ok bytes /\
    decompress_data e p bytes = Ok out /\
    subsequence_of finite data cleaned /\ Forall2 noop_result cleaned out.
Proof.
  intros e p data err level He Hr Hl Hf.
  destruct (pipeline_with e p data Noop err level (Forall2 (fun y x => noop_result x y)) He Hr Hl Hf) as (b & outs & chunks & H1 & H2 & H3 & _ & H4).
  - intros d f out Hd Hdl Hin Hfr Ho _.
    unfold call_for in Hfr. cbn [is_bounded frame_of] in Hfr.
    destruct (C05_noop_nearest_integers e p d Hd ltac:(unfold in_memory; lia)) as (b & o & C1 & C2 & C3).
    unfold frame_compress in Hfr. rewrite C1 in Hfr. cbn [bind] in Hfr. apply ok_inj in Hfr. subst f.
    unfold frame_decompress in Ho. cbn [fr_compressor fr_samples fr_data] in Ho. rewrite Nat2Z.id, C2 in Ho. apply ok_inj in Ho. subst o.
    clear - C3. induction C3; constructor; assumption.
  - exists b, (concat outs), (clean_data data). split; [exact H1|]. split; [exact H2|]. split; [apply C11_cleaning_keeps_finite|].
    rewrite <- H3. assert (G := forall2_concat _ _ _ H4). clear - G. induction G; constructor; assumption.
Qed.
Print Assumptions C14_noop_nearest.

(** A concrete run: NaN and infinity dropped, the rest back bit for bit. *)
Example C14_example :
  let data := [f_tenth; from_bits 9221120237041090560; int_as_f64 3; f_tenth; from_bits 9218868437227405312; int_as_f64 (-7)] in
  (do b <- compress_data id_env Dev data RLE 3 0; do o <- decompress_data id_env Dev b; Ok (map to_bits o))
  = Ok (map to_bits [f_tenth; int_as_f64 3; f_tenth; int_as_f64 (-7)]).
Proof. vm_compute. reflexivity. Qed.

(** *** C15 *)
(** No finite sample: a ten byte stream that parses back to nothing and that the file reader
    refuses as too short. *)
Theorem C15_empty_series : forall e p data c err level,
  Forall (fun x => ~ finite x) data ->
  exists bytes,
    compress_data e p data c err level = Ok bytes /\ length bytes = 10%nat /\
    decompress_data e p bytes = Ok [] /\ bro_read bytes = RIoError.
Proof.
  intros e p data c err level H.
  assert (Hc : clean_data data = []).
  { destruct (clean_data data) as [|x l] eqn:E; [reflexivity|]. exfalso.
    destruct (clean_data_in data x ltac:(rewrite E; now left)) as [H1 H2]. rewrite Forall_forall in H. now apply (H x). }
  destruct (compress_data_calls e p data c err level) as (sizes & Hs & ->). rewrite Hc in Hs. cbn in Hs. apply ok_inj in Hs. subst sizes.
  rewrite Hc. cbn [cut map add_all fold_res bind]. eexists. split; [reflexivity|].
  change (stream_to_bytes stream_new) with [66; 82; 82; 79; 1; 0; 0; 0; 0; 0]. repeat split.
Qed.
Print Assumptions C15_empty_series.

(** At least one finite sample: the file reader accepts what the compressor wrote. *)
Theorem C15_nonempty_series_readable : forall e p data c err level bytes x,
  env_ok e -> 0 <= err < 256 -> 0 <= level <= 6 -> fits_counter p data ->
  In x data -> finite x ->
  compress_data e p data c err level = Ok bytes -> bro_read bytes = RBro bytes.
Proof.
  intros e p data c err level bytes x He Hr Hl Hf Hx Fx H.
  destruct (compress_data_calls e p data c err level) as (sizes & Hs & E). rewrite E in H. clear E.
  destruct (cut_facts _ _ Hs) as (Hc1 & Hc2 & Hc3).
  destruct (library_runs e p (map (call_for c err level) (cut (clean_data data) sizes)) He
    (proper_calls c err level _ Hr Hl Hc2) ltac:(rewrite map_length, Hc3; exact (counter_ok p data sizes Hf Hs))) as (s & outs & H1 & H2 & H3 & H4).
  rewrite H1 in H. cbn [bind] in H. apply ok_inj in H. subst bytes.
  assert (Hfr := C04_frame_counter e p _ s H1). destruct Hfr as (HF & _).
  assert (Hne : s_frames s <> []).
  { intros E. assert (L := forall2_length _ _ _ HF). rewrite E, map_length in L. cbn [length] in L.
    assert (G : cut (clean_data data) sizes = []) by (destruct (cut (clean_data data) sizes); [reflexivity|discriminate]).
    rewrite G in Hc1. cbn in Hc1. assert (Hi : In x (clean_data data)).
    { apply filter_In. split; [exact Hx|]. unfold finite in Fx. destruct x; try discriminate; reflexivity. }
    rewrite <- Hc1 in Hi. destruct Hi. }
  destruct (s_frames s) as [|f fs] eqn:Es; [congruence|].
  unfold bro_read, stream_to_bytes. 
  assert (L : (12 <= length (header_bytes (s_header s) ++ enc_vec enc_frame (s_frames s)))%nat).
  { rewrite app_length, header_bytes_length, Es. unfold enc_vec. cbn [flat_map]. rewrite !app_length. unfold enc_frame at 1. rewrite !app_length.
    assert (V1 := varint_len (Z.of_nat (length (f :: fs)))). assert (V2 := varint_len (fr_size f)). assert (V3 := varint_len (fr_samples f)).
    unfold zlen, enc_u64, enc_usize in *. lia. }
  destruct (length (header_bytes (s_header s) ++ enc_vec enc_frame (s_frames s)) <? 12)%nat eqn:E12; [apply Nat.ltb_lt in E12; lia|].
  change (firstn 4 (header_bytes (s_header s) ++ enc_vec enc_frame (s_frames s))) with BRRO.
  destruct (list_eq_dec Z.eq_dec BRRO BRRO); [reflexivity|congruence].
Qed.
Print Assumptions C15_nonempty_series_readable.
Example C15_example : exists bytes,
  compress_data id_env Dev [from_bits 9221120237041090560] RLE 3 0 = Ok bytes /\ length bytes = 10%nat /\
  decompress_data id_env Dev bytes = Ok [] /\ bro_read bytes = RIoError.
Proof. apply C15_empty_series. apply Forall_cons; [|constructor]. intros H. vm_compute in H. discriminate. Qed.

(** *** C46 *)
(** Compressed size: whatever the data, the bytes of a run are at most 26 per sample and 430 per
    chunk (plus the header); chunks hold at most 131072 samples. *)
Theorem C46_size_bounded : forall e p data c err level bytes,
  env_ok e -> 0 <= err < 256 -> 0 <= level <= 6 -> fits_counter p data ->
  compress_data e p data c err level = Ok bytes ->
  exists chunks, get_chunks_sizes (length (finite_samples data)) = Ok chunks /\
    Z.of_nat (length bytes) <= 18 + 26 * Z.of_nat (length (finite_samples data)) + 428 * Z.of_nat (length chunks).
Proof.
  intros e p data c err level bytes He Hr Hl Hf H. rewrite <- clean_is.
  destruct (compress_data_calls e p data c err level) as (sizes & Hs & E). rewrite E in H. clear E. exists sizes. split; [exact Hs|].
  destruct (cut_facts _ _ Hs) as (Hc1 & Hc2 & Hc3). assert (Hp := proper_calls c err level _ Hr Hl Hc2).
  destruct (add_all e p (map (call_for c err level) (cut (clean_data data) sizes))) as [s|] eqn:Es; [|discriminate].
  cbn [bind] in H. apply ok_inj in H. subst bytes. destruct (C04_frame_counter e p _ s Es) as (HF & _).
  unfold stream_to_bytes. rewrite app_length, header_bytes_length. unfold enc_vec. rewrite app_length.
  assert (V := varint_len (Z.of_nat (length (s_frames s)))). unfold zlen, enc_u64 in *.
  enough (G : zlen (flat_map enc_frame (s_frames s)) <= 26 * zlen (concat (cut (clean_data data) sizes)) + 428 * zlen (cut (clean_data data) sizes)).
  { rewrite Hc1 in G. unfold zlen in G. rewrite Hc3 in G. lia. }
  clear - HF Hp He. remember (map (call_for c err level) (cut (clean_data data) sizes)) as calls eqn:E. revert E Hp.
  generalize (cut (clean_data data) sizes) as ds. induction HF as [|a f l fs Hf _ IH]; intros ds E Hp.
  - destruct ds; [cbn; unfold zlen; cbn; lia|discriminate].
  - destruct ds as [|d ds]; [discriminate|]. cbn [map] in E. assert (a = call_for c err level d) as -> by congruence.
    inversion Hp as [|? ? P1 P2]; subst. specialize (IH ds ltac:(congruence) P2).
    destruct (frame_of_ok e p _ He P1) as (f' & F1 & _ & F2 & _). rewrite Hf in F1. apply ok_inj in F1. subst f'. rewrite chunk_of_call in F2.
    cbn [flat_map concat]. rewrite !zlen_app. change (zlen (d :: ds)) with (Z.of_nat (S (length ds))). unfold enc_frame at 1. rewrite !zlen_app.
    unfold enc_bytes. rewrite zlen_app.
    assert (V1 := varint_len (fr_size f)). assert (V2 := varint_len (fr_samples f)). assert (V3 := varint_len (Z.of_nat (length (fr_data f)))).
    assert (V4 : zlen (enc_compressor (fr_compressor f)) = 1) by (destruct (fr_compressor f); reflexivity).
    unfold enc_usize, enc_u64 in *. unfold zlen in *. lia.
Qed.
Print Assumptions C46_size_bounded.
(** The same with the number of chunks eliminated: only the number of finite samples matters. *)
Theorem C46_size_bounded_in_samples : forall e p data c err level bytes n,
  env_ok e -> 0 <= err < 256 -> 0 <= level <= 6 -> fits_counter p data ->
  compress_data e p data c err level = Ok bytes -> n = Z.of_nat (length (finite_samples data)) ->
  Z.of_nat (length bytes) <= 18 + 26 * n + 428 * (n / 131072 + 9).
Proof.
  intros e p data c err level bytes n He Hr Hl Hf H ->.
  destruct (C46_size_bounded e p data c err level bytes He Hr Hl Hf H) as (chunks & Hc & B).
  assert (C := sizes_count _ _ Hc). lia.
Qed.
Print Assumptions C46_size_bounded_in_samples.
(** An adversarial series really costs more than its eight bytes per sample. *)
Example C46_example :
  (do b <- compress_data id_env Dev (ints [1000000; 2000000; 3000000; 4000000]) RLE 0 0; Ok (length b)) = Ok 45%nat.
Proof. vm_compute. reflexivity. Qed.
