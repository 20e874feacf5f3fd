(** C78: the size of run-length frames, and of automatic files, in the number of changes. *)
From Coq Require Import List ZArith Bool Lia Reals Lra ZifyBool Permutation.
From Flocq Require Import Core IEEE754.BinarySingleNaN IEEE754.Binary IEEE754.Bits.
From Verif Require Import Base Model_Float Model_Bincode BincodeFacts Spec FloatFacts ArithFacts RoundFacts Model_Utils Model_Stats
  Model_Compressors Model_Polynomial Model_Fft Model_Stream StatsFacts CompressorFacts PolyFacts PolyLoopFacts MetricFacts
  PolyApiFacts PlanFacts UtilsFacts PipelineFacts Props_Metric Props_Lossless Props_Plan Props_Stream Model_Cli Props_Poly Props_Fft Props_Auto Props_Pipeline Props_Accuracy Props_Monotone
  Spec_Lines Props_Lines Spec_Runs.
Import ListNotations.
Open Scope Z_scope.

(** *** Changes and runs *)
Lemma changes_total data : exists k, changes data k /\ 0 <= k.
Proof.
  induction data as [|x [|y l] IH]; [exists 0; split; [constructor|lia]|exists 0; split; [constructor|lia]|]. destruct IH as (k & H & K).
  destruct (Req_dec (R64 x) (R64 y)); [exists k|exists (k + 1)]; (split; [now constructor|lia]).
Qed.
Lemma changes_fun data k : changes data k -> forall k', changes data k' -> k = k'.
Proof.
  induction 1 as [|x|x y l k E H IH|x y l k E H IH]; intros k' H'; inversion H'; subst; try reflexivity; try contradiction; [now apply IH|]. f_equal. now apply IH.
Qed.
Lemma changes_nonneg data k : changes data k -> 0 <= k.
Proof. induction 1; lia. Qed.

Lemma runs_changes data k : Forall finite data -> data <> [] -> changes data k -> forall i cur, Z.of_nat (length (runs data i cur)) = k + 1.
Proof.
  intros F Hne H. induction H as [|x|x y l k E H IH|x y l k E H IH]; intros i cur; [congruence|reflexivity| |].
  - inversion F as [|? ? Fx F']; subst. inversion F' as [|? ? Fy _]; subst. cbn [runs]. assert (Eq : fne y x = false) by (unfold fne; rewrite (proj2 (feq_R y x Fy Fx)); [reflexivity|now symmetry]).
    rewrite Eq. apply IH; [exact F'|discriminate].
  - inversion F as [|? ? Fx F']; subst. inversion F' as [|? ? Fy _]; subst. assert (Eq : fne y x = true).
    { unfold fne. destruct (feq y x) eqn:Ef; [|reflexivity]. apply (feq_R y x Fy Fx) in Ef. congruence. }
    specialize (IH F' ltac:(discriminate)). replace (runs (x :: y :: l) i cur) with ((cur, x) :: runs (y :: l) (i + 1) (i + 1)) by (cbn [runs]; rewrite Eq; reflexivity).
    cbn [length]. rewrite Nat2Z.inj_succ, IH. lia.
Qed.

(** Changes of consecutive pieces. *)
Lemma changes_app a b k : changes (a ++ b) k -> exists ka kb, changes a ka /\ changes b kb /\ ka + kb <= k.
Proof.
  revert k. induction a as [|x [|y a] IH]; intros k H.
  - exists 0, k. split; [constructor|]. split; [exact H|lia].
  - cbn [app] in H. destruct b as [|z b]; [exists 0, 0; assert (N := changes_nonneg _ _ H); split; [constructor|]; split; [constructor|lia]|].
    inversion H as [| |? ? ? ? E H'|? ? ? ? E H']; subst; (exists 0; eexists; split; [constructor|]; split; [exact H'|lia]).
  - cbn [app] in H. inversion H as [| |? ? ? ? E H'|? ? ? ? E H']; subst; destruct (IH _ H') as (ka & kb & A & B & L).
    + exists ka, kb. split; [now constructor|]. split; [exact B|lia].
    + exists (ka + 1), kb. split; [now constructor|]. split; [exact B|lia].
Qed.

(** *** Size of a run-length payload *)
Lemma rle_size b data k : data <> [] -> Forall finite data -> Z.of_nat (length data) < 2 ^ 32 -> changes data k ->
  Z.of_nat (length (enc_rle b (rle_new data))) <= 7 + 18 * (k + 1).
Proof.
  intros Hne F Hn Hk. assert (R := runs_changes data k F Hne Hk 0 0). assert (HP := flat_decoded b data). assert (HPl := Permutation_length HP). rewrite map_length in HPl.
  assert (Hrl := runs_length data 0 0). assert (Ha := runs_lt data 0 0 ltac:(lia)).
  rewrite <- enc_rle_conv. set (m := map (fun '(v, idx) => (conv b v, idx)) (rle_new data)) in *.
  assert (Hin : forall v idx j, In (v, idx) m -> In j idx -> j < 2 ^ 32).
  { intros v idx j H1 H2. assert (Hf := flat_in _ v idx j H1 H2). apply (Permutation_in _ HP) in Hf. apply in_map_iff in Hf. destruct Hf as ([j0 v0] & Heq & Hr).
    assert (j0 = j) by congruence. subst j0. rewrite Forall_forall in Ha. specialize (Ha _ Hr). cbn [fst] in Ha. lia. }
  assert (Hne2 : Forall (fun e : f64 * list Z => snd e <> []) m).
  { unfold m, rle_new. rewrite map_map. apply Forall_map. pose proof (rle_scan_nonempty data 0 0 [] ltac:(constructor)) as H. eapply Forall_impl; [|exact H]. intros [q l]. exact (fun x => x). }
  assert (Hg := flat_length_ge _ Hne2). assert (Hidx : forall e, In e m -> Z.of_nat (length (snd e)) < 2 ^ 32) by (intros e He; assert (Q := flat_entry_le _ _ He); lia).
  unfold enc_rle, enc_vec. rewrite !app_length. assert (length (enc_bitdepth b) = 1%nat) by (destruct b; reflexivity). cbn [enc_u8 length].
  assert (V : (length (enc_u64 (Z.of_nat (length m))) <= 5)%nat) by (apply varint_32; lia).
  assert (G : Z.of_nat (length (flat_map (enc_rle_entry b) m)) <= 13 * Z.of_nat (length m) + 5 * Z.of_nat (length (flat m))).
  { clear - Hin Hidx. induction m as [|[v idx] m IH]; [cbn; lia|]. specialize (IH ltac:(intros; eapply Hin; [right|]; eassumption) ltac:(intros; apply Hidx; now right)).
    cbn [flat_map flat length]. rewrite !app_length, map_length. unfold enc_rle_entry at 1. cbn [fst snd]. unfold enc_vec. rewrite !app_length.
    assert (S1 := sample_max b v). assert (V : (length (enc_u64 (Z.of_nat (length idx))) <= 5)%nat) by (apply varint_32; exact (Hidx (v, idx) (or_introl eq_refl))).
    assert (W : (length (flat_map enc_usize idx) <= 5 * length idx)%nat).
    { assert (Hj : forall j, In j idx -> j < 2 ^ 32) by (intros j Hj; eapply Hin; [now left|exact Hj]). clear - Hj. induction idx as [|j idx IH]; [cbn; lia|]. cbn [flat_map length]. rewrite app_length.
      assert (V := varint_32 j (Hj j (or_introl eq_refl))). specialize (IH ltac:(intros; apply Hj; now right)). unfold enc_usize at 1. lia. }
    unfold flat in IH. lia. }
  lia.
Qed.

(** *** C78 *)
(** A run-length frame takes at most 18 bytes per run and 7 more, however long the runs are. *)
Theorem C78_payload : forall e data bytes k,
  data <> [] -> Forall finite data -> Z.of_nat (length data) < 2 ^ 32 -> changes data k ->
  compress e RLE data = Ok bytes -> Z.of_nat (length bytes) <= 18 * k + 25.
Proof.
  intros e data bytes k Hne F Hn Hk H. unfold compress in H. destruct (data_stats data) as [st|]; [|discriminate H]. cbn [bind] in H. apply ok_inj in H. subst bytes.
  unfold rle_compressor. cbn [cr_data]. assert (S1 := rle_size (st_bitdepth st) data k Hne F Hn Hk). lia.
Qed.
Print Assumptions C78_payload.

Lemma file_size_changes e p data c err level bytes k :
  (forall d f kd, d <> [] -> Z.of_nat (length d) <= 131072 -> Forall finite d -> changes d kd -> frame_of e p (call_for c err level d) = Ok f ->
     Z.of_nat (length (fr_data f)) <= 18 * kd + 25) ->
  changes (finite_samples data) k -> compress_data e p data c err level = Ok bytes -> Z.of_nat (length bytes) <= 18 * k + Z.of_nat (length data) / 2048 + 600.
Proof.
  intros HF Hk C. destruct (compress_data_calls e p data c err level) as (sizes & Hs & E). rewrite E in C. clear E. rewrite <- clean_is in Hk.
  destruct (add_all e p (map (call_for c err level) _)) as [s|] eqn:A; [|discriminate C]. cbn [bind] in C. apply ok_inj in C. subst bytes. apply C04_frame_counter in A. destruct A as (A & _ & _).
  destruct (cut_facts (clean_data data) sizes Hs) as (Hc & Hall & Hlen). assert (Hcnt := sizes_count _ _ Hs). assert (Fin := clean_data_finite data).
  rewrite <- Hc in Hk. assert (Fin2 : Forall finite (concat (cut (clean_data data) sizes))) by (rewrite Hc; exact Fin).
  assert (G : Z.of_nat (length (flat_map enc_frame (s_frames s))) <= 18 * k + 53 * Z.of_nat (length (cut (clean_data data) sizes)) /\ length (s_frames s) = length (cut (clean_data data) sizes)).
  { clear Hc Hlen Hcnt Hs Fin. revert A Hall k Hk Fin2. generalize (s_frames s). induction (cut (clean_data data) sizes) as [|d l IH]; cbn [map]; intros fs A Hall k Hk Fin2.
    - inversion A. assert (N := changes_nonneg _ _ Hk). cbn [flat_map length]. split; [lia|reflexivity].
    - inversion A as [|? f ? fs' Hf Hfs]; subst. inversion Hall as [|? ? [D1 D2] D3]; subst. cbn [concat] in Hk, Fin2. destruct (changes_app _ _ _ Hk) as (ka & kb & Ka & Kb & L). apply Forall_app in Fin2. destruct Fin2 as [Fd Fl].
      destruct (IH fs' Hfs D3 kb Kb Fl) as [I1 I2]. assert (F := HF d f ka D1 D2 Fd Ka Hf). split; [|cbn [length]; now rewrite I2].
      cbn [flat_map length]. rewrite !app_length. unfold enc_frame at 1. unfold enc_bytes. rewrite !app_length, tag_length. unfold enc_usize, enc_u64.
      assert (V1 := varint_max (fr_size f)). assert (V2 := varint_max (fr_samples f)). assert (V3 := varint_max (Z.of_nat (length (fr_data f)))). lia. }
  destruct G as [G1 G2]. unfold stream_to_bytes, header_bytes, enc_vec, enc_usize, enc_u64, BRRO. rewrite !app_length, le_bytes_length. assert (V := varint_max (Z.of_nat (length (s_frames s)))).
  assert (L := clean_data_length data). cbn [length].
  set (m := Z.of_nat (length (clean_data data))) in *. set (n := Z.of_nat (length data)) in *. assert (Hm : 0 <= m <= n) by (unfold m, n; lia).
  assert (Q : 53 * (m / 131072) <= n / 2048) by (apply Z.div_le_lower_bound; [lia|]; assert (Z2 := Z.mul_div_le m 131072 ltac:(lia)); assert (Z3 := Z.div_pos m 131072 ltac:(lia) ltac:(lia)); lia).
  rewrite Hlen in G1. lia.
Qed.

(** The command line tool: run-length compression, and automatic selection at the default sampling level, take at most 18 bytes per
    change, and beyond that only some bytes per 131072 samples. *)
Theorem C78_file : forall e p data c err bytes k,
  env_ok e -> c = RLE \/ c = Auto -> 0 <= err <= 50 -> changes (finite_samples data) k ->
  compress_data e p data c err 0 = Ok bytes -> Z.of_nat (length bytes) <= 18 * k + Z.of_nat (length data) / 2048 + 600.
Proof.
  intros e p data c err bytes k He Hc Herr. assert (Nb := cli_error_nonneg err ltac:(lia)). apply file_size_changes. intros d f kd D1 D2 Fin Hk Hf. assert (Nk := changes_nonneg _ _ Hk).
  destruct Hc as [->| ->]; unfold call_for in Hf; cbn [is_bounded frame_of] in Hf.
  - unfold frame_compress in Hf. destruct (compress e RLE d) as [b|] eqn:Eb; [|discriminate Hf]. cbn [bind] in Hf. apply ok_inj in Hf. subst f. cbn [fr_data]. apply (C78_payload e d b kd D1 Fin ltac:(lia) Hk Eb).
  - destruct (C20_automatic_selection e p d (cli_error err) 0 He D1 ltac:(lia) Fin ltac:(lia) Nb) as (f' & r & Hb & _ & Hr & Hdat & Hcon & Hother). rewrite Hb in Hf. apply ok_inj in Hf. subst f'. rewrite Hdat.
    assert (AE : all_equal d \/ ~ all_equal d) by apply Classical_Prop.classic. destruct AE as [AE|AE].
    + rewrite Hcon in Hr by exact AE. unfold compress_results in Hr. destruct (data_stats d) as [st|]; [|discriminate Hr]. cbn [bind] in Hr. apply ok_inj in Hr. subst r.
      cbn [constant_compressor cr_data]. unfold enc_constant. rewrite !app_length. assert (V := sample_max (st_bitdepth st) (st_min st)). assert (length (enc_bitdepth (st_bitdepth st)) = 1%nat) by (destruct (st_bitdepth st); reflexivity).
      cbn [enc_u8 length]. lia.
    + destruct (C20_unsampled_choice e p d (cli_error err) 0 He D1 ltac:(lia) Fin AE ltac:(lia) ltac:(cbn [level_sample]; lia) Nb) as (f' & r' & Hb' & _ & _ & _ & _ & Best). rewrite Hb in Hb'. apply ok_inj in Hb'. subst f'.
      destruct (data_stats_total d D1) as [st Hst]. assert (B := Best RLE (rle_compressor d st) ltac:(cbn; tauto) ltac:(unfold compress_results; rewrite Hst; reflexivity) Nb).
      unfold rle_compressor in B. cbn [cr_data] in B. assert (S1 := rle_size (st_bitdepth st) d kd D1 Fin ltac:(lia) Hk). rewrite Hdat in B. lia.
Qed.
Print Assumptions C78_file.

Lemma changes_repeat x l n k : changes (x :: l) k -> changes (repeat x n ++ x :: l) k.
Proof. intros H. induction n as [|[|n] IH]; [exact H| |]; cbn [repeat app] in *; now constructor. Qed.
(** 183 samples, two changes: 28 bytes for run lengths and for automatic selection. *)
Definition plateau (n : nat) : list f64 := repeat (int_as_f64 7) n ++ int_as_f64 7 :: repeat (int_as_f64 12345) n ++ int_as_f64 12345 :: repeat (int_as_f64 (-3)) n ++ [int_as_f64 (-3)].
Lemma plateau_changes n : changes (plateau n) 2.
Proof.
  destruct (int_as_f64_exact 7 ltac:(lia)) as [E1 _]. destruct (int_as_f64_exact 12345 ltac:(lia)) as [E2 _]. destruct (int_as_f64_exact (-3) ltac:(lia)) as [E3 _].
  assert (H3 : changes (repeat (int_as_f64 (-3)) n ++ [int_as_f64 (-3)]) 0) by (apply changes_repeat; constructor).
  unfold plateau. remember (int_as_f64 7) as a. remember (int_as_f64 12345) as b. remember (int_as_f64 (-3)) as c. clear Heqa Heqb Heqc.
  apply changes_repeat. 
  assert (H2 : changes (repeat b n ++ b :: repeat c n ++ [c]) (0 + 1)).
  { apply changes_repeat. destruct n as [|n]; cbn [repeat app] in *; (apply changes_step; [rewrite E2, E3; intros H; apply eq_IZR in H; lia|exact H3]). }
  change 2 with (0 + 1 + 1). destruct n as [|n]; cbn [repeat app] in *; (apply changes_step; [rewrite E1, E2; intros H; apply eq_IZR in H; lia|exact H2]).
Qed.
Example C78_example : env_ok id_env /\ changes (plateau 60) 2 /\ changes (finite_samples (plateau 60)) 2 /\
  (do b <- compress_data id_env Dev (plateau 60) RLE 3 0; Ok (length b)) = Ok 28%nat /\ (do b <- compress_data id_env Dev (plateau 60) Auto 3 0; Ok (length b)) = Ok 28%nat.
Proof.
  split; [exact id_env_ok|]. split; [apply plateau_changes|]. split; [rewrite <- clean_is, clean_data_id; [apply plateau_changes|]|split; vm_compute; reflexivity].
  unfold plateau. assert (A := proj2 (int_as_f64_exact 7 ltac:(lia))). assert (B := proj2 (int_as_f64_exact 12345 ltac:(lia))). assert (C := proj2 (int_as_f64_exact (-3) ltac:(lia))).
  apply Forall_app. split; [apply Forall_forall; intros x H; now apply repeat_spec in H as ->|]. constructor; [exact A|].
  apply Forall_app. split; [apply Forall_forall; intros x H; now apply repeat_spec in H as ->|]. constructor; [exact B|].
  apply Forall_app. split; [apply Forall_forall; intros x H; now apply repeat_spec in H as ->|]. constructor; [exact C|constructor].
Qed.
