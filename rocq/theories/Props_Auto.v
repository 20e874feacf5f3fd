(** C20, C21, C47: automatic selection of the compressor. *)
From Coq Require Import List ZArith Bool Lia ZifyBool Reals Lra.
From Flocq Require Import Core IEEE754.BinarySingleNaN IEEE754.Binary IEEE754.Bits.
From Verif Require Import Base Model_Float Model_Bincode BincodeFacts Spec FloatFacts Float32Facts ArithFacts RoundFacts Model_Utils UtilsFacts Model_Stats
  Model_Compressors Model_Polynomial Model_Fft Model_Stream StatsFacts CompressorFacts StreamFacts PlanFacts PolyFacts PolyLoopFacts PolyApiFacts FftFacts
  MetricFacts ExactFacts PipelineFacts Props_Stream Props_Lossless Props_Plan Props_Poly Props_Fft Props_Pipeline.
Import ListNotations.
Open Scope Z_scope.

(** *** C20 *)
(** All samples have the same numerical value. *)
Definition all_equal (data : list f64) : Prop := forall x y, In x data -> In y data -> R64 x = R64 y.

Lemma all_equal_iff data st : data <> [] -> Forall finite data -> data_stats data = Ok st ->
  (feq (st_min st) (st_max st) = true <-> all_equal data).
Proof.
  intros Hne Hf Hst. destruct (stats_facts data Hne Hf) as (st' & Hst' & Fn & Fx & Hle & [i Hmn] & [j Hmx]).
  rewrite Hst in Hst'. apply ok_inj in Hst'. subst st'.
  rewrite feq_R by assumption. split.
  - intros E x y Hx Hy. destruct Hmn as (_ & Hmn & _), Hmx as (_ & Hmx & _). rewrite Forall_forall in Hmn, Hmx.
    pose proof (Hmn x Hx). pose proof (Hmn y Hy). pose proof (Hmx x Hx). pose proof (Hmx y Hy). lra.
  - intros H. apply H; [eapply min_at_in; eauto|eapply max_at_in; eauto].
Qed.

(** What the sampling level promises: number of samples the candidates are tried on. *)
Definition tried_on (level : Z) (data : list f64) : list f64 :=
  if level_sample level <=? Z.of_nat (length data) then firstn (Z.to_nat (level_sample level)) data else data.

(** Automatic selection never panics (non-empty finite data, bound >= 0, level 0 to 6). A series of equal
    samples becomes a constant frame. Any other becomes the frame of one of three candidates, compressed with the
    bound; on the samples it was tried on, the chosen candidate reported an error within the bound and no candidate
    within the bound had a smaller payload; ties go to FFT, then Polynomial, then RLE. *)
Theorem C20_automatic_selection : forall e p data bound level,
  env_ok e -> data <> [] -> Z.of_nat (length data) <= 2 ^ 53 -> Forall finite data ->
  0 <= level <= 6 -> fle f0 (f32_as_f64 bound) = true ->
  exists f r, compress_best e p data bound level = Ok f /\
    fr_samples f = Z.of_nat (length data) /\
    compress_results e p (fr_compressor f) data (f32_as_f64 bound) = Ok r /\ fr_data f = cr_data r /\
    (all_equal data -> fr_compressor f = Constant) /\
    (~ all_equal data -> exists rt,
       In (fr_compressor f) [FFT; Polynomial; RLE] /\
       compress_results e p (fr_compressor f) (tried_on level data) (f32_as_f64 bound) = Ok rt /\
       fle (cr_error rt) (f32_as_f64 bound) = true /\
       (forall c' r', In c' [FFT; Polynomial; RLE] ->
          compress_results e p c' (tried_on level data) (f32_as_f64 bound) = Ok r' ->
          fle (cr_error r') (f32_as_f64 bound) = true ->
          (length (cr_data rt) <= length (cr_data r'))%nat /\
          (rank c' < rank (fr_compressor f) -> (length (cr_data rt) < length (cr_data r'))%nat))).
Proof.
  intros e p data bound level He Hne Hs Hf Hl Hb. destruct (data_stats_total data Hne) as [st Hst].
  assert (HE := all_equal_iff data st Hne Hf Hst).
  destruct (compress_best_cases e p data bound level st He Hne Hs Hl Hst Hb) as (c & r & H1 & H2 & Hc).
  eexists _, r. split; [exact H1|]. cbn [fr_samples fr_compressor fr_data]. split; [reflexivity|]. split; [exact H2|]. split; [reflexivity|].
  split.
  - intros Ha. apply HE in Ha. destruct Hc as [(_ & Hc)|[(Hn & _)|(Hn & _)]]; [exact Hc|congruence|congruence].
  - intros Hn. unfold tried_on. destruct Hc as [(E & _)|[(_ & Hlt & Hw)|(_ & Hge & rp & Hw)]]; [exfalso; now apply Hn, HE| |].
    + destruct (level_sample level <=? Z.of_nat (length data)) eqn:E; [lia|]. exists r. destruct Hw as (W1 & W2 & W3 & W4). auto.
    + destruct (level_sample level <=? Z.of_nat (length data)) eqn:E; [|lia]. exists rp. destruct Hw as (W1 & W2 & W3 & W4). auto.
Qed.
Print Assumptions C20_automatic_selection.

(** Without sampling (level 0, fewer than 2147483647 samples, or fewer samples than the level looks at) the
    frame's own reported error is within the bound and its own payload is the smallest. *)
Theorem C20_unsampled_choice : forall e p data bound level,
  env_ok e -> data <> [] -> Z.of_nat (length data) <= 2 ^ 53 -> Forall finite data -> ~ all_equal data ->
  0 <= level <= 6 -> Z.of_nat (length data) < level_sample level -> fle f0 (f32_as_f64 bound) = true ->
  exists f r, compress_best e p data bound level = Ok f /\
    In (fr_compressor f) [FFT; Polynomial; RLE] /\
    compress_results e p (fr_compressor f) data (f32_as_f64 bound) = Ok r /\ fr_data f = cr_data r /\
    fle (cr_error r) (f32_as_f64 bound) = true /\
    forall c' r', In c' [FFT; Polynomial; RLE] -> compress_results e p c' data (f32_as_f64 bound) = Ok r' ->
      fle (cr_error r') (f32_as_f64 bound) = true -> (length (fr_data f) <= length (cr_data r'))%nat.
Proof.
  intros e p data bound level He Hne Hs Hf Ha Hl Hlt Hb.
  destruct (C20_automatic_selection e p data bound level He Hne Hs Hf Hl Hb) as (f & r & H1 & _ & H2 & H3 & _ & H4).
  destruct (H4 Ha) as (rt & G1 & G2 & G3 & G4). unfold tried_on in *.
  destruct (level_sample level <=? Z.of_nat (length data)) eqn:E; [lia|].
  rewrite H2 in G2. apply ok_inj in G2. subst rt. exists f, r. rewrite H3.
  split; [exact H1|]. split; [exact G1|]. split; [exact H2|]. split; [reflexivity|]. split; [exact G3|].
  intros c2 r2 C1 C2 C3. exact (proj1 (G4 c2 r2 C1 C2 C3)).
Qed.
Print Assumptions C20_unsampled_choice.

(** A constant series chosen automatically comes back exactly. *)
Theorem C20_constant_series_exact : forall e p data bound level,
  env_ok e -> data <> [] -> Z.of_nat (length data) <= 2 ^ 53 -> Forall supported data -> all_equal data ->
  0 <= level <= 6 -> fle f0 (f32_as_f64 bound) = true ->
  exists f out, compress_best e p data bound level = Ok f /\ frame_decompress e p f = Ok out /\ same_series out data.
Proof.
  intros e p data bound level He Hne Hs Hsup Ha Hl Hb.
  destruct (C20_automatic_selection e p data bound level He Hne Hs (supported_forall_finite _ Hsup) Hl Hb) as (f & r & H1 & H0 & H2 & H3 & H4 & _).
  specialize (H4 Ha). destruct data as [|x l] eqn:Ed; [congruence|]. rewrite <- Ed in *.
  assert (Hx : In x data) by (rewrite Ed; now left).
  assert (Sx : supported x) by (rewrite Forall_forall in Hsup; now apply Hsup).
  destruct (C06_constant_lossless e p data x Hne Sx) as (b & o & C1 & C2 & C3).
  { apply Forall_forall. intros y Hy. rewrite Forall_forall in Hsup. split; [apply Hsup; exact Hy|]. split; [apply Sx|]. now apply Ha. }
  exists f, o. split; [exact H1|]. split; [|exact C3]. unfold frame_decompress. rewrite H4, H0, H3, Nat2Z.id.
  rewrite H4 in H2. unfold compress_results in H2. unfold compress in C1. destruct (data_stats data) as [st|]; [|discriminate]. cbn [bind] in *.
  apply ok_inj in H2. apply ok_inj in C1. subst r b. exact C2.
Qed.
Print Assumptions C20_constant_series_exact.

(** The reported error is not always the error: 1e39 and 1e300 are reported as compressed without error
    by the Fourier candidate (C44) and by the run-length candidate, whose payload is smaller and which
    therefore wins, even when the bound is 0; both samples come back as 255. *)
Theorem C20_reported_error_wrong_refuted : forall e p,
  Forall finite huge_data /\
  (do f <- compress_best e p huge_data (cli_error 0) 0; do o <- frame_decompress e p f;
   Ok (fr_compressor f, map to_bits o)) = Ok (RLE, map to_bits (ints [255; 255])).
Proof.
  intros e p. split; [apply Forall_cons; [vm_compute; reflexivity|apply Forall_cons; [vm_compute; reflexivity|apply Forall_nil]]|].
  destruct p; vm_compute; reflexivity.
Qed.
Print Assumptions C20_reported_error_wrong_refuted.

Example C20_example : let data := ints [3; 1; 4; 1; 5; 9; 2; 6] in
  env_ok id_env /\ data <> [] /\ Z.of_nat (length data) <= 2 ^ 53 /\ Forall finite data /\ ~ all_equal data /\
  Z.of_nat (length data) < level_sample 0 /\ fle f0 (f32_as_f64 (cli_error 3)) = true /\
  (do f <- compress_best id_env Dev data (cli_error 3) 0; Ok (fr_compressor f, length (fr_data f))) = Ok (RLE, 25%nat).
Proof.
  intros data. split; [exact id_env_ok|]. split; [discriminate|]. split; [cbn; lia|].
  split; [apply supported_forall_finite, supported_ints; repeat (apply Forall_cons; [lia|]); apply Forall_nil|].
  split.
  { intros H. specialize (H (int_as_f64 3) (int_as_f64 1) ltac:(now left) ltac:(right; now left)).
    destruct (int_as_f64_exact 3 ltac:(lia)) as [E3 _]. destruct (int_as_f64_exact 1 ltac:(lia)) as [E1 _]. rewrite E3, E1 in H. apply eq_IZR in H. lia. }
  split; [cbn; lia|]. split; [vm_compute; reflexivity|]. vm_compute. reflexivity.
Qed.

(** Values an inverse transform sample can be rounded to: NaN, the stored minimum or maximum, or a number with
    five decimals not below the minimum. *)
Lemma fft_round_values c x : fin32 (ff_max c) = true -> fin32 (ff_min c) = true ->
  fis_nan (fft_round c x) = true \/ fft_round c x = f32_as_f64 (ff_max c) \/ fft_round c x = f32_as_f64 (ff_min c) \/
  (finite (fft_round c x) /\ (R32 (ff_min c) <= R64 (fft_round c x))%R /\
   exists k, R64 (fft_round c x) = rnd64 (IZR k / 100000)).
Proof.
  intros Hx Hn. destruct (f32_as_f64_R _ Hx) as [Fx Rx]. destruct (f32_as_f64_R _ Hn) as [Fn Rn].
  unfold fft_round. cbv zeta. set (out := fdiv _ _).
  destruct (fgt out (f32_as_f64 (ff_max c))) eqn:Eg; [now right; left|].
  destruct (flt out (f32_as_f64 (ff_min c))) eqn:El; [now right; right; left|].
  destruct (fis_nan out) eqn:En; [now left|]. right; right; right.
  assert (Fout : finite out).
  { destruct out as [s|s|s pl H|s m e H]; try discriminate; try reflexivity. exfalso. destruct s.
    - destruct (f32_as_f64 (ff_min c)) as [s'|s'|s' pl' H'|s' m' e' H']; try discriminate.
    - destruct (f32_as_f64 (ff_max c)) as [s'|s'|s' pl' H'|s' m' e' H']; try discriminate. }
  split; [exact Fout|]. split.
  { rewrite <- Rn. apply fle_R; auto. apply flt_false_le; auto; now apply fis_finite_not_nan. }
  destruct (fin32 x) eqn:F32.
  - destruct (f32_as_f64_R x F32) as [F1 R1].
    assert (B : bnd 128 (f32_as_f64 x)).
    { split; [exact F1|]. rewrite R1. unfold R32. apply Rlt_le, (Binary.abs_B2R_lt_emax 24 128). }
    destruct (round_f64_R 128 (f32_as_f64 x) 5 ltac:(lia) ltac:(lia) B) as (_ & R2 & _).
    change out with (round_f64 (f32_as_f64 x) 5). rewrite R2. unfold rd. change (10 ^ 5) with 100000. eexists; reflexivity.
  - exfalso. unfold out in Fout. destruct x as [s|s|s pl H|s m e H]; try discriminate.
Qed.

(** Every sample of a decompressed Fourier frame is such a value. *)
Lemma fft_out_values e p data bound r st out : env_ok e -> data <> [] -> in_memory data -> Forall finite data ->
  data_stats data = Ok st -> compress_results e p FFT data bound = Ok r ->
  fin32 (f64_as_f32 (st_max st)) = true -> fin32 (f64_as_f32 (st_min st)) = true ->
  decompress e p FFT (length data) (cr_data r) = Ok out ->
  Forall (fun y => fis_nan y = true \/ y = f32_as_f64 (f64_as_f32 (st_max st)) \/ y = f32_as_f64 (f64_as_f32 (st_min st)) \/
    (finite y /\ (R32 (f64_as_f32 (st_min st)) <= R64 y)%R /\ exists k, R64 y = rnd64 (IZR k / 100000))) out.
Proof.
  intros He Hne Hm Hf Hst Hr Fx Fn Ho.
  destruct (bounded_shape e p data bound He Hne Hm) as (st' & c & Hst' & Hr' & Hc & Hmx & Hmn & Hcase).
  rewrite Hst in Hst'. apply ok_inj in Hst'. subst st'. rewrite Hr in Hr'. apply ok_inj in Hr'. subst r. cbn [cr_data] in Ho.
  destruct (C24_padding_undone e p data bound (enc_fft c) He Hne Hm Hc) as (f & d & a & b & out' & Hd & _ & Ho' & _ & Hcase').
  rewrite Ho in Ho'. apply ok_inj in Ho'. subst out'.
  assert (Hfr : freqs_ok (ff_freqs c)).
  { destruct Hcase as [(_ & -> & _)|(_ & Hp)]; [split; [apply Forall_nil|cbn; lia]|]. now destruct (bounded_stored e data bound st c He Hne Hm Hp) as (_ & _ & H & _). }
  rewrite decode_fft in Hd by exact Hfr. apply ok_inj in Hd. subst f. cbn [no_error ff_max ff_min] in Hcase'. rewrite <- Hmx, <- Hmn in *.
  destruct Hcase' as [(_ & ->)|(full & pre & post & Hfull & _ & _ & _ & (sp & _ & Hs) & _)].
  - apply Forall_forall. intros y Hy. apply repeat_spec in Hy. right; left. exact Hy.
  - assert (H : Forall (fun y => fis_nan y = true \/ y = f32_as_f64 (ff_max c) \/ y = f32_as_f64 (ff_min c) \/
      (finite y /\ (R32 (ff_min c) <= R64 y)%R /\ exists k, R64 y = rnd64 (IZR k / 100000))) full).
    { rewrite Hs. unfold fft_scale. apply Forall_map, Forall_forall. intros z _. apply (fft_round_values (no_error c)); assumption. }
    rewrite Hfull in H. apply Forall_app in H. destruct H as [_ H]. apply Forall_app in H. apply H.
Qed.

(** *** C21 *)
(** 128 samples alternating between 1 and 1 + 2^-40, then 1e-7, then 128 times 3e-6. *)
Definition near_ones : list f64 := flat_map (fun _ => [from_bits 4607182418800017408; from_bits 4607182418800021504]) (seq 0 64).
Definition three_micro : f64 := from_bits 4524193975976911956.
Definition sampled_data : list f64 := near_ones ++ from_bits 4502148214488346440 :: repeat three_micro 128.

Lemma near_ones_candidates e p b : b = f32_as_f64 (cli_error 3) ->
  (do r <- compress_results e p FFT near_ones b; Ok (length (cr_data r), fle (cr_error r) b)) = Ok (10%nat, true) /\
  (do r <- compress_results e p Polynomial near_ones b; Ok (length (cr_data r) <=? 10)%nat) = Ok false /\
  (do r <- compress_results e p RLE near_ones b; Ok (length (cr_data r) <=? 10)%nat) = Ok false.
Proof. intros ->. destruct p; vm_compute; repeat split. Qed.

(** What sampling guarantees: the chosen candidate met the bound on the first [level_sample level] samples and was
    the smallest there; the frame is that compressor's output for the whole chunk, whose error is not looked at. *)
Theorem C21_chosen_on_prefix : forall e p data bound level,
  env_ok e -> data <> [] -> Z.of_nat (length data) <= 2 ^ 53 -> Forall finite data -> ~ all_equal data ->
  0 <= level <= 6 -> level_sample level <= Z.of_nat (length data) -> fle f0 (f32_as_f64 bound) = true ->
  exists f r rp prefix rest, data = prefix ++ rest /\ Z.of_nat (length prefix) = level_sample level /\
    compress_best e p data bound level = Ok f /\ In (fr_compressor f) [FFT; Polynomial; RLE] /\
    compress_results e p (fr_compressor f) prefix (f32_as_f64 bound) = Ok rp /\ fle (cr_error rp) (f32_as_f64 bound) = true /\
    (forall c' r', In c' [FFT; Polynomial; RLE] -> compress_results e p c' prefix (f32_as_f64 bound) = Ok r' ->
       fle (cr_error r') (f32_as_f64 bound) = true -> (length (cr_data rp) <= length (cr_data r'))%nat) /\
    compress_results e p (fr_compressor f) data (f32_as_f64 bound) = Ok r /\ fr_data f = cr_data r.
Proof.
  intros e p data bound level He Hne Hs Hf Ha Hl Hge Hb.
  destruct (C20_automatic_selection e p data bound level He Hne Hs Hf Hl Hb) as (f & r & H1 & _ & H2 & H3 & _ & H4).
  destruct (H4 Ha) as (rt & G1 & G2 & G3 & G4). unfold tried_on in *.
  destruct (level_sample level <=? Z.of_nat (length data)) eqn:E; [|lia]. assert (K := level_sample_ge level).
  exists f, r, rt, (firstn (Z.to_nat (level_sample level)) data), (skipn (Z.to_nat (level_sample level)) data).
  split; [symmetry; apply firstn_skipn|]. split; [rewrite firstn_length; lia|]. split; [exact H1|]. split; [exact G1|]. split; [exact G2|].
  split; [exact G3|]. split; [|split; [exact H2|exact H3]]. intros c' r' C1 C2 C3. exact (proj1 (G4 c' r' C1 C2 C3)).
Qed.
Print Assumptions C21_chosen_on_prefix.

Lemma near_ones_choice e p bound rp c : bound = f32_as_f64 (cli_error 3) -> winner e p near_ones bound c rp -> c = FFT.
Proof.
  intros Hb (W1 & W2 & W3 & W4). destruct (near_ones_candidates e p bound Hb) as (N1 & N2 & N3).
  destruct (compress_results e p FFT near_ones bound) as [rf|] eqn:Ef; [|discriminate N1]. cbn [bind] in N1. apply ok_inj in N1.
  assert (N1l : length (cr_data rf) = 10%nat) by congruence. assert (N1e : fle (cr_error rf) bound = true) by congruence.
  destruct (W4 FFT rf ltac:(now left) Ef N1e) as [L _]. rewrite N1l in L.
  cbn [In] in W1. destruct W1 as [<-|[<-|[<-|[]]]]; [reflexivity| |]; exfalso.
  - rewrite W2 in N2. cbn [bind] in N2. apply ok_inj in N2. lia.
  - rewrite W2 in N3. cbn [bind] in N3. apply ok_inj in N3. lia.
Qed.

Lemma sampled_finite : Forall finite sampled_data.
Proof.
  apply Forall_app. split.
  - apply Forall_forall. intros x Hx. unfold near_ones in Hx. apply in_flat_map in Hx. destruct Hx as (k & _ & [<-|[<-|[]]]); vm_compute; reflexivity.
  - apply Forall_cons; [vm_compute; reflexivity|]. apply Forall_forall. intros x Hx. apply repeat_spec in Hx. subst x. vm_compute. reflexivity.
Qed.
Definition micro_min : f64 := from_bits 4502148214576644096.
Lemma sampled_stats : exists st, data_stats sampled_data = Ok st /\ feq (st_min st) (st_max st) = false /\
  fin32 (f64_as_f32 (st_max st)) = true /\ fin32 (f64_as_f32 (st_min st)) = true /\
  f32_as_f64 (f64_as_f32 (st_max st)) = f1 /\ f32_as_f64 (f64_as_f32 (st_min st)) = micro_min.
Proof.
  assert (H : (do st <- data_stats sampled_data;
     Ok (feq (st_min st) (st_max st), fin32 (f64_as_f32 (st_max st)), fin32 (f64_as_f32 (st_min st)),
         to_bits (f32_as_f64 (f64_as_f32 (st_max st))), to_bits (f32_as_f64 (f64_as_f32 (st_min st))))) = Ok (false, true, true, to_bits f1, to_bits micro_min)) by (vm_compute; reflexivity).
  destruct (data_stats sampled_data) as [st|]; [|discriminate H]. cbn [bind] in H. apply ok_inj in H. exists st.
  split; [reflexivity|]. split; [congruence|]. split; [congruence|]. split; [congruence|]. split; apply to_bits_inj; congruence.
Qed.
Lemma micro_min_R : R64 micro_min = (7555786460889088 * bpow radix2 (-76))%R.
Proof.
  replace micro_min with (B754_finite 53 1024 false 7555786460889088 (-76) eq_refl) by (apply to_bits_inj; vm_compute; reflexivity).
  rewrite finite_R. reflexivity.
Qed.
Lemma three_micro_R : R64 three_micro = (32 * 7083549724304468 * bpow radix2 (-76))%R.
Proof.
  replace three_micro with (B754_finite 53 1024 false 7083549724304468 (-71) eq_refl) by (apply to_bits_inj; vm_compute; reflexivity).
  rewrite finite_R. unfold signed. change (-71) with (5 + -76). rewrite bpow_plus. change (bpow radix2 5) with 32%R. lra.
Qed.

(** 90% away from the sample. *)
Lemma far_away y : fis_nan y = true \/ y = f1 \/ y = micro_min \/
    (finite y /\ (R64 micro_min <= R64 y)%R /\ exists k, R64 y = rnd64 (IZR k / 100000)) ->
  fis_nan y = true \/ (9 / 10 * R64 three_micro <= Rabs (R64 y - R64 three_micro))%R.
Proof.
  assert (P := bpow_gt_0 radix2 (-76)). set (u := bpow radix2 (-76)) in *.
  assert (T := three_micro_R). assert (M := micro_min_R). fold u in T, M. rewrite T.
  assert (E17 : (bpow radix2 (-17) = 576460752303423488 * u)%R).
  { unfold u. change (-17) with (59 + -76). rewrite bpow_plus. f_equal. }
  assert (U : (u <= / 131072 / 1000)%R).
  { assert (bpow radix2 (-76) <= bpow radix2 (-30))%R by (apply bpow_le; lia). change (bpow radix2 (-30)) with (/ 1073741824)%R in H. unfold u. lra. }
  intros [H|[->|[->|(F & H & k & Hk)]]]; [now left| | |].
  - right. rewrite f1_R. assert (bpow radix2 (-76) <= bpow radix2 (-70))%R by (apply bpow_le; lia). 
    assert (V : (u * 1000000000000000000 <= / 1000)%R).
    { unfold u. apply Rle_trans with (bpow radix2 (-76) * bpow radix2 60)%R.
      - apply Rmult_le_compat_l; [apply bpow_ge_0|]. change (bpow radix2 60) with 1152921504606846976%R. lra.
      - rewrite <- bpow_plus. change (bpow radix2 (-76 + 60)) with (/ 65536)%R. lra. }
    rewrite Rabs_pos_eq; lra.
  - right. rewrite M. rewrite Rabs_left1; lra.
  - right. assert (Hk1 : 1 <= k).
    { destruct (Z_le_gt_dec 1 k); [assumption|]. exfalso.
      assert (rnd64 (IZR k / 100000) <= 0)%R.
      { rewrite <- (round_0 radix2 fexp64 ZnearestE). apply round_le; [apply fexp64_valid|apply valid_rnd_N|].
        assert (IZR k <= 0)%R by (apply IZR_le; lia). unfold Rdiv. nra. }
      rewrite Hk in H. lra. }
    assert (L : (bpow radix2 (-17) <= rnd64 (IZR k / 100000))%R).
    { apply round_ge_generic; [apply fexp64_valid|apply valid_rnd_N|apply generic_format_bpow; unfold fexp64; cbv; discriminate|].
      change (bpow radix2 (-17)) with (/ 131072)%R. assert (1 <= IZR k)%R by (apply IZR_le; lia). lra. }
    rewrite E17 in L. rewrite <- Hk in L. rewrite Rabs_pos_eq; lra.
Qed.

(** The frame's error on the rest of the chunk is not controlled: with a bound of 3% and sampling level 6, for
    every transform, FFT is chosen on the first 128 samples, and every one of the last 128 samples comes back
    as NaN or wrong by at least 90%. *)
Theorem C21_bound_not_enforced_refuted : forall e p, env_ok e ->
  Forall finite sampled_data /\ length sampled_data = 257%nat /\
  exists f out, compress_best e p sampled_data (cli_error 3) 6 = Ok f /\ frame_decompress e p f = Ok out /\ length out = 257%nat /\
    forall i y, (129 <= i)%nat -> nth_error out i = Some y ->
      exists x, nth_error sampled_data i = Some x /\ (fis_nan y = true \/ (9 / 10 * R64 x <= Rabs (R64 y - R64 x))%R).
Proof.
  intros e p He. assert (Hf := sampled_finite). split; [exact Hf|].
  assert (Hl : length sampled_data = 257%nat) by (vm_compute; reflexivity). split; [exact Hl|].
  assert (Hne : sampled_data <> []) by (intros E; rewrite E in Hl; discriminate).
  destruct sampled_stats as (st & Hst & Hneq & Fx & Fn & Ex & En).
  assert (Hb : fle f0 (f32_as_f64 (cli_error 3)) = true) by (apply cli_error_nonneg; lia).
  assert (Hs : Z.of_nat (length sampled_data) <= 2 ^ 53) by (rewrite Hl; cbn; lia).
  destruct (compress_best_cases e p sampled_data (cli_error 3) 6 st He Hne Hs ltac:(lia) Hst Hb) as (c & r & H1 & H2 & Hc).
  assert (Ec : c = FFT).
  { destruct Hc as [(E & _)|[(_ & H & _)|(_ & _ & rp & Hw)]]; [congruence|rewrite Hl in H; cbn in H; lia|].
    assert (Epre : firstn (Z.to_nat (level_sample 6)) sampled_data = near_ones).
    { unfold sampled_data. change (Z.to_nat (level_sample 6)) with (length near_ones). rewrite firstn_app, Nat.sub_diag, firstn_all. apply app_nil_r. }
    rewrite Epre in Hw. exact (near_ones_choice e p _ rp c eq_refl Hw). }
  subst c. eexists. 
  destruct (results_payload e p sampled_data He Hne Hs FFT (f32_as_f64 (cli_error 3)) ltac:(discriminate)) as (r' & Hr' & _ & _ & _ & out & Ho & Hol).
  rewrite H2 in Hr'. apply ok_inj in Hr'. subst r'.
  exists out. split; [exact H1|]. split; [unfold frame_decompress; cbn [fr_compressor fr_samples fr_data]; rewrite Nat2Z.id; exact Ho|].
  split; [congruence|]. intros i y Hi Hy. exists three_micro.
  assert (Hil : (i < 257)%nat) by (rewrite <- Hl, <- Hol; eapply nth_error_Some; congruence).
  split.
  { unfold sampled_data. rewrite nth_error_app2 by (change (length near_ones) with 128%nat; lia). change (length near_ones) with 128%nat.
    destruct (i - 128)%nat as [|j] eqn:Ej; [lia|]. cbn [nth_error]. apply nth_error_repeat. lia. }
  apply far_away. assert (V := fft_out_values e p sampled_data _ r st out He Hne ltac:(unfold in_memory; rewrite Hl; cbn; lia) Hf Hst H2 Fx Fn Ho).
  rewrite Forall_forall in V. specialize (V y (nth_error_In _ _ Hy)).
  destruct (f32_as_f64_R _ Fn) as [_ Rn]. rewrite <- Rn, En, Ex in V. exact V.
Qed.
Print Assumptions C21_bound_not_enforced_refuted.
Example C21_example : forall e p, env_ok e -> exists f r rp prefix rest, sampled_data = prefix ++ rest /\ Z.of_nat (length prefix) = 128 /\
    compress_best e p sampled_data (cli_error 3) 6 = Ok f /\ In (fr_compressor f) [FFT; Polynomial; RLE] /\
    compress_results e p (fr_compressor f) prefix (f32_as_f64 (cli_error 3)) = Ok rp /\ fle (cr_error rp) (f32_as_f64 (cli_error 3)) = true /\
    (forall c' r', In c' [FFT; Polynomial; RLE] -> compress_results e p c' prefix (f32_as_f64 (cli_error 3)) = Ok r' ->
       fle (cr_error r') (f32_as_f64 (cli_error 3)) = true -> (length (cr_data rp) <= length (cr_data r'))%nat) /\
    compress_results e p (fr_compressor f) sampled_data (f32_as_f64 (cli_error 3)) = Ok r /\ fr_data f = cr_data r.
Proof.
  intros e p He. assert (Hl : length sampled_data = 257%nat) by (vm_compute; reflexivity).
  apply (C21_chosen_on_prefix e p sampled_data (cli_error 3) 6); auto.
  - intros E; rewrite E in Hl; discriminate.
  - rewrite Hl; cbn; lia.
  - exact sampled_finite.
  - intros H. destruct sampled_stats as (st & Hst & Hneq & _).
    assert (feq (st_min st) (st_max st) = true); [|congruence].
    apply (all_equal_iff sampled_data st); auto; [intros E; rewrite E in Hl; discriminate|exact sampled_finite].
  - lia.
  - rewrite Hl; cbn; lia.
Qed.
