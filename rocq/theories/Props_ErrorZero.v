(** C47: is "--error 0" lossless? (main.rs:183-184: "0 is lossless compression") *)
From Coq Require Import List ZArith Bool Lia ZifyBool Reals Lra.
From Flocq Require Import Core IEEE754.BinarySingleNaN IEEE754.Binary IEEE754.Bits.
From Verif Require Import Base Model_Float Model_Bincode BincodeFacts Spec FloatFacts Float32Facts ArithFacts RoundFacts Model_Utils UtilsFacts Model_Stats
  Model_Compressors Model_Polynomial Model_Fft Model_Stream StatsFacts CompressorFacts StreamFacts PlanFacts PolyFacts PolyLoopFacts PolyApiFacts FftFacts
  MetricFacts ExactFacts PipelineFacts Props_Stream Props_Lossless Props_Plan Props_Poly Props_Fft Props_Pipeline Props_Auto.
Import ListNotations.
Open Scope Z_scope.

(** Samples that differ still differ in single precision. *)
Definition distinct_in_single (data : list f64) : Prop :=
  forall x y, In x data -> In y data -> finite x -> finite y ->
    round radix2 (FLT_exp (-149) 24) ZnearestE (R64 x) = round radix2 (FLT_exp (-149) 24) ZnearestE (R64 y) -> R64 x = R64 y.

Definition zero_bound : f64 := f32_as_f64 (cli_error 0).
Lemma zero_bound_facts : zero_bound = f0 /\ fle f0 zero_bound = true /\ fle (fadd zero_bound f1) zero_bound = false.
Proof. split; [apply to_bits_inj; vm_compute; reflexivity|]. split; vm_compute; reflexivity. Qed.

Lemma forall2_middle {A B} (P : A -> B -> Prop) pre out post l1 l2 l3 : length pre = length l1 -> length out = length l2 ->
  Forall2 P (pre ++ out ++ post) (l1 ++ l2 ++ l3) -> Forall2 P out l2.
Proof.
  revert l1. induction pre as [|x pre IH]; intros [|y l1] H1 H2 H; try discriminate.
  - cbn in H. clear H1. revert l2 H2 H. induction out as [|o out IHo]; intros [|z l2] H2 H; try discriminate; constructor; inversion H; subst; auto.
  - inversion H; subst. apply (IH l1); auto.
Qed.

Lemma fft_exact e p data bound r st : env_ok e -> data <> [] -> Z.of_nat (length data) <= 2 ^ 50 -> Forall supported data ->
  data_stats data = Ok st -> f32_eq (f64_as_f32 (st_max st)) (f64_as_f32 (st_min st)) = false ->
  compress_results e p FFT data bound = Ok r -> fle (cr_error r) f0 = true -> fle (fadd bound f1) f0 = false ->
  exists out, decompress e p FFT (length data) (cr_data r) = Ok out /\ same_series out data.
Proof.
  intros He Hne Hl Hs Hst Hnc Hr He0 Hb1. assert (Hm : in_memory data) by (unfold in_memory; lia).
  destruct (bounded_shape e p data bound He Hne Hm) as (st' & c & Hst' & Hr' & Hc & Hmx & Hmn & Hcase).
  rewrite Hst in Hst'. apply ok_inj in Hst'. subst st'. rewrite Hr in Hr'. apply ok_inj in Hr'. subst r. cbn [cr_data cr_error] in *.
  rewrite <- Hmx, <- Hmn in Hnc. destruct Hcase as [(E & _)|(_ & Hp)]; [congruence|].
  destruct (bounded_stored e data bound st c He Hne Hm Hp) as (_ & _ & Hok & Hw). assert (Hd := decode_fft c Hok).
  destruct Hp as (err & Her & Hp). rewrite Her in He0.
  destruct Hp as [(_ & -> & _)|(budget & idata & _ & _ & Hmir & Hce & _)]; [congruence|].
  assert (Hn : (1 <= length data)%nat) by (destruct data; [congruence|cbn; lia]).
  assert (Hgl := gibbs_data_length data Hne).
  assert (Hpad := gibbs_padded data Hne ltac:(lia)).
  destruct He as [Hh Ht]. rewrite Hgl in Hw.
  destruct (fft_expand_spec (e_fft e) Ht (no_error c) (length data) Hnc Hn Hw) as (spec & Hsp & Hex & Hil).
  change (get_mirrored_freqs (no_error c)) with (get_mirrored_freqs c) in Hsp. rewrite <- Hgl in Hsp. rewrite Hmir in Hsp. apply ok_inj in Hsp. subst spec.
  rewrite <- Hgl in Hex, Hil. change (fft_scale (no_error c)) with (fft_scale c) in Hex.
  set (full := fft_scale c (length (gibbs_data data)) (fe_ifft (e_fft e) idata)) in *.
  eexists. split. { cbn [decompress]. unfold fft_to_data. rewrite Hd. cbn [bind]. exact Hex. }
  destruct Hpad as [(x & y & Hx & Hy & Hg) _].
  assert (Hsame : same_series full (gibbs_data data)).
  { apply (mape_zero_exact (gibbs_data data) full err); auto.
    - intros E. rewrite E in Hgl. cbn in Hgl. lia.
    - rewrite Hgl. unfold trim_sizes. destruct (gibbs_applies (length data)); cbn [fst snd]; [|lia].
      destruct (gibbs_added_spec (length data) Hn ltac:(lia)) as [_ Ha].
      pose proof (Nat.div_le_upper_bound (gibbs_added (length data)) 2 (gibbs_added (length data)) ltac:(lia)). lia.
    - rewrite Hg. rewrite Forall_forall in Hs. apply Forall_app. split; [|apply Forall_app; split].
      + apply Forall_forall. intros z Hz. apply repeat_spec in Hz. subst z. apply Hs. eapply nth_error_In; exact Hx.
      + now apply Forall_forall.
      + apply Forall_forall. intros z Hz. apply repeat_spec in Hz. subst z. apply Hs. eapply nth_error_In; exact Hy. }
  rewrite <- (firstn_skipn (fst (trim_sizes (length data))) full) in Hsame at 1.
  rewrite <- (firstn_skipn (length data) (skipn (fst (trim_sizes (length data))) full)) in Hsame at 1. rewrite Hg in Hsame.
  assert (Lf : length full = length (gibbs_data data)) by (unfold full, fft_scale; rewrite map_length; exact Hil).
  eapply forall2_middle; [| |exact Hsame].
  - rewrite firstn_length, Lf, Hgl, repeat_length. lia.
  - rewrite firstn_length, skipn_length, Lf, Hgl. lia.
Qed.

(** A chunk compressed automatically with bound 0 and without sampling. *)
Lemma auto_zero_chunk e p data level f out :
  env_ok e -> data <> [] -> Z.of_nat (length data) <= 2 ^ 50 ->
  Forall supported data -> Forall no_negative_zero data -> Forall five_decimals data -> distinct_in_single data ->
  0 <= level <= 6 -> Z.of_nat (length data) < level_sample level ->
  compress_best e p data (cli_error 0) level = Ok f -> frame_decompress e p f = Ok out -> same_series out data.
Proof.
  intros He Hne Hl Hs Hz H5 Hd Hlv Hlt Hf Ho. destruct zero_bound_facts as (Z1 & Z2 & Z3). fold zero_bound in *.
  assert (Hfin := supported_forall_finite _ Hs).
  destruct (stats_facts data Hne Hfin) as (st & Hst & Fn & Fx & Hle & [i Hmn] & [j Hmx]).
  destruct (compress_best_cases e p data (cli_error 0) level st He Hne ltac:(lia) Hlv Hst Z2) as (c & r & H1 & H2 & Hc).
  rewrite Hf in H1. apply ok_inj in H1. subst f. unfold frame_decompress in Ho. cbn [fr_compressor fr_samples fr_data] in Ho. rewrite Nat2Z.id in Ho.
  fold zero_bound in H2, Hc. assert (Hm : in_memory data) by (unfold in_memory; lia).
  destruct Hc as [(Eq & ->)|[(Eq & _ & W1 & _ & W3 & _)|(_ & H & _)]]; [| |lia].
  - assert (Ha := proj1 (all_equal_iff data st Hne Hfin Hst) Eq).
    destruct data as [|x l] eqn:Ed; [congruence|]. rewrite <- Ed in *. assert (Hx : In x data) by (rewrite Ed; now left).
    assert (Sx : supported x) by (rewrite Forall_forall in Hs; now apply Hs).
    destruct (C06_constant_lossless e p data x Hne Sx) as (b & o & C1 & C2 & C3).
    { apply Forall_forall. intros y Hy. rewrite Forall_forall in Hs. split; [apply Hs; exact Hy|]. split; [apply Sx|]. now apply Ha. }
    unfold compress_results in H2. unfold compress in C1. rewrite Hst in H2, C1. cbn [bind] in *.
    apply ok_inj in H2. apply ok_inj in C1. subst r b. rewrite C2 in Ho. apply ok_inj in Ho. now subst o.
  - rewrite Z1 in W3. cbn [In] in W1. destruct W1 as [<-|[<-|[<-|[]]]].
    + assert (Hneq : R64 (st_max st) <> R64 (st_min st)).
      { intros E. assert (feq (st_min st) (st_max st) = true) by (apply feq_R; auto). congruence. }
      destruct (fft_exact e p data zero_bound r st He Hne ltac:(lia) Hs Hst) as (o & O1 & O2); auto.
      { assert (Sx : supported (st_max st)) by (rewrite Forall_forall in Hs; apply Hs; eapply max_at_in; eauto).
        assert (Sn : supported (st_min st)) by (rewrite Forall_forall in Hs; apply Hs; eapply min_at_in; eauto).
        assert (B : (bpow radix2 63 <= bpow radix2 127)%R) by (apply bpow_le; lia).
        destruct (f64_as_f32_fin (st_max st) Fx) as [G1 G2]; [apply supported_bnd in Sx; destruct Sx; lra|].
        destruct (f64_as_f32_fin (st_min st) Fn) as [G3 G4]; [apply supported_bnd in Sn; destruct Sn; lra|].
        destruct (f32_eq (f64_as_f32 (st_max st)) (f64_as_f32 (st_min st))) eqn:E; [|reflexivity]. exfalso.
        apply f32_eq_R in E; auto. rewrite G2, G4 in E. apply Hneq. apply Hd; [eapply max_at_in; eauto|eapply min_at_in; eauto|assumption|assumption|exact E]. }
      rewrite O1 in Ho. apply ok_inj in Ho. now subst o.
    + destruct (C18_error_control e p Polynomial data zero_bound (or_introl eq_refl) Hne ltac:(lia) Hs Hz) as (r' & o & R1 & R2 & R3 & _ & Hcase).
      { rewrite Z1. exact f0_finite. } { rewrite Z1, f0_R. assert (P := bpow_gt_0 radix2 29). lra. }
      rewrite H2 in R1. apply ok_inj in R1. subst r'. rewrite R3 in Ho. apply ok_inj in Ho. subst o.
      destruct Hcase as [(_ & Hcase)|[(_ & g & G1 & G2)|(G1 & _)]]; [exact Hcase| |].
      * destruct (C19_stored_everything_exact e p data (cr_data r) g Hne ltac:(lia) Hs H5) as (o & O1 & O2); auto.
        { right. exists zero_bound. split; [rewrite Z1; exact f0_finite|]. split; [rewrite Z1, f0_R; assert (P := bpow_gt_0 radix2 29); lra|exact R2]. }
        { now rewrite G2. }
        rewrite R3 in O1. apply ok_inj in O1. now subst o.
      * apply (mape_zero_exact data out (cr_error r)); auto. lia.
    + destruct (C07_rle_lossless e p data Hne Hm Hs) as (b & o & C1 & C2 & C3).
      unfold compress_results in H2. unfold compress in C1. rewrite Hst in H2, C1. cbn [bind] in *.
      apply ok_inj in H2. apply ok_inj in C1. subst r b. rewrite C2 in Ho. apply ok_inj in Ho. now subst o.
Qed.

(** Through the command line path, automatic selection with error 0 and sampling level 0 is lossless, for samples
    with at most five decimals in the supported range (no negative zero) that single precision tells apart. *)
Theorem C47_auto_error_zero_lossless : forall e p data,
  env_ok e -> fits_counter p data ->
  Forall (fun x => finite x -> supported x /\ no_negative_zero x /\ five_decimals x) data -> distinct_in_single data ->
  exists bytes out cleaned,
    compress_data e p data Auto 0 0 = Ok bytes /\ decompress_data e p bytes = Ok out /\
    subsequence_of finite data cleaned /\ same_series out cleaned.
Proof.
  intros e p data He Hf Hs Hd.
  destruct (pipeline_with e p data Auto 0 0 same_series He ltac:(lia) ltac:(lia) Hf) as (b & outs & chunks & H1 & H2 & H3 & _ & H4).
  - intros d f out Hne Hdl Hin Hfr Ho _. rewrite Forall_forall in Hs.
    assert (Hall : forall x, In x d -> supported x /\ no_negative_zero x /\ five_decimals x).
    { intros x Hx. destruct (clean_data_in data x (Hin x Hx)) as [G1 G2]. now apply Hs. }
    unfold call_for in Hfr. cbn [is_bounded frame_of] in Hfr.
    apply (auto_zero_chunk e p d 0 f out); auto; try (apply Forall_forall; intros x Hx; apply (Hall x Hx)); try lia.
    + intros x y Hx Hy. apply Hd; [apply (clean_data_in data x (Hin x Hx))|apply (clean_data_in data y (Hin y Hy))].
    + cbn [level_sample]. lia.
  - exists b, (concat outs), (clean_data data). split; [exact H1|]. split; [exact H2|]. split; [apply C11_cleaning_keeps_finite|].
    rewrite <- H3. now apply forall2_concat.
Qed.
Print Assumptions C47_auto_error_zero_lossless.

(** In particular for integers up to 2^24 in magnitude. *)
Theorem C47_auto_error_zero_integers : forall e p data,
  env_ok e -> fits_counter p data ->
  Forall (fun x => finite x -> no_negative_zero x /\ exists z, is_int x z /\ Z.abs z <= 2 ^ 24) data ->
  exists bytes out cleaned,
    compress_data e p data Auto 0 0 = Ok bytes /\ decompress_data e p bytes = Ok out /\
    subsequence_of finite data cleaned /\ same_series out cleaned.
Proof.
  intros e p data He Hf Hi. rewrite Forall_forall in Hi. apply C47_auto_error_zero_lossless; auto.
  - apply Forall_forall. intros x Hx Fx. destruct (Hi x Hx Fx) as (Hz & z & Hz1 & Hz2). split; [|split; [exact Hz|]].
    + destruct Hz1 as [F R]. split; [exact F|]. rewrite R. split.
      * destruct (Z.eq_dec z 0) as [->|Hnz]; [now left|right].
        apply Rle_trans with 1%R; [change 1%R with (bpow radix2 0); apply bpow_le; lia|]. rewrite <- abs_IZR. apply IZR_le. lia.
      * split; [apply IZR_le; lia|apply IZR_lt; lia].
    + eapply int_five_decimals; [exact Hz1|lia].
  - assert (G : forall x, In x data -> finite x -> round radix2 (FLT_exp (-149) 24) ZnearestE (R64 x) = R64 x).
    { intros x Hx Fx. destruct (Hi x Hx Fx) as (_ & z & (_ & R) & Hz). rewrite R. apply round_generic; [apply valid_rnd_N|].
      destruct (Z.eq_dec (Z.abs z) (2 ^ 24)) as [E|E].
      - assert (B : generic_format radix2 (FLT_exp (-149) 24) (IZR (2 ^ 24))).
        { rewrite IZR_pow2 by lia. apply generic_format_bpow. unfold FLT_exp. lia. }
        destruct (Z.abs_spec z) as [[_ E']|[_ E']]; rewrite E' in E; [rewrite E; exact B|].
        replace z with (- 2 ^ 24) by lia. rewrite opp_IZR. now apply generic_format_opp.
      - apply generic_format_FLT. exists (Float radix2 z 0); cbn [Fnum Fexp]; [unfold F2R; cbn; lra|change (radix2 ^ 24) with (2 ^ 24); lia|lia]. }
    intros x y Hx Hy Fx Fy H. now rewrite (G x Hx Fx), (G y Hy Fy) in H.
Qed.
Print Assumptions C47_auto_error_zero_integers.
Example C47_example : forall e p, env_ok e -> exists bytes out cleaned,
  compress_data e p (ints [3; 1; 4; 1; 5; -16777216]) Auto 0 0 = Ok bytes /\ decompress_data e p bytes = Ok out /\
  subsequence_of finite (ints [3; 1; 4; 1; 5; -16777216]) cleaned /\ same_series out cleaned.
Proof.
  intros e p He. apply C47_auto_error_zero_integers; auto.
  - apply fits_small. vm_compute. reflexivity.
  - apply Forall_forall. intros x Hx _. unfold ints in Hx. apply in_map_iff in Hx. destruct Hx as (z & <- & Hz).
    assert (Z.abs z <= 2 ^ 24) by (cbn [In] in Hz; lia). split.
    + assert (N := nonneg_zero_ints [z] ltac:(apply Forall_cons; [lia|apply Forall_nil])). unfold ints in N. cbn [map] in N. now inversion N.
    + exists z. split; [|assumption]. destruct (int_as_f64_exact z ltac:(lia)) as [E1 E2]. split; assumption.
Qed.

(** Not lossless beyond: two integers that single precision does not tell apart come back equal, for every transform. *)
Theorem C47_large_integers_refuted : forall e p,
  (do b <- compress_data e p (ints [16777216; 16777217]) Auto 0 0; do o <- decompress_data e p b; Ok (map to_bits o))
  = Ok (map to_bits (ints [16777216; 16777216])).
Proof. intros e p. destruct p; vm_compute; reflexivity. Qed.
Print Assumptions C47_large_integers_refuted.

(** Nor for fractions with more than five decimals: the twelve samples below are reported as
    stored without error by the polynomial candidate, which wins whatever the transforms compute; the second
    one comes back as 0.71235. *)
Definition nine_decimals : list f64 :=
  map (fun k => fdiv (int_as_f64 k) (int_as_f64 1000000000))
    [123456789; 712345678; 200300401; 987654321; 312345671; 876543211; 55555557; 655443327; 911223347; 144556679; 777888991; 333222113].
Definition second : f64 := fdiv (int_as_f64 712345678) (int_as_f64 1000000000).

Lemma frac_R k : Z.abs k <= 2 ^ 53 -> finite (fdiv (int_as_f64 k) (int_as_f64 100000)) /\ R64 (fdiv (int_as_f64 k) (int_as_f64 100000)) = rnd64 (IZR k / 100000).
Proof.
  intros Hk. destruct (int_as_f64_exact k Hk) as [Rk Fk]. destruct (int_as_f64_exact 100000 ltac:(lia)) as [Ry Fy].
  assert (Bk : bnd 53 (int_as_f64 k)) by (apply bnd_int; lia).
  destruct (fdiv_R (int_as_f64 k) (int_as_f64 100000) Fk) as [E F]; [rewrite Ry; lra| |split; [exact F|rewrite E, Rk, Ry; reflexivity]].
  rewrite Rk, Ry. apply (rnd_bnd 53); [lia|]. unfold Rdiv. rewrite Rabs_mult. rewrite (Rabs_pos_eq (/ 100000)) by lra.
  destruct Bk as [_ Bk]. rewrite Rk in Bk. assert (0 <= Rabs (IZR k))%R by apply Rabs_pos. lra.
Qed.

Lemma second_not_five k : R64 second <> rnd64 (IZR k / 100000).
Proof.
  assert (Fs : finite second) by (vm_compute; reflexivity).
  destruct (frac_R 71234 ltac:(lia)) as [F1 R1]. destruct (frac_R 71235 ltac:(lia)) as [F2 R2].
  assert (L1 : flt (fdiv (int_as_f64 71234) (int_as_f64 100000)) second = true) by (vm_compute; reflexivity).
  assert (L2 : flt second (fdiv (int_as_f64 71235) (int_as_f64 100000)) = true) by (vm_compute; reflexivity).
  apply flt_R in L1; [|exact F1|exact Fs]. apply flt_R in L2; [|exact Fs|exact F2]. rewrite R1 in L1. rewrite R2 in L2.
  intros H. destruct (Z_le_gt_dec k 71234) as [Hk|Hk].
  - assert (rnd64 (IZR k / 100000) <= rnd64 (IZR 71234 / 100000))%R; [|lra].
    apply round_le; [apply fexp64_valid|apply valid_rnd_N|]. assert (IZR k <= IZR 71234)%R by now apply IZR_le. lra.
  - assert (rnd64 (IZR 71235 / 100000) <= rnd64 (IZR k / 100000))%R; [|lra].
    apply round_le; [apply fexp64_valid|apply valid_rnd_N|]. assert (IZR 71235 <= IZR k)%R by (apply IZR_le; lia). lra.
Qed.

Lemma nine_stats : exists st, data_stats nine_decimals = Ok st /\ feq (st_min st) (st_max st) = false /\
  fin32 (f64_as_f32 (st_max st)) = true /\ fin32 (f64_as_f32 (st_min st)) = true /\
  f32_eq (f64_as_f32 (st_max st)) (f64_as_f32 (st_min st)) = false /\
  feq second (f32_as_f64 (f64_as_f32 (st_max st))) = false /\ feq second (f32_as_f64 (f64_as_f32 (st_min st))) = false.
Proof.
  assert (H : (do st <- data_stats nine_decimals;
     Ok [feq (st_min st) (st_max st); fin32 (f64_as_f32 (st_max st)); fin32 (f64_as_f32 (st_min st));
         f32_eq (f64_as_f32 (st_max st)) (f64_as_f32 (st_min st)); feq second (f32_as_f64 (f64_as_f32 (st_max st))); feq second (f32_as_f64 (f64_as_f32 (st_min st)))])
     = Ok [false; true; true; false; false; false]) by (vm_compute; reflexivity).
  destruct (data_stats nine_decimals) as [st|]; [|discriminate H]. cbn [bind] in H. apply ok_inj in H. exists st.
  split; [reflexivity|]. repeat split; congruence.
Qed.
Lemma nine_candidates e p b : b = zero_bound ->
  (do r <- compress_results e p Polynomial nine_decimals b; Ok (length (cr_data r), fle (cr_error r) b)) = Ok (116%nat, true) /\
  (do r <- compress_results e p Polynomial nine_decimals b; do o <- decompress e p Polynomial 12 (cr_data r); Ok (map to_bits (firstn 2 o)))
    = Ok (map to_bits [fdiv (int_as_f64 12346) (int_as_f64 100000); fdiv (int_as_f64 71235) (int_as_f64 100000)]) /\
  (do r <- compress_results e p RLE nine_decimals b; Ok (length (cr_data r) <=? 116)%nat) = Ok false.
Proof. intros ->. destruct p; vm_compute; repeat split. Qed.

Lemma nine_supported : Forall supported nine_decimals.
Proof.
  apply Forall_forall. intros x Hx.
  assert (H : forallb (fun x => fis_finite x && fle f1 (fmul x (int_as_f64 1024)) && fle x f1) nine_decimals = true) by (vm_compute; reflexivity).
  assert (H2 : forallb (fun x => fle (from_bits 4562254508917369340) x) nine_decimals = true) by (vm_compute; reflexivity).
  rewrite forallb_forall in H, H2. specialize (H x Hx). specialize (H2 x Hx). apply andb_prop in H. destruct H as [H H1]. apply andb_prop in H. destruct H as [F _].
  assert (Fm : finite (from_bits 4562254508917369340)) by (vm_compute; reflexivity).
  apply fle_R in H1; [|exact F|exact f1_finite]. rewrite f1_R in H1. apply fle_R in H2; [|exact Fm|exact F].
  assert (B : (bpow radix2 (-64) <= R64 (from_bits 4562254508917369340))%R).
  { replace (from_bits 4562254508917369340) with (B754_finite 53 1024 false 4611686018427388 (-62) eq_refl) by (apply to_bits_inj; vm_compute; reflexivity).
    rewrite finite_R. unfold signed. apply Rle_trans with (1 * bpow radix2 (-62))%R; [rewrite Rmult_1_l; apply bpow_le; lia|].
    apply Rmult_le_compat_r; [apply bpow_ge_0|]. apply IZR_le. lia. }
  assert (P := bpow_gt_0 radix2 (-64)). split; [exact F|]. split; [right; rewrite Rabs_pos_eq; lra|].
  split; [apply Rle_trans with 0%R; [apply IZR_le; lia|lra]|apply Rle_lt_trans with 1%R; [lra|apply IZR_lt; lia]].
Qed.

Lemma forall2_second {A B} (P : A -> B -> Prop) out a b l : Forall2 P out (a :: b :: l) -> exists y0 y ys, out = y0 :: y :: ys /\ P y b.
Proof. intros H. inversion H; subst. match goal with H : Forall2 P _ (b :: l) |- _ => inversion H; subst end. eauto. Qed.
Lemma nine_second out : same_series out nine_decimals -> exists y0 y ys, out = y0 :: y :: ys /\ same_value y second.
Proof. exact (forall2_second same_value out _ second _). Qed.

Theorem C47_fractions_refuted : forall e p, env_ok e ->
  exists f out, compress_best e p nine_decimals (cli_error 0) 0 = Ok f /\ fr_compressor f = Polynomial /\
    frame_decompress e p f = Ok out /\
    map to_bits (firstn 2 out) = map to_bits [fdiv (int_as_f64 12346) (int_as_f64 100000); fdiv (int_as_f64 71235) (int_as_f64 100000)] /\
    ~ same_series out nine_decimals.
Proof.
  intros e p He. destruct nine_stats as (st & Hst & Hneq & Fx & Fn & Hcl & Hsx & Hsn). destruct zero_bound_facts as (Z1 & Z2 & Z3).
  assert (Hs := nine_supported). assert (Hne : nine_decimals <> []) by discriminate. assert (Hl : length nine_decimals = 12%nat) by reflexivity.
  destruct (compress_best_cases e p nine_decimals (cli_error 0) 0 st He Hne ltac:(rewrite Hl; lia) ltac:(lia) Hst Z2) as (c & r & H1 & H2 & Hc).
  fold zero_bound in *. destruct (nine_candidates e p zero_bound eq_refl) as (N1 & N2 & N3).
  assert (Hsec : In second nine_decimals) by (right; left; reflexivity).
  assert (Fs : finite second) by (vm_compute; reflexivity).
  destruct Hc as [(E & _)|[(_ & _ & W1 & _ & W3 & W4)|(_ & H & _)]]; [congruence| |rewrite Hl in H; cbn in H; lia].
  assert (Ec : c = Polynomial).
  { cbn [In] in W1. destruct W1 as [<-|[<-|[<-|[]]]]; [exfalso|reflexivity|exfalso].
    - rewrite Z1 in W3. destruct (fft_exact e p nine_decimals zero_bound r st He Hne ltac:(rewrite Hl; lia) Hs Hst Hcl H2 W3) as (out & O1 & O2).
      { rewrite Z1 in *. exact Z3. }
      assert (V := fft_out_values e p nine_decimals zero_bound r st out He Hne ltac:(unfold in_memory; rewrite Hl; lia) (supported_forall_finite _ Hs) Hst H2 Fx Fn O1).
      destruct (nine_second out O2) as (y0 & y & ys & Ho & Fy & _ & Ey). assert (Hy : In y out) by (rewrite Ho; right; now left). rewrite Forall_forall in V. destruct (V y Hy) as [V1|[V1|[V1|(_ & _ & k & V1)]]].
      + apply fis_finite_not_nan in Fy. congruence.
      + subst y. assert (feq second (f32_as_f64 (f64_as_f32 (st_max st))) = true) by (apply feq_R; auto). congruence.
      + subst y. assert (feq second (f32_as_f64 (f64_as_f32 (st_min st))) = true) by (apply feq_R; auto). congruence.
      + apply (second_not_five k). congruence.
    - destruct (compress_results e p Polynomial nine_decimals zero_bound) as [rp|] eqn:Ep; [|discriminate N1]. cbn [bind] in N1. apply ok_inj in N1.
      destruct (W4 Polynomial rp ltac:(right; now left) Ep ltac:(congruence)) as [L _]. assert (Lp : length (cr_data rp) = 116%nat) by congruence. rewrite Lp in L.
      rewrite H2 in N3. cbn [bind] in N3. apply ok_inj in N3. lia. }
  subst c. rewrite H2 in N2. cbn [bind] in N2. destruct (decompress e p Polynomial 12 (cr_data r)) as [out|] eqn:Eo; [|discriminate N2].
  cbn [bind] in N2. apply ok_inj in N2. eexists. exists out. split; [exact H1|]. split; [reflexivity|]. split; [exact Eo|]. split; [exact N2|].
  intros Hsame. destruct (nine_second out Hsame) as (y0 & y & ys & -> & Sv). cbn [firstn map] in N2.
  assert (Hy : y = fdiv (int_as_f64 71235) (int_as_f64 100000)) by (apply to_bits_inj; congruence).
  destruct Sv as (_ & _ & E). subst y. destruct (frac_R 71235 ltac:(lia)) as [_ R]. apply (second_not_five 71235). congruence.
Qed.
Print Assumptions C47_fractions_refuted.

(** Choosing the polynomial compressor explicitly with error 0 is not lossless even for small integers: errors
    below half a ten-thousandth are rounded away, and 1000000, 1000001, 1000000, 1000000, 1000001, ... comes back
    as 1000000, 1000000.25, 1000000.5, 1000000.75, 1000001, ... *)
Theorem C47_polynomial_error_zero_refuted : forall e,
  (do b <- compress_data e Dev (ints [1000000; 1000001; 1000000; 1000000; 1000001; 1000001; 1000000; 1000001; 1000000; 1000000; 1000000; 1000000]) Polynomial 0 0;
   do o <- decompress_data e Dev b; Ok (map to_bits (firstn 5 o)))
  = Ok (map to_bits (map (fun k => fdiv (int_as_f64 k) (int_as_f64 4)) [4000000; 4000001; 4000002; 4000003; 4000004])).
Proof. intros e. vm_compute. reflexivity. Qed.
Print Assumptions C47_polynomial_error_zero_refuted.
