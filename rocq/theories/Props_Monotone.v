(** C68: a larger allowed error never makes a larger Fourier file, nor more stored points of a polynomial or IDW frame; what does
    not hold. *)
From Coq Require Import List ZArith Bool Lia ZifyBool Reals Lra.
From Flocq Require Import Core IEEE754.BinarySingleNaN IEEE754.Binary IEEE754.Bits.
From Verif Require Import Base Model_Float Model_Bincode BincodeFacts Spec FloatFacts ArithFacts RoundFacts Model_Utils Model_Stats StatsFacts Model_Compressors CompressorFacts
  Model_Polynomial PolyFacts PolyLoopFacts PolyApiFacts MetricFacts ExactFacts AccuracyFacts Model_Fft FftFacts Model_Stream StreamFacts PlanFacts PipelineFacts
  Props_Lossless Props_Stream Props_Plan Props_Poly Props_Fft Props_Pipeline Props_Ratio Props_Accuracy Props_CliFft.
Import ListNotations.
Open Scope Z_scope.

(** * Lengths on the wire *)
Lemma le_length k z : length (le_bytes k z) = k.
Proof. revert z. induction k as [|k IH]; intros z; cbn [le_bytes length]; [reflexivity|]. now rewrite IH. Qed.
Lemma varint_mono a b : 0 <= a <= b -> (length (enc_varint a) <= length (enc_varint b))%nat.
Proof.
  intros H. unfold enc_varint. destruct (a <=? 250) eqn:A1, (b <=? 250) eqn:B1; cbn [length]; try lia.
  - destruct (b <? 2 ^ 16); [|destruct (b <? 2 ^ 32)]; cbn [length]; lia.
  - destruct (a <? 2 ^ 16) eqn:A2, (b <? 2 ^ 16) eqn:B2; [| |exfalso; lia|]; try (destruct (a <? 2 ^ 32) eqn:A3); try (destruct (b <? 2 ^ 32) eqn:B3); try (exfalso; lia);
      cbn [length]; rewrite !le_length; lia.
Qed.
Lemma vec_mono {A} (enc : A -> list Z) l rest : (length (enc_vec enc l) <= length (enc_vec enc (l ++ rest)))%nat.
Proof.
  unfold enc_vec, enc_usize, enc_u64. rewrite flat_map_app, !app_length. assert (V := varint_mono (Z.of_nat (length l)) (Z.of_nat (length l + length rest)) ltac:(lia)). lia.
Qed.
Lemma vec_fixed {A} (enc : A -> list Z) w l1 l2 : (forall x, length (enc x) = w) -> (length l2 <= length l1)%nat -> (length (enc_vec enc l2) <= length (enc_vec enc l1))%nat.
Proof.
  intros W H. assert (F : forall l, length (flat_map enc l) = (w * length l)%nat).
  { induction l as [|x l IH]; cbn [flat_map length]; [lia|]. rewrite app_length, W, IH. lia. }
  unfold enc_vec, enc_usize, enc_u64. rewrite !app_length, !F. assert (V := varint_mono (Z.of_nat (length l2)) (Z.of_nat (length l1)) ltac:(lia)).
  assert (w * length l2 <= w * length l1)%nat by (apply Nat.mul_le_mono_l; exact H). lia.
Qed.

(** * The Fourier loop *)
Lemma pops_prefix n m pops : (n <= m)%nat -> exists rest, pop_freqs m pops = pop_freqs n pops ++ rest.
Proof.
  revert m pops. induction n as [|n IH]; intros m pops H; [eexists; reflexivity|]. destruct m as [|m]; [lia|]. destruct pops as [|f pops]; [exists []; reflexivity|].
  cbn [pop_freqs]. destruct (freq_is_zero f); [exists []; reflexivity|]. destruct (IH m pops ltac:(lia)) as [rest ->]. exists rest. reflexivity.
Qed.
Lemma trim_prefix env b n m f1 f2 : (2 <= n <= m)%nat -> fft_trim env b m = Ok f1 -> fft_trim env b n = Ok f2 -> exists rest, f1 = f2 ++ rest.
Proof.
  intros H. unfold fft_trim. replace (m =? 1)%nat with false by lia. replace (n =? 1)%nat with false by lia. intros H1 H2. apply ok_inj in H1, H2. subst. apply pops_prefix. lia.
Qed.

Definition trimmed env sp (c c' : fft_c) (n : nat) : Prop := exists k, (n <= k)%nat /\ fft_trim env sp k = Ok (ff_freqs c') /\ same_range c c'.
Lemma loop_from env g sp m mf : forall fuel it c err jump c' err', fft_loop env fuel g sp m c err mf jump it = Ok (c', err') ->
  c' = c \/ trimmed env sp c c' (mf + jump).
Proof.
  induction fuel as [|fuel IH]; intros it c err jump c' err' H; cbn [fft_loop] in H; (destruct (negb _); [apply ok_inj in H; left; congruence|]); [discriminate H|].
  cbv zeta in H. right. destruct (fft_trim env sp (mf + jump)) as [fs|] eqn:T; [|discriminate H]. cbn [bind] in H.
  destruct (get_mirrored_freqs _ _) as [id|]; [|discriminate H]. cbn [bind] in H. destruct (calculate_error _ _) as [e1|]; [|discriminate H]. cbn [bind] in H.
  destruct (fft_jump_increment (it + 1) mf) as [inc|].
  - destruct (IH _ _ _ _ _ _ H) as [->|(k & K & Tk & R)]; [exists (mf + jump)%nat; split; [lia|]; split; [exact T|split; reflexivity]|].
    exists k. split; [lia|]. split; [exact Tk|]. destruct R as [R1 R2]. split; [exact R1|exact R2].
  - apply ok_inj in H. assert (c' = with_freqs c fs) as -> by congruence. exists (mf + jump)%nat. split; [lia|]. split; [exact T|split; reflexivity].
Qed.

(** Of two frames of one call the second keeps the first part of the other's frequencies. *)
Definition shorter (c1 c2 : fft_c) : Prop := same_range c1 c2 /\ exists rest, ff_freqs c1 = ff_freqs c2 ++ rest.
Lemma shorter_refl c : shorter c c.
Proof. split; [split; reflexivity|]. exists []. now rewrite app_nil_r. Qed.
Lemma loop_pair env g sp m1 m2 mf : (2 <= mf)%nat -> permille m1 <= permille m2 ->
  forall fuel it c err jump c1 e1 c2 e2, (exists k, (2 <= k <= mf + jump)%nat /\ fft_trim env sp k = Ok (ff_freqs c)) ->
  fft_loop env fuel g sp m1 c err mf jump it = Ok (c1, e1) -> fft_loop env fuel g sp m2 c err mf jump it = Ok (c2, e2) -> shorter c1 c2.
Proof.
  intros Hmf Hm. induction fuel as [|fuel IH]; intros it c err jump c1 e1 c2 e2 (k & Hk & Tk) H1 H2.
  - cbn [fft_loop] in H1, H2. destruct (negb _); [|discriminate H1]. destruct (negb _) in H2; [|discriminate H2]. apply ok_inj in H1, H2. assert (c1 = c) by congruence. assert (c2 = c) by congruence. subst. apply shorter_refl.
  - assert (H1' := H1). cbn [fft_loop] in H1, H2. destruct (permille m2 <? permille err) eqn:G2; cbn [negb] in H2.
    + replace (permille m1 <? permille err) with true in H1 by lia. cbn [negb] in H1. cbv zeta in H1, H2.
      destruct (fft_trim env sp (mf + jump)) as [fs|] eqn:T; [|discriminate H1]. cbn [bind] in H1, H2.
      destruct (get_mirrored_freqs _ _) as [id|]; [|discriminate H1]. cbn [bind] in H1, H2. destruct (calculate_error _ _) as [er|]; [|discriminate H1]. cbn [bind] in H1, H2.
      destruct (fft_jump_increment (it + 1) mf) as [inc|].
      * eapply (IH (it + 1) (with_freqs c fs) er (jump + inc)%nat); [exists (mf + jump)%nat; split; [lia|exact T]|exact H1|exact H2].
      * apply ok_inj in H1, H2. assert (c1 = c2) as -> by congruence. apply shorter_refl.
    + apply ok_inj in H2. assert (c2 = c) as -> by congruence. destruct (loop_from _ _ _ _ _ _ _ _ _ _ _ _ H1') as [->|(k1 & K1 & T1 & R)]; [apply shorter_refl|].
      split; [destruct R; split; congruence|]. apply (trim_prefix env sp k k1); [lia|exact T1|exact Tk].
Qed.

(** The loop is entered for allowed errors from 0 to 3. *)
Lemma permille_entered b : finite b -> (0 <= R64 b <= 3)%R -> permille b < permille (fadd b f1).
Proof.
  intros Fb Rb. destruct (int_as_f64_exact 1 ltac:(lia)) as [R1 F1]. change (int_as_f64 1) with f1 in *. apply Z.nle_gt. intros H.
  destruct (fadd_class b f1 Fb F1 ltac:(lra) ltac:(lra)) as [X|[Fa X]].
  - destruct (permille_stop (fadd b f1) b) as [Ff _]; auto; try lra; try lia; rewrite X in *; [right; reflexivity|reflexivity|discriminate Ff].
  - destruct (rnd_plus (R64 b) (R64 f1) (fmt b) (fmt f1)) as (d & Hdd & Ed). rewrite Ed, R1 in X.
    apply Rabs_le_inv in Hdd. assert (Q := u_small).
    assert (K : ((R64 b + 1) * (1 - / 1024) <= (R64 b + 1) * (1 + d))%R) by (apply Rmult_le_compat_l; lra).
    destruct (permille_stop (fadd b f1) b) as [_ Rf]; auto; try lra; try lia.
    + right. apply positive_sign; [exact Fa|lra].
    + now apply fis_finite_not_nan.
Qed.
Lemma permille_mono a b : finite a -> finite b -> (0 <= R64 a <= R64 b)%R -> (R64 b <= 3)%R -> permille a <= permille b.
Proof.
  intros Fa Fb H H3. destruct (int_as_f64_exact 1000 ltac:(lia)) as [R1000 F1000].
  assert (P : forall x, finite x -> (0 <= R64 x <= 3)%R -> permille x = Z.max (- 2 ^ 31) (Z.min (2 ^ 31 - 1) (Ztrunc (rnd64 (R64 x * 1000))))).
  { intros x Fx Rx. unfold permille, f64_as_i32. destruct (fmul_R x (int_as_f64 1000) Fx F1000) as [RR FF].
    - apply (rnd_bnd 12); [lia|]. rewrite R1000, Rabs_right by lra. change (bpow radix2 12) with 4096%R. lra.
    - rewrite f64_as_int_R by (auto; lia). rewrite RR, R1000. lia. }
  rewrite !P by (auto; lra). assert (T : Ztrunc (rnd64 (R64 a * 1000)) <= Ztrunc (rnd64 (R64 b * 1000))); [|lia].
  apply Ztrunc_le. apply round_le; [apply fexp64_valid|apply valid_rnd_N|lra].
Qed.

Lemma fft_shorter env c data m1 m2 c1 c2 : finite m1 -> finite m2 -> (0 <= R64 m1 <= R64 m2)%R -> (R64 m2 <= 3)%R ->
  fft_compress_bounded env c data m1 = Ok c1 -> fft_compress_bounded env c data m2 = Ok c2 -> shorter c1 c2.
Proof.
  intros F1 F2 H H3 C1 C2. unfold fft_compress_bounded in C1, C2. destruct (f32_eq (ff_max c) (ff_min c)); [apply ok_inj in C1, C2; subst; apply shorter_refl|].
  set (g := gibbs_data data) in *. cbv zeta in C1, C2. set (sp := half_spectrum _) in *. set (mf := default_freqs (length data)) in *.
  assert (Hmf : (3 <= mf)%nat) by apply default_freqs_ge.
  destruct (fft_loop env 24 g sp m1 c (fadd m1 f1) mf 0 0) as [[d1 e1]|] eqn:L1; [|discriminate C1]. destruct (fft_loop env 24 g sp m2 c (fadd m2 f1) mf 0 0) as [[d2 e2]|] eqn:L2; [|discriminate C2].
  cbn [bind] in C1, C2. apply ok_inj in C1, C2. assert (Q : shorter d1 d2); [|subst; exact Q]. clear C1 C2 c1 c2.
  change 24%nat with (S 23) in L1, L2. remember 23%nat as fuel eqn:Hfuel in *. clear Hfuel. cbn [fft_loop] in L1, L2.
  assert (E1 := permille_entered m1 F1 ltac:(lra)). assert (E2 := permille_entered m2 F2 ltac:(lra)).
  replace (permille m1 <? permille (fadd m1 f1)) with true in L1 by lia. replace (permille m2 <? permille (fadd m2 f1)) with true in L2 by lia. cbn [negb] in L1, L2. cbv zeta in L1, L2.
  destruct (fft_trim env sp (mf + 0)) as [fs|] eqn:T; [|discriminate L1]. cbn [bind] in L1, L2.
  destruct (get_mirrored_freqs _ _) as [id|]; [|discriminate L1]. cbn [bind] in L1, L2. destruct (calculate_error _ _) as [er|]; [|discriminate L1]. cbn [bind] in L1, L2.
  destruct (fft_jump_increment (0 + 1) mf) as [inc|].
  - refine (loop_pair env g sp m1 m2 mf ltac:(lia) (permille_mono m1 m2 F1 F2 H H3) _ _ (with_freqs c fs) er _ _ _ _ _ _ L1 L2). exists (mf + 0)%nat. split; [lia|exact T].
  - apply ok_inj in L1, L2. assert (d1 = d2) as -> by congruence. apply shorter_refl.
Qed.
Lemma enc_fft_shorter c1 c2 : shorter c1 c2 -> (length (enc_fft c2) <= length (enc_fft c1))%nat.
Proof.
  intros ((Rx & Rn) & rest & E). unfold enc_fft. rewrite !app_length, E, Rx, Rn. assert (V := vec_mono enc_freq (ff_freqs c2) rest). lia.
Qed.

(** Payloads of the Fourier compressor: with the larger bound the frame stores the first of the frequencies it stores with the
    smaller one, and the same range; its payload is not longer. *)
Theorem C68_fft_payload : forall e p data b1 b2 r1 r2,
  finite b1 -> finite b2 -> (0 <= R64 b1 <= R64 b2)%R -> (R64 b2 <= 1)%R ->
  compress_results e p FFT data b1 = Ok r1 -> compress_results e p FFT data b2 = Ok r2 ->
  (length (cr_data r2) <= length (cr_data r1))%nat /\
  exists f1 f2 rest, cr_data r1 = enc_fft f1 /\ cr_data r2 = enc_fft f2 /\ ff_max f1 = ff_max f2 /\ ff_min f1 = ff_min f2 /\ ff_freqs f1 = ff_freqs f2 ++ rest.
Proof.
  intros e p data b1 b2 r1 r2 F1 F2 H H1 C1 C2. unfold compress_results in C1, C2. destruct (data_stats data) as [st|]; [|discriminate C1]. cbn [bind] in C1, C2. unfold fft_compressor in C1, C2.
  destruct (fft_compress_bounded _ _ data b1) as [c1|] eqn:E1; [|discriminate C1]. destruct (fft_compress_bounded _ _ data b2) as [c2|] eqn:E2; [|discriminate C2].
  cbn [bind] in C1, C2. apply ok_inj in C1, C2. subst r1 r2. cbn [cr_data].
  assert (Q := fft_shorter _ _ data b1 b2 c1 c2 F1 F2 H ltac:(lra) E1 E2). split; [now apply enc_fft_shorter|].
  destruct Q as ((Rx & Rn) & rest & E). exists c1, c2, rest. auto.
Qed.
Print Assumptions C68_fft_payload.

(** * Files *)
Definition frame_le (f g : frame) : Prop := fr_size f = fr_size g /\ fr_samples f = fr_samples g /\ (length (fr_data f) <= length (fr_data g))%nat.
Lemma tag_length c : length (enc_compressor c) = 1%nat.
Proof. destruct c; reflexivity. Qed.
Lemma enc_bytes_mono (a b : list Z) : (length a <= length b)%nat -> (length (enc_bytes a) <= length (enc_bytes b))%nat.
Proof. intros H. unfold enc_bytes, enc_usize, enc_u64. rewrite !app_length. assert (V := varint_mono (Z.of_nat (length a)) (Z.of_nat (length b)) ltac:(lia)). lia. Qed.
Lemma frames_le fs gs : Forall2 frame_le fs gs -> length fs = length gs /\ (length (flat_map enc_frame fs) <= length (flat_map enc_frame gs))%nat.
Proof.
  induction 1 as [|f g fs gs (H1 & H2 & H3) _ [IH1 IH2]]; [split; reflexivity|]. cbn [flat_map length]. split; [lia|]. rewrite !app_length.
  assert (length (enc_frame f) <= length (enc_frame g))%nat; [|lia]. unfold enc_frame. rewrite !app_length, !tag_length, H1, H2. assert (V := enc_bytes_mono _ _ H3). lia.
Qed.
Lemma file_le e p data c err1 level1 err2 level2 bytes1 bytes2 :
  (forall d f1 f2, d <> [] -> incl d (clean_data data) -> Z.of_nat (length d) <= 131072 -> frame_of e p (call_for c err1 level1 d) = Ok f1 -> frame_of e p (call_for c err2 level2 d) = Ok f2 -> frame_le f2 f1) ->
  compress_data e p data c err1 level1 = Ok bytes1 -> compress_data e p data c err2 level2 = Ok bytes2 -> (length bytes2 <= length bytes1)%nat.
Proof.
  intros HF C1 C2. destruct (compress_data_calls e p data c err1 level1) as (sizes & Hs & E1). destruct (compress_data_calls e p data c err2 level2) as (sizes' & Hs' & E2).
  rewrite Hs in Hs'. apply ok_inj in Hs'. subst sizes'. rewrite E1 in C1. rewrite E2 in C2. clear E1 E2.
  destruct (add_all e p (map (call_for c err1 level1) _)) as [s1|] eqn:A1; [|discriminate C1]. destruct (add_all e p (map (call_for c err2 level2) _)) as [s2|] eqn:A2; [|discriminate C2].
  cbn [bind] in C1, C2. apply ok_inj in C1, C2. subst bytes1 bytes2. apply C04_frame_counter in A1, A2. destruct A1 as (A1 & _ & _). destruct A2 as (A2 & _ & _).
  destruct (cut_facts (clean_data data) sizes Hs) as (Hc & Hall & _).
  assert (Hin : forall d, In d (cut (clean_data data) sizes) -> d <> [] /\ Z.of_nat (length d) <= 131072 /\ incl d (clean_data data)).
  { intros d Hd. rewrite Forall_forall in Hall. destruct (Hall d Hd). split; [assumption|]. split; [assumption|]. intros x Hx. rewrite <- Hc. apply in_concat. eauto. }
  assert (G : Forall2 frame_le (s_frames s2) (s_frames s1)).
  { clear Hc Hall Hs. revert A1 A2 Hin. generalize (s_frames s1) (s_frames s2). induction (cut (clean_data data) sizes) as [|d l IH]; cbn [map]; intros f1 f2 A1 A2 Hin.
    - inversion A1. inversion A2. constructor.
    - inversion A1 as [|? x ? fx Hx Hfx]; subst. inversion A2 as [|? y ? fy Hy Hfy]; subst. constructor.
      + destruct (Hin d (or_introl eq_refl)) as (Q1 & Q2 & Q3). now apply (HF d).
      + apply IH; auto. intros d' Hd'. apply Hin. now right. }
  destruct (frames_le _ _ G) as [L1 L2]. unfold stream_to_bytes, header_bytes, enc_vec. rewrite !app_length, !le_length, L1. cbn [length]. lia.
Qed.

Lemma bounded_samples e p c d me f : frame_compress_bounded e p c d me = Ok f -> fr_size f = CLOSED_SIZE /\ fr_samples f = Z.of_nat (length d) /\ compress_bounded e p c d (f32_as_f64 me) = Ok (fr_data f).
Proof. unfold frame_compress_bounded. destruct (compress_bounded e p c d (f32_as_f64 me)) as [b|]; [|discriminate]. cbn [bind]. intros H. apply ok_inj in H. subst f. split; [|split]; reflexivity. Qed.
Lemma bounded_results e p c d b bytes : compress_bounded e p c d b = Ok bytes -> exists r, compress_results e p c d b = Ok r /\ cr_data r = bytes.
Proof.
  unfold compress_bounded, compress_results. destruct (data_stats d) as [st|]; [|discriminate]. cbn [bind]. destruct c; intros H; try discriminate H; try (apply ok_inj in H; subst; eexists; split; [reflexivity|reflexivity]).
  - destruct (fft_compressor _ d b st) as [r|]; [|discriminate H]. apply ok_inj in H. eauto.
  - destruct (polynomial_allowed_error _ p d b PIdw) as [r|]; [|discriminate H]. apply ok_inj in H. eauto.
  - destruct (polynomial_allowed_error _ p d b PPolynomial) as [r|]; [|discriminate H]. apply ok_inj in H. eauto.
Qed.

(** The allowed errors of the command line, in percent. *)
Lemma cli_bounds err1 err2 : 0 <= err1 <= err2 -> err2 <= 50 ->
  let b k := f32_as_f64 (cli_error k) in finite (b err1) /\ finite (b err2) /\ (0 <= R64 (b err1) <= R64 (b err2))%R /\ (R64 (b err2) <= 1)%R.
Proof.
  intros H1 H2. cbv zeta.
  assert (G : forallb (fun i => fis_finite (f32_as_f64 (cli_error (Z.of_nat i))) && fle f0 (f32_as_f64 (cli_error (Z.of_nat i))) && fle (f32_as_f64 (cli_error (Z.of_nat i))) f1 &&
     forallb (fun j => fle (f32_as_f64 (cli_error (Z.of_nat i))) (f32_as_f64 (cli_error (Z.of_nat j)))) (seq i (51 - i))) (seq 0 51) = true) by (vm_compute; reflexivity).
  rewrite forallb_forall in G. assert (G1 := G (Z.to_nat err1) ltac:(apply in_seq; lia)). assert (G2 := G (Z.to_nat err2) ltac:(apply in_seq; lia)). clear G.
  rewrite !andb_true_iff in G1, G2. destruct G1 as (((A1 & A2) & A3) & A4). destruct G2 as (((B1 & B2) & B3) & _).
  rewrite forallb_forall in A4. specialize (A4 (Z.to_nat err2) ltac:(apply in_seq; lia)). rewrite !Z2Nat.id in * by lia.
  assert (Z0 := f0_R). assert (O1 := f1_R). 
  split; [exact A1|]. split; [exact B1|]. apply fle_R in A2, A4, B3; try assumption; try reflexivity. lra.
Qed.

Theorem C68_fft_file : forall e p data err1 err2 level1 level2 bytes1 bytes2, 0 <= err1 <= err2 -> err2 <= 50 ->
  compress_data e p data FFT err1 level1 = Ok bytes1 -> compress_data e p data FFT err2 level2 = Ok bytes2 ->
  (length bytes2 <= length bytes1)%nat.
Proof.
  intros e p data err1 err2 level1 level2 bytes1 bytes2 H1 H2. apply file_le. intros d f1 f2 _ _ _ Q1 Q2. unfold call_for in Q1, Q2. cbn [is_bounded frame_of] in Q1, Q2.
  apply bounded_samples in Q1, Q2. destruct Q1 as (A1 & A2 & A3). destruct Q2 as (B1 & B2 & B3).
  destruct (bounded_results e p _ _ _ _ A3) as (r1 & R1 & E1). destruct (bounded_results e p _ _ _ _ B3) as (r2 & R2 & E2).
  destruct (cli_bounds err1 err2 H1 H2) as (F1 & F2 & L & U). destruct (C68_fft_payload e p d _ _ r1 r2 F1 F2 L U R1 R2) as [K _]. split; [congruence|]. split; [congruence|]. rewrite <- E1, <- E2. exact K.
Qed.
Print Assumptions C68_fft_file.

(** The lossless choices ignore the allowed error and the selection level. *)
Theorem C68_lossless_ignore_options : forall e p data c err1 err2 level1 level2, c = Noop \/ c = Constant \/ c = RLE ->
  compress_data e p data c err1 level1 = compress_data e p data c err2 level2.
Proof. intros e p data c err1 err2 level1 level2 H. unfold compress_data. destruct H as [->|[->| ->]]; reflexivity. Qed.
Print Assumptions C68_lossless_ignore_options.

(** * The polynomial and IDW loop *)
Lemma hint_antitone data a b : 1 <= a <= b -> hint_step data b <= hint_step data a.
Proof. intros H. unfold hint_step. assert (Z.of_nat (length data) / b <= Z.of_nat (length data) / a) by (apply Z.div_le_compat_l; lia). lia. Qed.
Lemma baseline_pos n : 3 <= baseline_points n.
Proof. unfold baseline_points. destruct (n / 100 <=? 3) eqn:E; lia. Qed.

Section Loop.
Variable idw : list f64 -> list f64 -> f64 -> f64.
Variable p : profile.
Variable data : list f64.
Variable c0 : poly.
Hypothesis Hm : feq (pl_max c0) (pl_min c0) = false.
Hypothesis Hn : 1 <= len data <= 2 ^ 53.

Lemma full_step c s : holds data c0 c s -> exists c2, compress_hinted c data (Z.of_nat (length data)) = Ok c2 /\ holds data c0 c2 1.
Proof.
  intros Hh. assert (Hm1 : feq (pl_max c) (pl_min c) = false) by (destruct Hh as [_ ->]; exact Hm).
  rewrite (compress_hinted_ok c data _ Hm1 Hn) by (unfold len in Hn; lia). eexists. split; [reflexivity|]. split; [lia|].
  unfold hint_step. fold (len data). rewrite Z.div_same by (unfold len in *; lia). change (Z.max 1 1) with 1. destruct Hh as [_ ->]. reflexivity.
Qed.
Definition started (c : poly) : Prop := c = c0 \/ exists s, holds data c0 c s.
Lemma round_step c jump : started c -> 0 <= jump -> exists c1, compress_hinted c data (baseline_points (Z.of_nat (length data)) + jump) = Ok c1 /\
  holds data c0 c1 (hint_step data (baseline_points (len data) + jump)).
Proof. intros Hc Hj. apply hinted_holds; auto. fold (len data). lia. Qed.
Lemma inc_pos it n inc : jump_increment it n = Some inc -> 1 <= inc.
Proof. unfold jump_increment. destruct (it <=? 17); [intros H; injection H as <-; lia|]. destruct (it <=? 22); [intros H; injection H as <-; lia|discriminate]. Qed.

Lemma poly_from target : forall fuel it c err jump c' err', started c -> 0 <= jump ->
  bounded_loop idw p fuel data target c err jump it = Ok (c', err') ->
  c' = c \/ exists s, holds data c0 c' s /\ s <= hint_step data (baseline_points (len data) + jump).
Proof.
  induction fuel as [|fuel IH]; intros it c err jump c' err' Hc Hj H; cbn [bounded_loop] in H; (destruct (negb _); [apply ok_inj in H; left; congruence|]); [discriminate H|].
  cbv zeta in H. right. destruct (round_step c jump Hc Hj) as (c1 & E1 & H1). rewrite E1 in H. cbn [bind] in H.
  assert (B := baseline_pos (len data)).
  destruct (method_to_data idw p c1 (length data)) as [out|]; [|discriminate H]. cbn [bind] in H. destruct (calculate_error data out) as [er|]; [|discriminate H]. cbn [bind] in H.
  destruct (jump_increment (it + 1) (Z.of_nat (length data))) as [inc|] eqn:J.
  - apply inc_pos in J. destruct (_ =? _)%nat.
    + apply ok_inj in H. assert (c' = c1) as -> by congruence. eexists. split; [exact H1|lia].
    + assert (Hj' : 0 <= jump + inc) by lia. destruct (IH _ _ _ _ _ _ (or_intror (ex_intro _ _ H1)) Hj' H) as [->|(s & Hs & L)]; [eexists; split; [exact H1|lia]|].
      exists s. split; [exact Hs|]. etransitivity; [exact L|]. apply hint_antitone. lia.
  - destruct (fgt _ _).
    + apply ok_inj in H. assert (c' = c1) as -> by congruence. eexists. split; [exact H1|lia].
    + destruct (full_step c1 _ H1) as (c2 & E2 & H2). rewrite E2 in H. cbn [bind] in H. apply ok_inj in H. assert (c' = c2) as -> by congruence. exists 1. split; [exact H2|]. unfold hint_step. lia.
Qed.

Definition coarser (c1 c2 : poly) : Prop := exists s1 s2, holds data c0 c1 s1 /\ holds data c0 c2 s2 /\ s1 <= s2.

Lemma poly_round t1 t2 : (forall x, flt t2 x = true -> flt t1 x = true) -> (forall x, fgt t1 x = true -> fgt t2 x = true) ->
  forall fuel, (forall it c err jump c1 e1 c2 e2 s, holds data c0 c s -> hint_step data (baseline_points (len data) + jump) <= s -> 0 <= jump ->
    bounded_loop idw p fuel data t1 c err jump it = Ok (c1, e1) -> bounded_loop idw p fuel data t2 c err jump it = Ok (c2, e2) -> coarser c1 c2) ->
  forall it c err1 err2 jump c1 e1 c2 e2, started c -> 0 <= jump -> flt t1 (round_f64 err1 4) = true -> flt t2 (round_f64 err2 4) = true ->
    bounded_loop idw p (S fuel) data t1 c err1 jump it = Ok (c1, e1) -> bounded_loop idw p (S fuel) data t2 c err2 jump it = Ok (c2, e2) -> coarser c1 c2.
Proof.
  intros Ht Hg fuel IH it c err1 err2 jump c1 e1 c2 e2 Hc Hj G1 G2 H1 H2. cbn [bounded_loop] in H1, H2. rewrite G1 in H1. rewrite G2 in H2. cbn [negb] in H1, H2. cbv zeta in H1, H2.
  destruct (round_step c jump Hc Hj) as (d & E & Hd). rewrite E in H1, H2. cbn [bind] in H1, H2. assert (B := baseline_pos (len data)).
  destruct (method_to_data idw p d (length data)) as [out|]; [|discriminate H1]. cbn [bind] in H1, H2. destruct (calculate_error data out) as [er|]; [|discriminate H1]. cbn [bind] in H1, H2.
  assert (Same : forall x, holds data c0 x (hint_step data (baseline_points (len data) + jump)) -> coarser x x) by (intros x Hx; eexists _, _; split; [exact Hx|split; [exact Hx|lia]]).
  destruct (jump_increment (it + 1) (Z.of_nat (length data))) as [inc|] eqn:J.
  - apply inc_pos in J. destruct (_ =? _)%nat.
    + apply ok_inj in H1, H2. assert (c1 = d) as -> by congruence. assert (c2 = d) as -> by congruence. now apply Same.
    + refine (IH _ _ _ _ _ _ _ _ _ Hd _ _ H1 H2); [|lia]. apply hint_antitone. lia.
  - destruct (full_step d _ Hd) as (full & Ef & Hf). rewrite Ef in H1, H2. cbn [bind] in H1, H2.
    destruct (fgt t1 (round_f64 er 4)) eqn:F1.
    + rewrite (Hg _ F1) in H2. apply ok_inj in H1, H2. assert (c1 = d) as -> by congruence. assert (c2 = d) as -> by congruence. now apply Same.
    + apply ok_inj in H1. assert (c1 = full) as -> by congruence. destruct (fgt t2 (round_f64 er 4)); apply ok_inj in H2.
      * assert (c2 = d) as -> by congruence. exists 1, (hint_step data (baseline_points (len data) + jump)). split; [exact Hf|]. split; [exact Hd|]. unfold hint_step. lia.
      * assert (c2 = full) as -> by congruence. exists 1, 1. split; [exact Hf|]. split; [exact Hf|lia].
Qed.
Lemma poly_pair t1 t2 : (forall x, flt t2 x = true -> flt t1 x = true) -> (forall x, fgt t1 x = true -> fgt t2 x = true) ->
  forall fuel it c err jump c1 e1 c2 e2 s, holds data c0 c s -> hint_step data (baseline_points (len data) + jump) <= s -> 0 <= jump ->
    bounded_loop idw p fuel data t1 c err jump it = Ok (c1, e1) -> bounded_loop idw p fuel data t2 c err jump it = Ok (c2, e2) -> coarser c1 c2.
Proof.
  intros Ht Hg. induction fuel as [|fuel IH]; intros it c err jump c1 e1 c2 e2 s Hc Hs Hj H1 H2.
  - cbn [bounded_loop] in H1, H2. destruct (negb _) in H1; [|discriminate H1]. destruct (negb _) in H2; [|discriminate H2]. apply ok_inj in H1, H2. assert (c1 = c) as -> by congruence. assert (c2 = c) as -> by congruence.
    exists s, s. split; [exact Hc|]. split; [exact Hc|lia].
  - destruct (flt t2 (round_f64 err 4)) eqn:G2.
    + apply (poly_round t1 t2 Ht Hg fuel IH it c err err jump c1 e1 c2 e2); auto. right. eauto.
    + cbn [bounded_loop] in H2. rewrite G2 in H2. cbn [negb] in H2. apply ok_inj in H2. assert (c2 = c) as -> by congruence.
      destruct (poly_from t1 _ _ _ _ _ _ _ (or_intror (ex_intro _ s Hc)) Hj H1) as [->|(s1 & H & L)].
      * exists s, s. split; [exact Hc|]. split; [exact Hc|lia].
      * exists s1, s. split; [exact H|]. split; [exact Hc|lia].
Qed.
End Loop.

Lemma flt_weaken a b x : finite a -> finite b -> (R64 a <= R64 b)%R -> flt b x = true -> flt a x = true.
Proof.
  intros Fa Fb H L. destruct (fis_finite x) eqn:Fx.
  - apply flt_R in L; [|assumption..]. apply flt_R; [assumption..|lra].
  - destruct x as [s|s|s pl E|s m e E]; try discriminate Fx.
    + destruct s; [destruct b as [s|s|s pl E|s m e E]; try discriminate Fb; discriminate L|]. now apply flt_inf.
    + destruct b as [s'|s'|s' pl' E'|s' m' e' E']; try discriminate Fb; discriminate L.
Qed.
Lemma fgt_weaken a b x : finite a -> finite b -> (R64 a <= R64 b)%R -> fgt a x = true -> fgt b x = true.
Proof.
  assert (S : forall y, fgt y x = true <-> flt x y = true).
  { intros y. unfold fgt, flt, fcmp, b64_compare. rewrite (Binary.Bcompare_swap 53 1024 x y). destruct (Binary.Bcompare 53 1024 x y) as [[]|]; cbn; intuition congruence. }
  intros Fa Fb H G. apply S. apply S in G. destruct (fis_finite x) eqn:Fx.
  - apply flt_R in G; [|assumption..]. apply flt_R; [assumption..|lra].
  - destruct x as [s|s|s pl E|s m e E]; try discriminate Fx.
    + destruct s; [destruct b as [s|s|s pl E|s m e E]; try discriminate Fb; reflexivity|]. destruct a as [s|s|s pl E|s m e E]; try discriminate Fa; discriminate G.
    + destruct a as [s'|s'|s' pl' E'|s' m' e' E']; try discriminate Fa; discriminate G.
Qed.
Lemma target_mono a b : finite a -> finite b -> (0 <= R64 a <= R64 b)%R -> (R64 b <= bpow radix2 29)%R ->
  finite (round_f64 a 3) /\ finite (round_f64 b 3) /\ (R64 (round_f64 a 3) <= R64 (round_f64 b 3))%R.
Proof.
  intros Fa Fb H U. assert (Ba : bnd 29 a) by (split; [exact Fa|rewrite Rabs_right; lra]). assert (Bb : bnd 29 b) by (split; [exact Fb|rewrite Rabs_right; lra]).
  destruct (round_f64_R 29 a 3 ltac:(lia) ltac:(lia) Ba) as (F3 & R3 & _). destruct (round_f64_R 29 b 3 ltac:(lia) ltac:(lia) Bb) as (F4 & R4 & _).
  split; [exact F3|]. split; [exact F4|]. rewrite R3, R4. apply rd_le; [lia|lra].
Qed.

Lemma poly_coarser idw p c0 data b1 b2 c1 c2 : feq (pl_max c0) (pl_min c0) = false -> 1 <= len data <= 2 ^ 53 ->
  finite b1 -> finite b2 -> (0 <= R64 b1 <= R64 b2)%R -> (R64 b2 <= bpow radix2 29)%R ->
  poly_compress_bounded idw p c0 data b1 = Ok c1 -> poly_compress_bounded idw p c0 data b2 = Ok c2 ->
  exists d1 d2 e1 e2, c1 = set_error d1 e1 /\ c2 = set_error d2 e2 /\ coarser data c0 d1 d2.
Proof.
  intros Hm Hn F1 F2 H U C1 C2. unfold poly_compress_bounded in C1, C2. rewrite Hm in C1, C2. cbv zeta in C1, C2.
  destruct (bounded_loop idw p 24 data (round_f64 b1 3) c0 (fadd b1 f1) 0 0) as [[d1 e1]|] eqn:L1; [|discriminate C1].
  destruct (bounded_loop idw p 24 data (round_f64 b2 3) c0 (fadd b2 f1) 0 0) as [[d2 e2]|] eqn:L2; [|discriminate C2].
  cbn [bind] in C1, C2. apply ok_inj in C1, C2. exists d1, d2, e1, e2. split; [symmetry; exact C1|]. split; [symmetry; exact C2|].
  destruct (target_mono b1 b2 F1 F2 H U) as (T1 & T2 & T). change 24%nat with (S 23) in L1, L2. remember 23%nat as fuel eqn:Hfuel in *. clear Hfuel.
  assert (W1 : forall x, flt (round_f64 b2 3) x = true -> flt (round_f64 b1 3) x = true) by (intros x; now apply flt_weaken).
  assert (W2 : forall x, fgt (round_f64 b1 3) x = true -> fgt (round_f64 b2 3) x = true) by (intros x; now apply fgt_weaken).
  refine (poly_round idw p data c0 Hm Hn _ _ W1 W2 fuel (poly_pair idw p data c0 Hm Hn _ _ W1 W2 fuel) 0 c0 _ _ 0 d1 e1 d2 e2 (or_introl eq_refl) ltac:(lia) _ _ L1 L2); apply usable_bound; auto; lra.
Qed.

Lemma grid_antitone n a b : 1 <= n -> 1 <= a <= b -> (length (grid n b) <= length (grid n a))%nat.
Proof.
  intros Hn H. assert (L : forall s, 1 <= s -> Z.of_nat (length (grid n s)) = (n - 1 + s - 1) / s + 1).
  { intros s Hs. unfold grid. rewrite app_length. unfold step_range. rewrite map_length, seq_length. destruct ((n - 1) mod s =? 0) eqn:E; cbn [length];
      (assert (0 <= (n + s - 1) / s) by (apply Z.div_pos; lia)); rewrite Nat2Z.inj_add, Z2Nat.id by assumption; cbn [Z.of_nat];
      assert (D := Z.div_mod (n - 1) s ltac:(lia)); set (q := (n - 1) / s) in *.
    - replace ((n + s - 1) / s) with (q + 1) by (apply (Z.div_unique (n + s - 1) s (q + 1) 0); lia). replace ((n - 1 + s - 1) / s) with q by (apply (Z.div_unique _ s q (s - 1)); lia). lia.
    - assert (M := Z.mod_pos_bound (n - 1) s ltac:(lia)). replace ((n + s - 1) / s) with (q + 1) by (apply (Z.div_unique (n + s - 1) s (q + 1) ((n - 1) mod s)); lia).
      replace ((n - 1 + s - 1) / s) with (q + 1) by (apply (Z.div_unique _ s (q + 1) ((n - 1) mod s - 1)); lia). lia. }
  assert (La := L a ltac:(lia)). assert (Lb := L b ltac:(lia)).
  assert ((n - 1 + b - 1) / b <= (n - 1 + a - 1) / a); [|lia].
  (* ceil((n-1)/b) <= ceil((n-1)/a) *)
  apply Z.lt_succ_r. apply Z.div_lt_upper_bound; [lia|]. assert (D := Z.div_mod (n - 1 + a - 1) a ltac:(lia)). assert (M := Z.mod_pos_bound (n - 1 + a - 1) a ltac:(lia)).
  set (q := (n - 1 + a - 1) / a) in *. assert (0 <= q) by (apply Z.div_pos; lia). assert (a * q <= b * q) by (apply Z.mul_le_mono_nonneg_r; lia). unfold Z.succ. rewrite Z.mul_add_distr_l. lia.
Qed.

Definition coarser_bytes (st : stats) (t : ptype) (data : list f64) (bytes1 bytes2 : list Z) : Prop :=
  (bytes1 = bytes2 /\ bytes1 = enc_poly (frame0 st t)) \/ exists d1 d2, bytes1 = enc_poly d1 /\ bytes2 = enc_poly d2 /\ coarser data (frame0 st t) d1 d2.
Lemma allowed_coarser idw p t data b1 b2 r1 r2 st : data_stats data = Ok st -> data <> [] -> Z.of_nat (length data) <= 2 ^ 53 -> finite b1 -> finite b2 -> (0 <= R64 b1 <= R64 b2)%R -> (R64 b2 <= bpow radix2 29)%R ->
  polynomial_allowed_error idw p data b1 t = Ok r1 -> polynomial_allowed_error idw p data b2 t = Ok r2 -> coarser_bytes st t data (cr_data r1) (cr_data r2).
Proof.
  intros Hst Hne Hl F1 F2 H U C1 C2. assert (Hn : 1 <= len data <= 2 ^ 53) by (unfold len; destruct data; [congruence|cbn [length] in *; lia]).
  unfold polynomial_allowed_error in C1, C2. rewrite Hst in C1, C2. cbn [bind] in C1, C2. change (poly_new (st_min st) (st_max st) t (st_bitdepth st)) with (frame0 st t) in *.
  destruct (poly_compress_bounded idw p (frame0 st t) data b1) as [c1|] eqn:E1; [|discriminate C1]. destruct (poly_compress_bounded idw p (frame0 st t) data b2) as [c2|] eqn:E2; [|discriminate C2].
  cbn [bind] in C1, C2. apply ok_inj in C1, C2. subst r1 r2. cbn [cr_data]. destruct (feq (pl_max (frame0 st t)) (pl_min (frame0 st t))) eqn:Hm.
  - left. unfold poly_compress_bounded in E1, E2. rewrite Hm in E1, E2. apply ok_inj in E1, E2. subst. split; reflexivity.
  - right. destruct (poly_coarser idw p (frame0 st t) data b1 b2 c1 c2 Hm Hn F1 F2 H U E1 E2) as (d1 & d2 & e1 & e2 & -> & -> & K). exists d1, d2. rewrite !enc_set_error. auto.
Qed.
Lemma coarser_points data c0 d1 d2 : 1 <= len data -> coarser data c0 d1 d2 -> (length (pl_points d2) <= length (pl_points d1))%nat.
Proof.
  intros Hn (s1 & s2 & [R1 ->] & [R2 ->] & L). cbn [with_points pl_points]. unfold pick. rewrite !map_length. apply grid_antitone; [exact Hn|lia].
Qed.

Definition method_of (c : compressor) (t : ptype) : Prop := (c = Polynomial /\ t = PPolynomial) \/ (c = Idw /\ t = PIdw).
Lemma results_coarser e p c t data b1 b2 r1 r2 : method_of c t ->
  data <> [] -> Z.of_nat (length data) <= 2 ^ 53 -> finite b1 -> finite b2 -> (0 <= R64 b1 <= R64 b2)%R -> (R64 b2 <= bpow radix2 29)%R ->
  compress_results e p c data b1 = Ok r1 -> compress_results e p c data b2 = Ok r2 -> exists st, data_stats data = Ok st /\ coarser_bytes st t data (cr_data r1) (cr_data r2).
Proof.
  intros Hc Hne Hl F1 F2 H U C1 C2. destruct (data_stats_total data Hne) as [st Hst]. exists st. split; [exact Hst|].
  unfold compress_results in C1, C2. rewrite Hst in C1, C2. cbn [bind] in C1, C2. destruct Hc as [[-> ->]|[-> ->]]; exact (allowed_coarser _ _ _ _ _ _ _ _ _ Hst Hne Hl F1 F2 H U C1 C2).
Qed.

(** A polynomial or IDW frame never stores more points for a larger allowed error. *)
Theorem C68_stored_points : forall e p c data b1 b2 r1 r2, c = Polynomial \/ c = Idw ->
  data <> [] -> Z.of_nat (length data) <= 2 ^ 53 -> finite b1 -> finite b2 -> (0 <= R64 b1 <= R64 b2)%R -> (R64 b2 <= bpow radix2 29)%R ->
  compress_results e p c data b1 = Ok r1 -> compress_results e p c data b2 = Ok r2 ->
  exists f1 f2, decode_unwrap dec_poly (cr_data r1) = Ok f1 /\ decode_unwrap dec_poly (cr_data r2) = Ok f2 /\ (length (pl_points f2) <= length (pl_points f1))%nat.
Proof.
  intros e p c data b1 b2 r1 r2 Hc Hne Hl F1 F2 H U C1 C2. assert (exists t, method_of c t) as [t Ht] by (destruct Hc as [->| ->]; [exists PPolynomial; now left|exists PIdw; now right]).
  assert (Hn : 1 <= len data <= 2 ^ 53) by (unfold len; destruct data; [congruence|cbn [length] in *; lia]).
  destruct (results_coarser e p c t data b1 b2 r1 r2 Ht Hne Hl F1 F2 H U C1 C2) as (st & _ & [(E1 & E2)|(d1 & d2 & E1 & E2 & K)]).
  - rewrite E1 in E2. exists (frame0 st t), (frame0 st t). rewrite E1, E2. split; [apply decode_frame0|]. split; [apply decode_frame0|lia].
  - exists (conv_poly d1), (conv_poly d2). rewrite E1, E2. assert (K' := coarser_points data _ d1 d2 ltac:(lia) K). destruct K as (s1 & s2 & H1 & H2 & _).
    split; [exact (decode_holds data _ d1 s1 Hn H1)|]. split; [exact (decode_holds data _ d2 s2 Hn H2)|]. unfold conv_poly. cbn [pl_points]. rewrite !map_length. exact K'.
Qed.
Print Assumptions C68_stored_points.

(** Samples that all take the same number of bytes: integers from 0 to 255, or a series with a sample that is no integer. *)
Definition one_width (data : list f64) : Prop :=
  Forall (fun x => exists z, is_int x z /\ 0 <= z <= 255) data \/ (Forall supported data /\ Exists (fun x => forall z, ~ is_int x z) data).
Lemma byte_supported x z : is_int x z -> 0 <= z <= 255 -> supported x.
Proof.
  intros [F R] Hz. split; [exact F|]. rewrite R. split.
  - destruct (Z.eq_dec z 0) as [->|Hz0]; [now left|right]. rewrite Rabs_right by (apply Rle_ge, (IZR_le 0); lia). apply Rle_trans with 1%R; [exact (bpow_le radix2 (-64) 0 ltac:(lia))|apply (IZR_le 1); lia].
  - split; [apply IZR_le; lia|apply IZR_lt; lia].
Qed.
Lemma width_of data st : one_width data -> data_stats data = Ok st -> st_bitdepth st = BU8 \/ st_bitdepth st = BF64.
Proof.
  intros [H|[Hs H]] Hst.
  - left. assert (Hs : Forall supported data) by (eapply Forall_impl; [|exact H]; intros x (z & Hz & R); now apply (byte_supported x z)).
    apply (C08_width_smallest data st Hs Hst); (eapply Forall_impl; [|exact H]); intros x (z & Hz & R); exists z; (split; [exact Hz|]); [lia|unfold fits; lia].
  - right. now apply (C08_fractional_forces_f64 data st Hs Hst).
Qed.
Lemma sample_width b x : (b = BU8 -> length (enc_sample b x) = 1%nat) /\ (b = BF64 -> length (enc_sample b x) = 8%nat).
Proof. split; intros ->; [reflexivity|]. cbn [enc_sample]. unfold enc_f64. apply le_length. Qed.
Lemma coarser_length st t data b1 b2 : 1 <= len data -> st_bitdepth st = BU8 \/ st_bitdepth st = BF64 -> coarser_bytes st t data b1 b2 -> (length b2 <= length b1)%nat.
Proof.
  intros Hn Hw [(-> & _)|(d1 & d2 & -> & -> & K)]; [lia|]. assert (P := coarser_points _ _ _ _ Hn K). destruct K as (s1 & s2 & [_ ->] & [_ ->] & _).
  unfold enc_poly. cbn [with_points pl_id pl_bitdepth pl_points pl_min pl_max pl_step frame0 poly_new] in *. rewrite !app_length.
  set (q1 := pick data (grid (len data) s1)) in *. set (q2 := pick data (grid (len data) s2)) in *.
  assert (length (enc_vec (enc_sample (st_bitdepth st)) q2) <= length (enc_vec (enc_sample (st_bitdepth st)) q1))%nat.
  { destruct Hw as [Hw|Hw]; [apply (vec_fixed _ 1)|apply (vec_fixed _ 8)]; auto; intros x; now apply sample_width. }
  cbn [length enc_u8]. lia.
Qed.

(** If all samples take the same number of bytes its payload is never longer for a larger allowed error. *)
Theorem C68_payload : forall e p c data b1 b2 r1 r2, c = Polynomial \/ c = Idw -> one_width data ->
  data <> [] -> Z.of_nat (length data) <= 2 ^ 53 -> finite b1 -> finite b2 -> (0 <= R64 b1 <= R64 b2)%R -> (R64 b2 <= bpow radix2 29)%R ->
  compress_results e p c data b1 = Ok r1 -> compress_results e p c data b2 = Ok r2 -> (length (cr_data r2) <= length (cr_data r1))%nat.
Proof.
  intros e p c data b1 b2 r1 r2 Hc Hw Hne Hl F1 F2 H U C1 C2. assert (exists t, method_of c t) as [t Ht] by (destruct Hc as [->| ->]; [exists PPolynomial; now left|exists PIdw; now right]).
  destruct (results_coarser e p c t data b1 b2 r1 r2 Ht Hne Hl F1 F2 H U C1 C2) as (st & Hst & K). apply (coarser_length st t data); [|now apply (width_of data)|exact K].
  unfold len. destruct data; [congruence|cbn [length]; lia].
Qed.
Print Assumptions C68_payload.

(** Files: all (finite) samples integers from 0 to 255, or none of them an integer. *)
Theorem C68_file : forall e p c data err1 err2 level1 level2 bytes1 bytes2, c = Polynomial \/ c = Idw ->
  (forall x, In x data -> finite x -> exists z, is_int x z /\ 0 <= z <= 255) \/ (forall x, In x data -> finite x -> supported x /\ forall z, ~ is_int x z) ->
  0 <= err1 <= err2 -> err2 <= 50 ->
  compress_data e p data c err1 level1 = Ok bytes1 -> compress_data e p data c err2 level2 = Ok bytes2 -> (length bytes2 <= length bytes1)%nat.
Proof.
  intros e p c data err1 err2 level1 level2 bytes1 bytes2 Hc Hd H1 H2. apply file_le. intros d f1 f2 Hne Hin Hl Q1 Q2.
  assert (Hw : one_width d).
  { assert (I : forall x, In x d -> In x data /\ finite x).
    { intros x Hx. apply Hin in Hx. split; [now apply clean_data_in in Hx|]. assert (CF := clean_data_finite data). rewrite Forall_forall in CF. now apply CF. }
    destruct Hd as [Hd|Hd]; [left; apply Forall_forall; intros x Hx; destruct (I x Hx); now apply Hd|]. right. split; [apply Forall_forall; intros x Hx; destruct (I x Hx); now apply Hd|].
    destruct d as [|x d]; [congruence|]. apply Exists_cons_hd. destruct (I x (or_introl eq_refl)). now apply Hd. }
  assert (B : is_bounded c = true) by (destruct Hc as [->| ->]; reflexivity). unfold call_for in Q1, Q2. rewrite B in Q1, Q2. cbn [frame_of] in Q1, Q2.
  assert (Q1' : frame_compress_bounded e p c d (cli_error err1) = Ok f1) by (destruct Hc as [->| ->]; exact Q1). assert (Q2' : frame_compress_bounded e p c d (cli_error err2) = Ok f2) by (destruct Hc as [->| ->]; exact Q2).
  apply bounded_samples in Q1', Q2'. destruct Q1' as (A1 & A2 & A3). destruct Q2' as (B1 & B2 & B3).
  destruct (bounded_results e p _ _ _ _ A3) as (r1 & R1 & E1). destruct (bounded_results e p _ _ _ _ B3) as (r2 & R2 & E2).
  destruct (cli_bounds err1 err2 H1 H2) as (F1 & F2 & L & U).
  assert (U' : (R64 (f32_as_f64 (cli_error err2)) <= bpow radix2 29)%R) by (apply Rle_trans with 1%R; [exact U|exact (bpow_le radix2 0 29 ltac:(lia))]).
  assert (K := C68_payload e p c d _ _ r1 r2 Hc Hw Hne ltac:(lia) F1 F2 L U' R1 R2). split; [congruence|]. split; [congruence|]. rewrite <- E1, <- E2. exact K.
Qed.
Print Assumptions C68_file.

(** Without that condition it fails: nine negative integers; allowing 6 percent gives a longer file than allowing 3 percent,
    because -126 takes three bytes and is stored on the coarser grid only. *)
Definition nine : list f64 := map int_as_f64 [-100; -101; -99; -126; -98; -97; -102; -96; -103].
Definition file_lengths (e : env) (p : profile) (data : list f64) (c : compressor) (errs : list Z) : list (res nat) :=
  map (fun k => do b <- compress_data e p data c k 0; Ok (length b)) errs.
Theorem C68_integers_refuted : forall e p, file_lengths e p nine Polynomial [3; 5; 10] = [Ok 45%nat; Ok 39%nat; Ok 40%nat].
Proof. intros e p. unfold file_lengths. destruct p; vm_compute; reflexivity. Qed.
Print Assumptions C68_integers_refuted.
Theorem C68_auto_refuted : exists e, env_ok e /\ forall p, file_lengths e p nine Auto [3; 5; 10] = [Ok 45%nat; Ok 39%nat; Ok 40%nat].
Proof. exists id_env. split; [exact id_env_ok|]. intros p. unfold file_lengths. destruct p; vm_compute; reflexivity. Qed.
Print Assumptions C68_auto_refuted.

(** Instances: a series of bytes and one without integers, whose files shrink; and a Fourier file. *)
Definition bytes_series : list f64 := map int_as_f64 [100; 101; 99; 126; 98; 97; 102; 96; 103].
Definition tenths_series : list f64 := repeat f_tenth 4 ++ repeat (fmul f_tenth (int_as_f64 4)) 5.
Lemma tenths_ok : forall x, In x tenths_series -> supported x /\ forall z, ~ is_int x z.
Proof.
  assert (F : forall x, supported x -> frac x = true -> supported x /\ forall z, ~ is_int x z).
  { intros x Hs Hf. split; [exact Hs|]. intros z Hz. assert (frac x = false) by (apply frac_supported; eauto). congruence. }
  intros x Hx. unfold tenths_series in Hx. apply in_app_or in Hx. destruct Hx as [Hx|Hx]; apply repeat_spec in Hx; subst x; apply F.
  - exact supported_tenth.
  - vm_compute. reflexivity.
  - replace (fmul f_tenth (int_as_f64 4)) with (B754_finite 53 1024 false 7205759403792794 (-54) eq_refl) by (apply to_bits_inj; vm_compute; reflexivity). apply supported_fin; lia.
  - vm_compute. reflexivity.
Qed.
Example C68_example : forall p,
  file_lengths fair_env p bytes_series FFT [5; 6] = [Ok 69%nat; Ok 51%nat] /\
  (forall x, In x bytes_series -> exists z, is_int x z /\ 0 <= z <= 255) /\ file_lengths fair_env p bytes_series Polynomial [3; 4; 8] = [Ok 43%nat; Ok 39%nat; Ok 38%nat] /\
  (forall x, In x tenths_series -> supported x /\ forall z, ~ is_int x z) /\ file_lengths fair_env p tenths_series Polynomial [3; 30] = [Ok 106%nat; Ok 66%nat].
Proof.
  intros p. unfold file_lengths. split; [destruct p; vm_compute; reflexivity|]. split.
  - intros x Hx. unfold bytes_series in Hx. apply in_map_iff in Hx. destruct Hx as (z & <- & Hz). assert (R : 0 <= z <= 255) by (cbn [In] in Hz; lia). exists z. split; [|exact R].
    destruct (int_as_f64_exact z ltac:(lia)). split; assumption.
  - split; [destruct p; vm_compute; reflexivity|]. split; [exact tenths_ok|]. destruct p; vm_compute; reflexivity.
Qed.
