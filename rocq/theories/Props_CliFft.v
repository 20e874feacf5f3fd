(** C59: the Fourier compressor on the command line, end to end. *)
From Coq Require Import List ZArith Bool Lia ZifyBool Reals Lra Sorted Permutation.
From Flocq Require Import Core IEEE754.BinarySingleNaN IEEE754.Binary IEEE754.Bits.
From Verif Require Import Base Model_Float Model_Bincode BincodeFacts Spec Spec_Metric FloatFacts Float32Facts ArithFacts RoundFacts Model_Utils UtilsFacts Model_Stats
  Model_Compressors Model_Polynomial Model_Fft Model_Stream StatsFacts CompressorFacts StreamFacts PlanFacts PolyFacts PolyLoopFacts PolyApiFacts FftFacts
  MetricFacts ExactFacts PipelineFacts AccuracyFacts Props_Stream Props_Lossless Props_Plan Props_Metric Props_Poly Props_Fft Props_Pipeline Props_Auto Props_ErrorZero
  Props_Accuracy.
Import ListNotations.
Open Scope Z_scope.

(** ** What is assumed of the transforms and the heap (third-party code) *)
(** A complex number whose parts are finite and at most [2^k]. *)
Definition bounded_by (k : Z) (c : c32) : Prop :=
  (fin32 (fst c) = true /\ (Rabs (R32 (fst c)) <= bpow radix2 k)%R) /\ (fin32 (snd c) = true /\ (Rabs (R32 (snd c)) <= bpow radix2 k)%R).

(** Transforms of moderate input do not overflow: a series of at most 2^18 numbers up to 2^63 has bins of at most 2^100
    (exactly: 2^82), and the inverse transform of bins of at most 2^100 is finite (exactly: at most 2^119). *)
Definition no_overflow (e : env) : Prop :=
  (forall l, Z.of_nat (length l) <= 2 ^ 18 -> Forall (bounded_by 63) l -> Forall (bounded_by 100) (fe_fft (e_fft e) l)) /\
  (forall l, Z.of_nat (length l) <= 2 ^ 18 -> Forall (bounded_by 100) l -> Forall (fun c => fin32 (fst c) = true) (fe_ifft (e_fft e) l)).

(** The heap hands out non-zero frequencies before zero ones (it compares norms). *)
Definition zeros_last (e : env) : Prop :=
  forall l, Forall (fun q => bounded_by 100 (value q)) l ->
    StronglySorted (fun x y => is_zero (value x) = true -> is_zero (value y) = true) (fe_pops (e_fft e) l).

(** ** What a user sees when the bound could not be met *)
(** The largest number of frequencies tried for a chunk of [n] samples: the 23rd attempt. *)
Definition most_frequencies (n : nat) : nat :=
  let m := Nat.max 3 (n / 100) in (m + 17 * Nat.max (m / 2) 1 + 5 * Nat.max (m / 10) 1)%nat.

(** [out] is decoded from a frame which holds as many frequencies as are ever tried, or all that are not zero. *)
Definition best_effort (e : env) (p : profile) (chunk out : list f64) : Prop :=
  exists bytes f d a b,
    decompress e p FFT (length chunk) bytes = Ok out /\ decode_unwrap dec_fft bytes = Ok f /\
    fft_padded chunk d a b /\ stored_bins (fe_fft (e_fft e) (as_signal d)) (ff_freqs f) /\
    (length (ff_freqs f) = most_frequencies (length chunk) \/
     forall g k, is_bin (fe_fft (e_fft e) (as_signal d)) g k -> is_zero (value g) = false -> In g (ff_freqs f)).

(** Every decoded sample is between the least and the greatest sample of the chunk, rounded to single precision. *)
Definition within_range (chunk out : list f64) : Prop :=
  forall mn mx, least_value chunk mn -> greatest_value chunk mx ->
    let single r := round radix2 (FLT_exp (-149) 24) ZnearestE r in
    Forall (fun y => finite y /\ (single mn <= R64 y <= single mx)%R) out.

(** ** Finite output *)
Lemma f32_zero_bounded k : fin32 f32_zero = true /\ (Rabs (R32 f32_zero) <= bpow radix2 k)%R.
Proof. change f32_zero with (B754_zero 24 128 false). split; [reflexivity|]. unfold R32. cbn [Binary.B2R]. rewrite Rabs_R0. apply bpow_ge_0. Qed.
Lemma positive_sign x : finite x -> (0 < R64 x)%R -> Binary.Bsign 53 1024 x = false.
Proof.
  intros Fx Hx. destruct x as [s|s|s pl H|s m e H]; try discriminate; [unfold R64 in Hx; cbn in Hx; lra|]. destruct s; [exfalso|reflexivity].
  unfold R64 in Hx. cbn [Binary.B2R] in Hx. unfold F2R in Hx. cbn [Fnum Fexp SpecFloat.cond_Zopp] in Hx.
  assert (P := bpow_gt_0 radix2 e). assert (N : (IZR (Z.neg m) < 0)%R) by (apply (IZR_lt _ 0); lia). cbn in Hx. nra.
Qed.
Lemma bounded_signal d : Forall (bnd 63) d -> Forall (bounded_by 63) (as_signal d).
Proof.
  intros H. unfold as_signal. apply Forall_map. eapply Forall_impl; [|exact H]. intros x [Fx Bx].
  assert (BB : (bpow radix2 63 <= bpow radix2 127)%R) by (apply bpow_le; lia).
  destruct (f64_as_f32_fin x Fx ltac:(lra)) as [F R]. split; cbn [fst snd].
  - split; [exact F|]. rewrite R. apply rnd32_bnd; [lia|exact Bx].
  - apply f32_zero_bounded.
Qed.

Lemma bounded_inv k q : bounded_by k (to_complex q) -> bounded_by k (to_inv_complex q).
Proof.
  intros [H1 [H2 H3]]. destruct (inv_conjugate q) as [E1 E2]. split; [rewrite E1; exact H1|].
  destruct E2 as [E2|[[_ E2]|E2]].
  - rewrite E2. split; [unfold fin32 in *; rewrite Binary.is_finite_Bopp; exact H2|]. unfold R32 in *. rewrite Binary.B2R_Bopp, Rabs_Ropp. exact H3.
  - rewrite E2. apply f32_zero_bounded.
  - exfalso. unfold fin32 in H2. clear -E2 H2. destruct (snd (to_complex q)); discriminate.
Qed.

Lemma set_nth_forall {A} (P : A -> Prop) i v : forall l l', P v -> Forall P l -> set_nth i v l = Ok l' -> Forall P l'.
Proof.
  intros l l' Hv Hl H. destruct (set_nth_length i v l l' H) as [_ Hi]. destruct (set_nth_ok i v l Hi) as (l2 & H2 & _ & Hn).
  rewrite H in H2. apply ok_inj in H2. subst l2. apply Forall_forall. intros x Hx. apply In_nth_error in Hx. destruct Hx as [k Hk].
  rewrite Hn in Hk. destruct (k =? i)%nat; [congruence|]. rewrite Forall_forall in Hl. apply Hl. eapply nth_error_In; eauto.
Qed.

Lemma mirrored_forall k c len spec : Forall (fun q => bounded_by k (value q)) (ff_freqs c) -> get_mirrored_freqs c len = Ok spec -> Forall (bounded_by k) spec.
Proof.
  unfold get_mirrored_freqs. intros Hq. assert (H0 : Forall (bounded_by k) (repeat (f32_zero, f32_zero) len)).
  { apply Forall_forall. intros x Hx. apply repeat_spec in Hx. subst x.
    split; apply f32_zero_bounded. }
  revert H0. generalize (repeat (f32_zero, f32_zero) len) as d0. induction Hq as [|q fs Hq _ IH]; intros d0 H0 H; cbn [fold_res] in H.
  - apply ok_inj in H. now subst.
  - unfold mirror_step at 1 in H. destruct (set_nth (Z.to_nat (fq_pos q)) (to_complex q) d0) as [d1|] eqn:E1; [|discriminate H]. cbn [bind] in H.
    assert (H1 := set_nth_forall (bounded_by k) _ _ _ _ Hq H0 E1).
    destruct (Z.to_nat (fq_pos q) =? 0)%nat; [cbn [bind] in H; exact (IH d1 H1 H)|].
    destruct (set_nth (len - Z.to_nat (fq_pos q)) (to_inv_complex q) d1) as [d2|] eqn:E2; [|discriminate H]. cbn [bind] in H.
    exact (IH d2 (set_nth_forall (bounded_by k) _ _ _ _ (bounded_inv k q Hq) H1 E2) H).
Qed.

Lemma f32_div_fin x n : fin32 x = true -> 1 <= n <= 2 ^ 18 -> fin32 (f32_div x (int_as_f32 n)) = true.
Proof.
  intros Fx Hn.
  pose proof (Binary.binary_normalize_correct 24 128 prec24_gt_0 prec24_lt_emax mode_NE n 0 false) as HN. cbn [round_mode] in HN.
  assert (EF : F2R (Float radix2 n 0) = IZR n) by (unfold F2R; cbn; ring). rewrite EF in HN.
  assert (B1 : (1 <= IZR n <= bpow radix2 18)%R).
  { split; [apply (IZR_le 1); lia|]. rewrite <- (IZR_Zpower radix2) by lia. apply IZR_le. change (radix2 ^ 18) with (2 ^ 18). lia. }
  assert (G1 : generic_format radix2 (SpecFloat.fexp 24 128) 1%R).
  { change 1%R with (bpow radix2 0). apply generic_format_bpow. unfold SpecFloat.fexp, SpecFloat.emin. lia. }
  assert (L1 : (1 <= round radix2 (SpecFloat.fexp 24 128) ZnearestE (IZR n))%R) by (apply round_ge_generic; [apply fexp32_valid|apply valid_rnd_N|exact G1|lra]).
  assert (U1 : (Rabs (round radix2 (SpecFloat.fexp 24 128) ZnearestE (IZR n)) <= bpow radix2 18)%R) by (apply rnd32_bnd; [lia|rewrite Rabs_right; lra]).
  rewrite Rlt_bool_true in HN by (eapply Rle_lt_trans; [exact U1|apply bpow_lt; lia]). destruct HN as (HR & HF & _).
  set (N := int_as_f32 n) in *.
  change (Binary.binary_normalize 24 128 prec24_gt_0 prec24_lt_emax mode_NE n 0 false) with N in HR, HF.
  assert (NZ : Binary.B2R 24 128 N <> 0%R) by (rewrite HR; lra).
  pose proof (Binary.Bdiv_correct 24 128 eq_refl eq_refl binop_nan_pl32 mode_NE x N NZ) as HD. cbn [round_mode] in HD.
  assert (BX : (Rabs (Binary.B2R 24 128 x / Binary.B2R 24 128 N) <= Rabs (Binary.B2R 24 128 x))%R).
  { unfold Rdiv. rewrite Rabs_mult, Rabs_inv. rewrite HR. rewrite (Rabs_right (round _ _ _ _)) by lra.
    rewrite <- (Rmult_1_r (Rabs (Binary.B2R 24 128 x))) at 2. apply Rmult_le_compat_l; [apply Rabs_pos|].
    rewrite <- Rinv_1. apply Rinv_le; lra. }
  rewrite Rlt_bool_true in HD.
  - unfold fin32, f32_div, b32_div. destruct HD as (_ & HD & _). rewrite HD. exact Fx.
  - eapply Rle_lt_trans; [|apply (Binary.abs_B2R_lt_emax 24 128 x)].
    apply abs_round_le_generic; [apply fexp32_valid|apply valid_rnd_N| |exact BX].
    apply generic_format_abs. apply Binary.generic_format_B2R.
Qed.

Lemma fft_round_finite c x : fin32 x = true -> fin32 (ff_max c) = true -> fin32 (ff_min c) = true -> finite (fft_round c x).
Proof.
  intros F32 Fx Fn. destruct (f32_as_f64_R x F32) as [F1 R1].
  assert (B : bnd 128 (f32_as_f64 x)).
  { split; [exact F1|]. rewrite R1. unfold R32. apply Rlt_le, (Binary.abs_B2R_lt_emax 24 128). }
  destruct (round_f64_R 128 (f32_as_f64 x) 5 ltac:(lia) ltac:(lia) B) as (Fr & _ & _).
  unfold fft_round. cbv zeta. change (fdiv (fround (fmul (f32_as_f64 x) (int_as_f64 (10 ^ 5)))) (int_as_f64 (10 ^ 5))) with (round_f64 (f32_as_f64 x) 5).
  destruct (fgt _ _); [apply (f32_as_f64_R _ Fx)|]. destruct (flt _ _); [apply (f32_as_f64_R _ Fn)|exact Fr].
Qed.

(** ** When the loop stops *)
Lemma permille_stop x b : nneg x -> fis_nan x = false -> finite b -> (0 <= R64 b <= 3)%R -> permille x <= permille b ->
  finite x /\ (R64 x <= R64 b + / 1000 + / 100000000)%R.
Proof.
  intros Nx NN Fb Rb H. destruct (int_as_f64_exact 1000 ltac:(lia)) as [R1000 F1000].
  assert (HB : permille b <= 3001).
  { unfold permille, f64_as_i32. destruct (fmul_R b (int_as_f64 1000) Fb F1000) as [RR FF].
    - apply (rnd_bnd 12); [lia|]. rewrite R1000, Rabs_right by lra. change (bpow radix2 12) with 4096%R. lra.
    - rewrite f64_as_int_R by (auto; lia). rewrite RR, R1000.
      destruct (rnd_rel (R64 b * 1000)) as (d & h & Hd & Hh & ->). assert (Q := u_small). apply Rabs_le_inv in Hd, Hh.
      assert (U : (u <= / 1000000)%R) by (apply Rle_trans with (bpow radix2 (-20)); [exact (bpow_le radix2 (-53) (-20) ltac:(lia))|cbn; lra]).
      assert (E : (eta <= / 1000000)%R) by (apply Rle_trans with (bpow radix2 (-20)); [exact (bpow_le radix2 (-1075) (-20) ltac:(lia))|cbn; lra]).
      set (v := (R64 b * 1000 * (1 + d) + h)%R).
      assert (V : (- / 1000000 <= v <= 3001)%R) by (unfold v; split; nra).
      assert (T : Ztrunc v <= 3001); [|lia].
      rewrite <- (Ztrunc_IZR 3001). apply Ztrunc_le. lra. }
  assert (Fx : finite x).
  { destruct (nneg_class x Nx) as [[X|X]|X]; [congruence| |exact X]. exfalso.
    assert (P : permille x = 2147483647) by (rewrite X; vm_compute; reflexivity). lia. }
  split; [exact Fx|]. assert (Rx := nneg_finite_R x Nx Fx).
  assert (FM : finite (fmul x (int_as_f64 1000))).
  { set (pb := permille b) in *. unfold permille, f64_as_i32 in H. pose proof (Binary.Bmult_correct 53 1024 eq_refl eq_refl binop_nan_pl64 mode_NE x (int_as_f64 1000)) as HP.
    destruct (Rlt_bool _ _).
    - destruct HP as (_ & HP & _). unfold finite, fis_finite, fmul, b64_mult. rewrite HP. unfold finite, fis_finite in Fx, F1000. rewrite Fx, F1000. reflexivity.
    - exfalso. unfold Binary.binary_overflow, binary_overflow in HP. cbn [BinarySingleNaN.overflow_to_inf] in HP.
      assert (Sx : Binary.Bsign 53 1024 x = false) by (destruct Nx; [congruence|assumption]).
      rewrite Sx in HP. replace (Binary.Bsign 53 1024 (int_as_f64 1000)) with false in HP by (vm_compute; reflexivity). cbn [xorb] in HP.
      unfold fmul, b64_mult in H. destruct (Binary.Bmult 53 1024 _ _ _ mode_NE x (int_as_f64 1000)) as [s|s|s pl Hpl|s m ex Hb]; cbn in HP; try discriminate HP.
      assert (s = false) as -> by congruence. cbn [f64_as_int] in H. lia. }
  assert (HX := fmul_fin_R x (int_as_f64 1000) Fx F1000 FM). rewrite R1000 in HX.
  unfold permille, f64_as_i32 in H, HB.
  rewrite f64_as_int_R in H by (auto; lia).
  destruct (fmul_R b (int_as_f64 1000) Fb F1000) as [RR FF].
  { apply (rnd_bnd 12); [lia|]. rewrite R1000, Rabs_right by lra. change (bpow radix2 12) with 4096%R. lra. }
  rewrite f64_as_int_R in H, HB by (auto; lia). rewrite RR, R1000 in H, HB. rewrite HX in H.
  destruct (rnd_rel (R64 b * 1000)) as (d & h & Hd & Hh & E1). destruct (rnd_rel (R64 x * 1000)) as (d' & h' & Hd' & Hh' & E2).
  rewrite E1 in H, HB. rewrite E2 in H. apply Rabs_le_inv in Hd, Hh, Hd', Hh'.
  assert (U : (u <= bpow radix2 (-50))%R) by (exact (bpow_le radix2 (-53) (-50) ltac:(lia))).
  assert (E : (eta <= bpow radix2 (-50))%R) by (exact (bpow_le radix2 (-1075) (-50) ltac:(lia))).
  assert (K50 : (bpow radix2 (-50) <= / 1000000000000)%R) by (cbn; lra).
  set (v := (R64 b * 1000 * (1 + d) + h)%R) in *. set (w := (R64 x * 1000 * (1 + d') + h')%R) in *.
  assert (W0 : (- / 1000000 <= w)%R) by (unfold w; nra).
  assert (V0 : (- / 1000000 <= v)%R) by (unfold v; nra).
  assert (Tv : (IZR (Ztrunc v) <= Rmax 0 v)%R).
  { destruct (Rle_or_lt 0 v) as [C|C]; [rewrite Rmax_right by lra; rewrite Ztrunc_floor by lra; apply Zfloor_lb|].
    rewrite Rmax_left by lra. apply IZR_le. rewrite Ztrunc_ceil by lra. apply Zceil_glb. lra. }
  assert (Tw : (w < IZR (Ztrunc w) + 1)%R).
  { destruct (Rle_or_lt 0 w) as [C|C]; [rewrite Ztrunc_floor by lra; apply Zfloor_ub|].
    assert (0 <= Ztrunc w)%Z; [|apply IZR_le in H0; lra]. rewrite Ztrunc_ceil by lra.
    assert (- 1 < Zceil w)%Z; [|lia]. apply lt_IZR. pose proof (Zceil_ub w). change (IZR (-1)) with (-1)%R. lra. }
  assert (Zv : 0 <= Ztrunc v).
  { destruct (Rle_or_lt 0 v) as [C|C]; [rewrite Ztrunc_floor by lra; apply Zfloor_lub; lra|].
    rewrite Ztrunc_ceil by lra. assert (- 1 < Zceil v)%Z; [|lia]. apply lt_IZR. pose proof (Zceil_ub v). lra. }
  assert (Hz : Ztrunc w <= Ztrunc v) by lia. apply IZR_le in Hz.
  assert (Vb : (Rmax 0 v <= R64 b * 1000 + / 100000000)%R).
  { apply Rmax_lub; [lra|]. unfold v. nra. }
  assert (Wx : (R64 x * 1000 <= w + R64 x * 1000 * / 1000000000000 + / 1000000000000)%R) by (unfold w; nra).
  assert (R64 x * 1000 <= 4000)%R by nra. lra.
Qed.

(** ** A chunk *)
Lemma firstn_In' {A} (x : A) n l : In x (firstn n l) -> In x l.
Proof. intros H. rewrite <- (firstn_skipn n l). apply in_app_iff. now left. Qed.
Lemma skipn_In' {A} (x : A) n l : In x (skipn n l) -> In x l.
Proof. intros H. rewrite <- (firstn_skipn n l). apply in_app_iff. now right. Qed.
Lemma no_zero_first e t m fs : env_ok e -> zeros_last e -> t <> [] -> m <> 1%nat -> Forall (bounded_by 100) t ->
  fft_trim (e_fft e) (half_spectrum t) m = Ok fs ->
  length fs = m \/ forall g k, is_bin t g k -> is_zero (value g) = false -> In g fs.
Proof.
  intros [Hh Ht] Hz Hne Hm Hb H. unfold fft_trim in H. destruct (Nat.eqb_spec m 1) as [|_]; [congruence|]. apply ok_inj in H.
  assert (Bq : Forall (fun q => bounded_by 100 (value q)) (bins (half_spectrum t))).
  { apply Forall_forall. intros q Hq. apply bins_in in Hq. destruct Hq as (k & re & im & Hk & ->). apply half_nth in Hk. destruct Hk as [_ Hk].
    rewrite Forall_forall in Hb. apply (Hb (re, im)). eapply nth_error_In; exact Hk. }
  specialize (Hz _ Bq). assert (Hin : forall g k, is_bin t g k -> In g (fe_pops (e_fft e) (bins (half_spectrum t)))).
  { intros g k (Hk & Hg & Hp). apply (Permutation_in g (Permutation_sym (Hh _))). unfold value in Hg.
    assert (Hh' : nth_error (half_spectrum t) k = Some (fq_re g, fq_im g)).
    { etransitivity; [|exact Hg]. unfold half_spectrum. assert (Hkk : (k < length t / 2 + 1)%nat).
      { pose proof (Nat.div_mod (length t) 2 ltac:(lia)). pose proof (Nat.mod_upper_bound (length t) 2 ltac:(lia)). lia. }
      now apply nth_firstn. }
    apply bins_nth in Hh'. apply nth_error_In in Hh'. destruct g as [gp gr gi]. cbn [fq_pos fq_re fq_im] in *. rewrite Hp. exact Hh'. }
  set (ps := fe_pops (e_fft e) (bins (half_spectrum t))) in *.
  destruct (pop_freqs_stop m ps) as [E|[E|(z & rest & E & Z)]]; rewrite H in E; [now left|right|right].
  - intros g k Hg _. rewrite E. eauto.
  - intros g k Hg Hg0. specialize (Hin g k Hg). rewrite E in Hin, Hz. apply in_app_iff in Hin. destruct Hin as [Hin|[Hin|Hin]]; [exact Hin|exfalso|exfalso].
    + subst z. change (is_zero (value g) = true) in Z. congruence.
    + assert (is_zero (value g) = true); [|congruence]. clear -Hz Hin Z.
      induction fs as [|x fs IH]; cbn [app] in Hz; apply StronglySorted_inv in Hz; destruct Hz as [Hs1 Hs2]; [|now apply IH].
      rewrite Forall_forall in Hs2. apply (Hs2 g Hin). exact Z.
Qed.

Lemma most_frequencies_eq n : most_frequencies n = last_budget (default_freqs n).
Proof.
  unfold most_frequencies, last_budget. assert (default_freqs n = Nat.max 3 (n / 100))%nat as -> by (unfold default_freqs; destruct (n / 100 <=? 3)%nat eqn:E; lia).
  reflexivity.
Qed.

(** The same of the bytes of a frame. *)
Definition most_stored (e : env) (bytes : list Z) (chunk : list f64) : Prop :=
  exists f d a b,
    decode_unwrap dec_fft bytes = Ok f /\
    fft_padded chunk d a b /\ stored_bins (fe_fft (e_fft e) (as_signal d)) (ff_freqs f) /\
    (length (ff_freqs f) = most_frequencies (length chunk) \/
     forall g k, is_bin (fe_fft (e_fft e) (as_signal d)) g k -> is_zero (value g) = false -> In g (ff_freqs f)).

Lemma fft_bounded_frame e p data bound bytes out B :
  env_ok e -> no_overflow e -> zeros_last e -> data <> [] -> Z.of_nat (length data) <= 131072 ->
  Forall supported data -> Forall (fun x => R64 x <> 0%R) data ->
  finite bound -> (0 <= R64 bound <= B)%R -> (B <= 3)%R ->
  compress_bounded e p FFT data bound = Ok bytes -> decompress e p FFT (length data) bytes = Ok out ->
  within_range data out /\
  (nearly_equal data out \/ relative_error_within (6 / 5 * (B + / 1000 + / 10000000)) data out \/ most_stored e bytes data).
Proof.
  intros He [No1 No2] Hzl Hne Hl Hs Hnz Fb Rb B3 Hb Ho. assert (Hm : in_memory data) by (unfold in_memory; lia).
  assert (Hfin := supported_forall_finite _ Hs).
  assert (Hbnd : Forall (bnd 63) data) by (eapply Forall_impl; [|exact Hs]; apply supported_bnd).
  assert (BB : (bpow radix2 63 <= bpow radix2 127)%R) by (apply bpow_le; lia).
  destruct (bounded_shape e p data bound He Hne Hm) as (st & c & Hst & Hr' & Hc & Hmx & Hmn & Hcase).
  rewrite Hb in Hc. apply ok_inj in Hc. subst bytes.
  destruct (stats_facts data Hne Hfin) as (st' & Hst' & Fn & Fx & Hlm & [i Imn] & [j Imx]).
  rewrite Hst in Hst'. apply ok_inj in Hst'. subst st'.
  assert (Sx : supported (st_max st)) by (rewrite Forall_forall in Hs; apply Hs; eapply max_at_in; eauto).
  assert (Sn : supported (st_min st)) by (rewrite Forall_forall in Hs; apply Hs; eapply min_at_in; eauto).
  destruct (f64_as_f32_fin (st_max st) Fx) as [G1 _]; [apply supported_bnd in Sx; destruct Sx; lra|].
  destruct (f64_as_f32_fin (st_min st) Fn) as [G3 _]; [apply supported_bnd in Sn; destruct Sn; lra|].
  assert (Hwr : Forall finite out -> within_range data out).
  { intros Ff mn mx Hmn' Hmx' single.
    assert (HR := C25_output_in_range e p data (enc_fft c) (length data) out mn mx He Hne Hm).
    assert (HR' := HR ltac:(eapply Forall_impl; [|exact Hbnd]; intros x [Q1 Q2]; split; [exact Q1|lra]) (or_intror (ex_intro _ bound Hb)) Hmn' Hmx' Ho).
    cbv zeta in HR'. rewrite Forall_forall in *. intros y Hy. destruct (HR' y Hy) as [K|K]; [|exact K].
    specialize (Ff y Hy). apply fis_finite_not_nan in Ff. congruence. }
  destruct Hcase as [(E & Hq & He0)|(Hnc & Hp)].
  - assert (NE : nearly_equal data out) by now apply (fft_collapsed e p data c st). split; [|left; exact NE].
    apply Hwr. clear -NE. induction NE as [|x y l l' [H _] _ IH]; constructor; auto.
  - destruct (bounded_stored e data bound st c He Hne Hm Hp) as (Hsb & _ & Hok & Hw).
    destruct Hp as (err & Her & Hp).
    assert (F1 : finite f1 /\ R64 f1 = 1%R) by (destruct (int_as_f64_exact 1 ltac:(lia)); split; assumption).
    destruct F1 as [F1 R1].
    destruct Hp as [(_ & -> & Hst0)|(budget & idata & Hbud & Htr & Hmir & Hce & Hstop)].
    { exfalso. destruct (fadd_class bound f1 Fb F1 ltac:(lra) ltac:(lra)) as [X|[Fa X]].
      - destruct (permille_stop (fadd bound f1) bound) as [Ff _]; auto; try lra; try lia; rewrite X in *; [right; reflexivity|reflexivity|discriminate Ff].
      - destruct (rnd_plus (R64 bound) (R64 f1) (fmt bound) (fmt f1)) as (d & Hdd & Ed). rewrite Ed, R1 in X.
        apply Rabs_le_inv in Hdd. assert (Q := u_small).
        assert (K : ((R64 bound + 1) * (1 - / 1024) <= (R64 bound + 1) * (1 + d))%R) by (apply Rmult_le_compat_l; lra).
        destruct (permille_stop (fadd bound f1) bound) as [_ Rf]; auto; try lra; try lia.
        + right. apply positive_sign; [exact Fa|lra].
        + now apply fis_finite_not_nan. }
    assert (Hgl := gibbs_data_length data Hne).
    assert (Hn : (1 <= length data)%nat) by (destruct data; [congruence|cbn; lia]).
    assert (L18 : Z.of_nat (length (gibbs_data data)) <= 2 ^ 18).
    { destruct (gibbs_padded data Hne ltac:(lia)) as [_ [(_ & E1 & E2)|(H128 & _ & Hsm)]]; [lia|]. apply padded_ratio in Hsm; lia. }
    assert (Ne : gibbs_data data <> []) by (intros E; rewrite E in Hgl; cbn in Hgl; lia).
    set (t := fe_fft (e_fft e) (as_signal (gibbs_data data))) in *.
    assert (Lt : length t = length (gibbs_data data)) by apply signal_length, He.
    assert (Bt : Forall (bounded_by 100) t).
    { apply No1; [unfold as_signal; rewrite map_length; exact L18|]. apply bounded_signal, gibbs_forall; auto. }
    assert (Bf : Forall (fun q => bounded_by 100 (value q)) (ff_freqs c)).
    { destruct Hsb as [Hsb _]. eapply Forall_impl; [|exact Hsb]. intros q (k & (_ & Hk & _) & _). rewrite Forall_forall in Bt. apply Bt. eapply nth_error_In; exact Hk. }
    assert (Li : length idata = length (gibbs_data data)).
    { destruct (mirrored_spec c (length (gibbs_data data)) ltac:(lia) Hw) as (sp & E1 & E2). rewrite Hmir in E1. apply ok_inj in E1. subst sp. apply E2. }
    assert (Bi := mirrored_forall 100 c _ idata Bf Hmir).
    assert (Fi := No2 idata ltac:(lia) Bi).
    set (full := fft_scale c (length (gibbs_data data)) (fe_ifft (e_fft e) idata)) in *.
    assert (Ff : Forall finite full).
    { unfold full, fft_scale. apply Forall_map. eapply Forall_impl; [|exact Fi]. cbn beta. intros z Hz.
      apply fft_round_finite; [apply f32_div_fin; [exact Hz|lia]|rewrite Hmx; exact G1|rewrite Hmn; exact G3]. }
    assert (Fo : Forall finite out).
    { assert (Hd := decode_fft c Hok). assert (Hw' := Hw). rewrite Hgl in Hw'.
      destruct (fft_expand_spec (e_fft e) (proj2 He) (no_error c) (length data) Hnc Hn Hw') as (spec & Hsp & Hex & Hil).
      change (get_mirrored_freqs (no_error c)) with (get_mirrored_freqs c) in Hsp. rewrite <- Hgl in Hsp. rewrite Hmir in Hsp. apply ok_inj in Hsp. subst spec.
      rewrite <- Hgl in Hex. change (fft_scale (no_error c)) with (fft_scale c) in Hex. fold full in Hex.
      cbn [decompress] in Ho. unfold fft_to_data in Ho. rewrite Hd in Ho. cbn [bind] in Ho. rewrite Hex in Ho. apply ok_inj in Ho. rewrite <- Ho.
      apply Forall_forall. intros y Hy. rewrite Forall_forall in Ff. apply Ff.
      apply firstn_In' in Hy. apply skipn_In' in Hy. exact Hy. }
    split; [now apply Hwr|].
    assert (Nn : nneg err) by (apply (method_error_nneg Mape (gibbs_data data) full); [lia|exact Hce]).
    assert (Nan : fis_nan err = false).
    { destruct (fis_nan err) eqn:En; [exfalso|reflexivity].
      apply (C22_mape_nan_iff (gibbs_data data) full err Ne) in En; auto; [|lia|apply gibbs_forall; auto].
      destruct En as (k & o & g & K1 & _ & K2 & _). assert (Gz := gibbs_forall (fun x => R64 x <> 0%R) data Hne Hl Hnz). rewrite Forall_forall in Gz.
      apply (Gz o); [|exact K2]. eapply nth_error_In; exact K1. }
    destruct Hstop as [Hstop|Hlast].
    + right. left. destruct (permille_stop err bound Nn Nan Fb ltac:(lra) Hstop) as [Fe Re].
      replace (6 / 5 * (B + / 1000 + / 10000000))%R with (6 / 5 * ((B + / 1000 + 9 / 100000000) + / 100000000))%R by field.
      apply (fft_measured e p data c idata err out); auto; lra.
    + right. right. exists (no_error c), (gibbs_data data), (fst (trim_sizes (length data))), (snd (trim_sizes (length data))).
      split; [now apply decode_fft|]. split; [apply gibbs_padded; [exact Hne|lia]|]. split; [exact Hsb|].
      change (ff_freqs (no_error c)) with (ff_freqs c). rewrite most_frequencies_eq, <- Hlast. fold t.
      apply (no_zero_first e); auto.
      * intros E. rewrite E in Lt. cbn in Lt. lia.
      * pose proof (default_freqs_ge (length data)). lia.
Qed.
Lemma fft_bounded_chunk e p data bound bytes out B :
  env_ok e -> no_overflow e -> zeros_last e -> data <> [] -> Z.of_nat (length data) <= 131072 ->
  Forall supported data -> Forall (fun x => R64 x <> 0%R) data ->
  finite bound -> (0 <= R64 bound <= B)%R -> (B <= 3)%R ->
  compress_bounded e p FFT data bound = Ok bytes -> decompress e p FFT (length data) bytes = Ok out ->
  within_range data out /\
  (nearly_equal data out \/ relative_error_within (6 / 5 * (B + / 1000 + / 10000000)) data out \/ best_effort e p data out).
Proof.
  intros He Hno Hz Hne Hl Hs Hnz Fb Rb B3 Hb Ho.
  destruct (fft_bounded_frame e p data bound bytes out B He Hno Hz Hne Hl Hs Hnz Fb Rb B3 Hb Ho) as [W [H|[H|(f & d & a & b & H)]]];
    (split; [exact W|]); [left; exact H|right; left; exact H|right; right]. exists bytes, f, d, a, b. split; [exact Ho|exact H].
Qed.

(** *** C59 *)
(** The Fourier compressor on the command line, for every transform which does not overflow and every supported series
    without zeros: everything is decompressed, inside the range of its chunk, and every chunk either comes back sample by
    sample (up to single precision), or with an exact mean relative error of at most 6/5 of the requested percentage plus a
    tenth of a percentage point (the compressor compares whole tenths), or holds as many frequencies as the compressor
    ever tries, or all there are. *)
Theorem C59_fft_error_end_to_end : forall e p data err level,
  env_ok e -> no_overflow e -> zeros_last e -> 0 <= err < 256 -> 0 <= level <= 6 -> fits_counter p data ->
  Forall (fun x => finite x -> supported x /\ R64 x <> 0%R) data ->
  exists bytes outs chunks cleaned,
    compress_data e p data FFT err level = Ok bytes /\ decompress_data e p bytes = Ok (concat outs) /\
    subsequence_of finite data cleaned /\ concat chunks = cleaned /\
    Forall2 (fun chunk out => length out = length chunk /\ within_range chunk out /\
      (nearly_equal chunk out \/ relative_error_within (6 / 5 * (IZR err / 100 + / 1000 + 2 / 1000000)) chunk out \/ best_effort e p chunk out)) chunks outs.
Proof.
  intros e p data err level He Hno Hzl Hr Hlv Hf Hs.
  destruct (cli_error_value err Hr) as [Fb Rb].
  destruct (pipeline_with e p data FFT err level
    (fun out chunk => length out = length chunk /\ within_range chunk out /\
      (nearly_equal chunk out \/ relative_error_within (6 / 5 * (IZR err / 100 + / 1000 + 2 / 1000000)) chunk out \/ best_effort e p chunk out)) He Hr Hlv Hf) as (b & outs & chunks & H1 & H2 & H3 & _ & H4).
  - intros d f out Hne Hdl Hin Hfr Ho Hlen. split; [exact Hlen|]. rewrite Forall_forall in Hs.
    assert (Hall : forall x, In x d -> supported x /\ R64 x <> 0%R).
    { intros x Hx. destruct (clean_data_in data x (Hin x Hx)) as [G1 G2]. now apply Hs. }
    unfold call_for in Hfr. cbn [is_bounded frame_of] in Hfr. unfold frame_compress_bounded in Hfr.
    destruct (compress_bounded e p FFT d (f32_as_f64 (cli_error err))) as [bytes|] eqn:Eb; [|discriminate]. cbn [bind] in Hfr. apply ok_inj in Hfr. subst f.
    unfold frame_decompress in Ho. cbn [fr_compressor fr_samples fr_data] in Ho. rewrite Nat2Z.id in Ho.
    assert (IZR err <= 255)%R by (apply IZR_le; lia).
    destruct (fft_bounded_chunk e p d (f32_as_f64 (cli_error err)) bytes out (IZR err / 100 + / 1000000 - / 100000000)) as [W [G|[(G1 & G2 & G3 & G4)|G]]]; auto; try lra;
      try (apply Forall_forall; intros x Hx; apply (Hall x Hx)).
    split; [exact W|]. right. left. split; [exact G1|]. split; [exact G2|]. split; [exact G3|]. lra.
  - exists b, outs, chunks, (clean_data data). split; [exact H1|]. split; [exact H2|]. split; [apply C11_cleaning_keeps_finite|]. split; [exact H3|].
    clear -H4. induction H4; constructor; auto.
Qed.
Print Assumptions C59_fft_error_end_to_end.

(** Transforms and a heap which meet the hypotheses; a series which does. *)
Definition fair_env : env :=
  {| e_idw := fun _ _ _ => f0;
     e_fft := {| fe_fft := fun l => l; fe_ifft := fun l => l;
                 fe_pops := fun l => filter (fun q => negb (freq_is_zero q)) l ++ filter freq_is_zero l |} |}.
Lemma fair_env_ok : env_ok fair_env /\ no_overflow fair_env /\ zeros_last fair_env.
Proof.
  split; [split; [exact split_perm|split; reflexivity]|]. split.
  - split; intros l _ H; [|eapply Forall_impl; [|exact H]; cbn; intros c [[H1 _] _]; exact H1].
    assert (B : (bpow radix2 63 <= bpow radix2 100)%R) by (apply bpow_le; lia).
    eapply Forall_impl; [|exact H]. intros c [[H1 H2] [H3 H4]]. split; split; auto; lra.
  - intros l _. change (fe_pops (e_fft fair_env) l) with (filter (fun q => negb (freq_is_zero q)) l ++ filter freq_is_zero l).
    assert (A : forall l1 l2 : list freq, Forall (fun q => is_zero (value q) = false) l1 -> Forall (fun q => is_zero (value q) = true) l2 ->
      StronglySorted (fun x y => is_zero (value x) = true -> is_zero (value y) = true) (l1 ++ l2)).
    { intros l1 l2 H1 H2. induction H1 as [|x l1 Hx H1 IH].
      - induction H2 as [|y l2 Hy H2 IH]; cbn [app] in *; constructor; auto. eapply Forall_impl; [|exact H2]. auto.
      - cbn [app]. constructor; [exact IH|]. apply Forall_forall. intros y _ Hx'. congruence. }
    apply A; apply Forall_forall; intros q Hq; apply filter_In in Hq; destruct Hq as [_ Hq].
    + change (freq_is_zero q = false). destruct (freq_is_zero q); [discriminate Hq|reflexivity].
    + exact Hq.
Qed.
Example C59_example : exists bytes outs chunks cleaned,
  compress_data fair_env Dev sample_series FFT 30 0 = Ok bytes /\ decompress_data fair_env Dev bytes = Ok (concat outs) /\
  subsequence_of finite sample_series cleaned /\ concat chunks = cleaned /\
  Forall2 (fun chunk out => length out = length chunk /\ within_range chunk out /\
    (nearly_equal chunk out \/ relative_error_within (6 / 5 * (30 / 100 + / 1000 + 2 / 1000000)) chunk out \/ best_effort fair_env Dev chunk out)) chunks outs.
Proof.
  destruct fair_env_ok as (H1 & H2 & H3).
  apply C59_fft_error_end_to_end; auto; try lia.
  - left. vm_compute. reflexivity.
  - eapply Forall_impl; [|exact sample_series_ok]. auto.
Qed.
