(** Bounded binary64 arithmetic: results stay finite and bounded; exact special cases. *)
From Coq Require Import List ZArith Bool Lia Reals Lra.
From Flocq Require Import Core IEEE754.BinarySingleNaN IEEE754.Binary IEEE754.Bits Relative.
From Verif Require Import Base Model_Float Spec FloatFacts Model_Utils.
Import ListNotations.
Open Scope Z_scope.

(** Finite and at most 2^k in magnitude. *)
Definition bnd (k : Z) (x : f64) : Prop := finite x /\ (Rabs (R64 x) <= bpow radix2 k)%R.

Lemma bnd_weaken a b x : a <= b -> bnd a x -> bnd b x.
Proof. intros H [F B]. split; [exact F|]. eapply Rle_trans; [exact B|]. now apply bpow_le. Qed.

Lemma bnd_finite k x : bnd k x -> finite x. Proof. intros [H _]; exact H. Qed.

Lemma rnd_bnd k r : -1000 <= k <= 1023 -> (Rabs r <= bpow radix2 k)%R ->
  (Rabs (rnd64 r) <= bpow radix2 k)%R /\ (Rabs (rnd64 r) < bpow radix2 1024)%R.
Proof.
  intros Hk Hr. assert (H := rnd64_abs_le_bpow r k ltac:(lia) Hr). split; [exact H|].
  eapply Rle_lt_trans; [exact H|]. apply bpow_lt. lia.
Qed.

Lemma bnd_mul a b x y : bnd a x -> bnd b y -> -1000 <= a + b <= 1023 -> bnd (a + b) (fmul x y).
Proof.
  intros [Fx Bx] [Fy By] Hab.
  assert (H : (Rabs (R64 x * R64 y) <= bpow radix2 (a + b))%R).
  { rewrite Rabs_mult, bpow_plus. apply Rmult_le_compat; auto using Rabs_pos. }
  destruct (rnd_bnd _ _ Hab H) as [H1 H2]. destruct (fmul_R x y Fx Fy H2) as [R F]. split; [exact F|]. now rewrite R.
Qed.

Lemma Rabs_plus_bnd a b r s : (Rabs r <= bpow radix2 a)%R -> (Rabs s <= bpow radix2 b)%R ->
  (Rabs (r + s) <= bpow radix2 (Z.max a b + 1))%R.
Proof.
  intros Hr Hs. rewrite bpow_plus. change (bpow radix2 1) with 2%R.
  assert (Ha : (bpow radix2 a <= bpow radix2 (Z.max a b))%R) by (apply bpow_le; lia).
  assert (Hb : (bpow radix2 b <= bpow radix2 (Z.max a b))%R) by (apply bpow_le; lia).
  pose proof (Rabs_triang r s). lra.
Qed.

Lemma bnd_add a b x y : bnd a x -> bnd b y -> -1000 <= Z.max a b + 1 <= 1023 -> bnd (Z.max a b + 1) (fadd x y).
Proof.
  intros [Fx Bx] [Fy By] Hab.
  assert (H := Rabs_plus_bnd _ _ _ _ Bx By).
  destruct (rnd_bnd _ _ Hab H) as [H1 H2]. destruct (fadd_R x y Fx Fy H2) as [R F]. split; [exact F|]. now rewrite R.
Qed.

Lemma bnd_sub a b x y : bnd a x -> bnd b y -> -1000 <= Z.max a b + 1 <= 1023 -> bnd (Z.max a b + 1) (fsub x y).
Proof.
  intros [Fx Bx] [Fy By] Hab. rewrite <- Rabs_Ropp in By.
  assert (H := Rabs_plus_bnd _ _ _ _ Bx By).
  destruct (rnd_bnd _ _ Hab H) as [H1 H2]. destruct (fsub_R x y Fx Fy H2) as [R F]. split; [exact F|]. now rewrite R.
Qed.

Lemma bnd_div a b x y : bnd a x -> (bpow radix2 b <= Rabs (R64 y))%R -> -1000 <= a - b <= 1023 -> bnd (a - b) (fdiv x y).
Proof.
  intros [Fx Bx] By Hab.
  assert (Hp := bpow_gt_0 radix2 b).
  assert (Hy : R64 y <> 0%R) by (intros E; rewrite E, Rabs_R0 in By; lra).
  assert (H : (Rabs (R64 x / R64 y) <= bpow radix2 (a - b))%R).
  { unfold Rdiv, Zminus. rewrite Rabs_mult, bpow_plus, bpow_opp. apply Rmult_le_compat; auto using Rabs_pos.
    rewrite Rabs_inv. apply Rinv_le_contravar; assumption. }
  destruct (rnd_bnd _ _ Hab H) as [H1 H2]. destruct (fdiv_R x y Fx Hy H2) as [R F]. split; [exact F|]. now rewrite R.
Qed.

Lemma fabs_R x : R64 (fabs x) = Rabs (R64 x).
Proof. apply Binary.B2R_Babs. Qed.
Lemma fabs_finite x : fis_finite (fabs x) = fis_finite x.
Proof. apply Binary.is_finite_Babs. Qed.
Lemma bnd_abs k x : bnd k x -> bnd k (fabs x).
Proof. intros [F B]. split; [unfold finite; now rewrite fabs_finite|]. rewrite fabs_R, Rabs_Rabsolu. exact B. Qed.

Lemma bnd_int k z : 0 <= k <= 1000 -> Z.abs z <= 2 ^ k -> bnd k (int_as_f64 z).
Proof.
  intros Hk Hz. destruct (int_as_f64_correct z) as (R & F & _).
  { assert (2 ^ k <= 2 ^ 1000) by (apply Z.pow_le_mono_r; lia). lia. }
  split; [exact F|]. rewrite R. apply rnd64_abs_le_bpow; [lia|].
  rewrite <- abs_IZR, <- (IZR_Zpower radix2) by lia. apply IZR_le. exact Hz.
Qed.

(** Every finite double is at most 2^1024 in magnitude. *)
Lemma fround_bnd k x : 0 <= k <= 1000 -> bnd k x -> bnd k (fround x).
Proof.
  intros Hk [F B]. split; [unfold finite; now rewrite fround_finite|]. rewrite fround_R.
  rewrite <- (IZR_Zpower radix2) in B |- * by lia. rewrite <- abs_IZR. apply IZR_le.
  set (z := (radix2 ^ k)%Z) in *.
  assert (- z <= ZnearestA (R64 x) <= z); [|lia].
  assert (- IZR z <= R64 x <= IZR z)%R as [H1 H2] by (apply Rabs_le_inv; exact B).
  split.
  - replace (- z) with (ZnearestA (IZR (- z))) by (apply Zrnd_IZR; apply valid_rnd_N).
    apply Zrnd_le; [apply valid_rnd_N|]. rewrite opp_IZR. lra.
  - replace z with (ZnearestA (IZR z)) by (apply Zrnd_IZR; apply valid_rnd_N). apply Zrnd_le; [apply valid_rnd_N|lra].
Qed.

(** Exact special cases. *)
Lemma fmul_zero_r x y : finite x -> finite y -> R64 y = 0%R -> finite (fmul x y) /\ R64 (fmul x y) = 0%R.
Proof.
  intros Fx Fy Hy. assert (E : (R64 x * R64 y = 0)%R) by (rewrite Hy; ring).
  assert (H0 : rnd64 0 = 0%R) by (apply round_0; apply valid_rnd_N).
  destruct (fmul_R x y Fx Fy) as [R F].
  { rewrite E, H0, Rabs_R0. apply bpow_gt_0. }
  split; [exact F|]. now rewrite R, E, H0.
Qed.
Lemma fmul_zero_l x y : finite x -> finite y -> R64 x = 0%R -> finite (fmul x y) /\ R64 (fmul x y) = 0%R.
Proof.
  intros Fx Fy Hy. assert (E : (R64 x * R64 y = 0)%R) by (rewrite Hy; ring).
  assert (H0 : rnd64 0 = 0%R) by (apply round_0; apply valid_rnd_N).
  destruct (fmul_R x y Fx Fy) as [R F].
  { rewrite E, H0, Rabs_R0. apply bpow_gt_0. }
  split; [exact F|]. now rewrite R, E, H0.
Qed.
Lemma fmul_one_r x y : finite x -> finite y -> R64 y = 1%R -> finite (fmul x y) /\ R64 (fmul x y) = R64 x.
Proof.
  intros Fx Fy Hy. assert (E : (R64 x * R64 y = R64 x)%R) by (rewrite Hy; ring).
  destruct (fmul_R x y Fx Fy) as [R F].
  { rewrite E, rnd64_R64. apply Binary.abs_B2R_lt_emax. }
  split; [exact F|]. now rewrite R, E, rnd64_R64.
Qed.
Lemma fadd_zero_r x y : finite x -> finite y -> R64 y = 0%R -> finite (fadd x y) /\ R64 (fadd x y) = R64 x.
Proof.
  intros Fx Fy Hy. assert (E : (R64 x + R64 y = R64 x)%R) by (rewrite Hy; ring).
  destruct (fadd_R x y Fx Fy) as [R F].
  { rewrite E, rnd64_R64. apply Binary.abs_B2R_lt_emax. }
  split; [exact F|]. now rewrite R, E, rnd64_R64.
Qed.
Lemma fadd_zero_l x y : finite x -> finite y -> R64 x = 0%R -> finite (fadd x y) /\ R64 (fadd x y) = R64 y.
Proof.
  intros Fx Fy Hy. assert (E : (R64 x + R64 y = R64 y)%R) by (rewrite Hy; ring).
  destruct (fadd_R x y Fx Fy) as [R F].
  { rewrite E, rnd64_R64. apply Binary.abs_B2R_lt_emax. }
  split; [exact F|]. now rewrite R, E, rnd64_R64.
Qed.
Lemma fsub_zero_r x y : finite x -> finite y -> R64 y = 0%R -> finite (fsub x y) /\ R64 (fsub x y) = R64 x.
Proof.
  intros Fx Fy Hy. assert (E : (R64 x - R64 y = R64 x)%R) by (rewrite Hy; ring).
  destruct (fsub_R x y Fx Fy) as [R F].
  { rewrite E, rnd64_R64. apply Binary.abs_B2R_lt_emax. }
  split; [exact F|]. now rewrite R, E, rnd64_R64.
Qed.
Lemma fsub_same x y : finite x -> finite y -> R64 x = R64 y -> finite (fsub x y) /\ R64 (fsub x y) = 0%R.
Proof.
  intros Fx Fy Hy. assert (E : (R64 x - R64 y = 0)%R) by (rewrite Hy; ring).
  assert (H0 : rnd64 0 = 0%R) by (apply round_0; apply valid_rnd_N).
  destruct (fsub_R x y Fx Fy) as [R F].
  { rewrite E, H0, Rabs_R0. apply bpow_gt_0. }
  split; [exact F|]. now rewrite R, E, H0.
Qed.
Lemma fdiv_zero_l x y : finite x -> R64 y <> 0%R -> R64 x = 0%R -> finite (fdiv x y) /\ R64 (fdiv x y) = 0%R.
Proof.
  intros Fx Hy Hx. assert (E : (R64 x / R64 y = 0)%R) by (rewrite Hx; unfold Rdiv; ring).
  assert (H0 : rnd64 0 = 0%R) by (apply round_0; apply valid_rnd_N).
  destruct (fdiv_R x y Fx Hy) as [R F].
  { rewrite E, H0, Rabs_R0. apply bpow_gt_0. }
  split; [exact F|]. now rewrite R, E, H0.
Qed.
Lemma fsub_int a b : Z.abs a <= 2 ^ 53 -> Z.abs b <= 2 ^ 53 -> Z.abs (a - b) <= 2 ^ 53 ->
  finite (fsub (int_as_f64 a) (int_as_f64 b)) /\ R64 (fsub (int_as_f64 a) (int_as_f64 b)) = IZR (a - b).
Proof.
  intros Ha Hb Hab. destruct (int_as_f64_exact a Ha) as [Ra Fa]. destruct (int_as_f64_exact b Hb) as [Rb Fb].
  assert (E : (R64 (int_as_f64 a) - R64 (int_as_f64 b) = IZR (a - b))%R) by (rewrite Ra, Rb, minus_IZR; ring).
  destruct (fsub_R _ _ Fa Fb) as [R F].
  { rewrite E, rnd64_int by exact Hab. destruct (int_as_f64_exact (a - b) Hab) as [<- _]. apply Binary.abs_B2R_lt_emax. }
  split; [exact F|]. now rewrite R, E, rnd64_int.
Qed.

(** Comparisons and NaN. *)
Lemma fcmp_total x y : fis_nan x = false -> fis_nan y = false -> exists c, fcmp x y = Some c.
Proof.
  destruct x as [s|s|s pl H|s m e H], y as [s'|s'|s' pl' H'|s' m' e' H']; intros Hx Hy; try discriminate;
    unfold fcmp, b64_compare, Binary.Bcompare; cbn; eauto.
Qed.
Lemma flt_false_le x y : fis_nan x = false -> fis_nan y = false -> flt x y = false -> fle y x = true.
Proof.
  intros Hx Hy H. destruct (fcmp_total x y Hx Hy) as [c Hc]. unfold flt in H. rewrite Hc in H. unfold fle. rewrite (fcmp_swap x y), Hc.
  destruct c; cbn in *; congruence.
Qed.
Lemma fle_nan x y : fle x y = true -> fis_nan x = false /\ fis_nan y = false.
Proof.
  unfold fle. intros H. split.
  - destruct (fis_nan x) eqn:E; [|reflexivity]. now rewrite (fcmp_nan_l x y E) in H.
  - destruct (fis_nan y) eqn:E; [|reflexivity]. now rewrite (fcmp_nan_r x y E) in H.
Qed.
Lemma flt_le x y : flt x y = true -> fle x y = true.
Proof. unfold flt, fle. destruct (fcmp x y) as [[]|]; congruence. Qed.
Lemma fle_refl x : fis_nan x = false -> fle x x = true.
Proof. intros H. apply feq_refl in H. unfold feq in H. unfold fle. destruct (fcmp x x) as [[]|]; congruence. Qed.

(** A value between two finite values is finite. *)
Lemma between_finite lo hi y : finite lo -> finite hi -> fle lo y = true -> fle y hi = true ->
  finite y /\ (R64 lo <= R64 y <= R64 hi)%R.
Proof.
  intros Hl Hh H1 H2.
  assert (Hy : finite y).
  { destruct y as [s|s|s pl H|s m e H]; try reflexivity.
    - exfalso. destruct lo as [s'|s'|s' pl' H'|s' m' e' H'], hi as [s2|s2|s2 pl2 Hx2|s2 m2 e2 Hx2]; try discriminate;
        destruct s; discriminate.
    - exfalso. destruct (fle_nan _ _ H1) as [_ E]. discriminate. }
  split; [exact Hy|]. apply fle_R in H1; try assumption. apply fle_R in H2; try assumption. lra.
Qed.

Lemma round_and_limit_range x mn mx d : fle mn mx = true ->
  fis_nan (round_and_limit_f64 x mn mx d) = true \/
  (fle mn (round_and_limit_f64 x mn mx d) = true /\ fle (round_and_limit_f64 x mn mx d) mx = true).
Proof.
  intros H. destruct (fle_nan _ _ H) as [Nn Nx]. unfold round_and_limit_f64.
  set (out := fdiv _ _).
  destruct (flt out mn) eqn:E1; [right; split; [now apply fle_refl|exact H]|].
  destruct (fgt out mx) eqn:E2; [right; split; [exact H|now apply fle_refl]|].
  destruct (fis_nan out) eqn:E3; [now left|right]. split.
  - now apply flt_false_le.
  - rewrite fgt_flt in E2. now apply flt_false_le.
Qed.
