(** C77: steady series. *)
From Coq Require Import List ZArith Bool Lia Reals Lra Sorted ZifyBool Znumtheory.
From Flocq Require Import Core IEEE754.BinarySingleNaN IEEE754.Binary IEEE754.Bits.
From Verif Require Import Base Model_Float Model_Bincode BincodeFacts Spec FloatFacts ArithFacts RoundFacts AccuracyFacts Model_Utils Model_Stats
  Model_Compressors Model_Polynomial Model_Fft Model_Stream StatsFacts CompressorFacts PolyFacts SplineFacts PolyLoopFacts MetricFacts
  PolyApiFacts Props_Metric Props_Lossless Props_Poly Spec_Spline SplineValueFacts Props_Spline Spec_Lines PlanFacts UtilsFacts PipelineFacts Props_Plan Props_Stream Model_Cli Props_Auto Props_Pipeline Props_Accuracy Props_Monotone Props_Fft.
Import ListNotations.
Open Scope Z_scope.

(** *** The curve near a line *)
Lemma hermite_small t va vb m0 m1 D : (0 <= t <= 1)%R -> (0 <= D)%R -> (Rabs va <= D)%R -> (Rabs vb <= D)%R -> (Rabs m0 <= 2 * D)%R -> (Rabs m1 <= 2 * D)%R ->
  (Rabs (hermite_value t va vb m0 m1) <= 12 * D)%R.
Proof.
  intros Ht HD Ha Hb H0 H1. unfold hermite_value. assert (T2 : (0 <= t ^ 2 <= 1)%R) by (cbn [pow]; nra).
  assert (T3 : (0 <= t ^ 3 <= 1)%R) by (replace (t ^ 3)%R with (t * t ^ 2)%R by ring; nra).
  assert (P : forall a h A H, (Rabs a <= A)%R -> (- H <= h <= H)%R -> (Rabs (a * h) <= A * H)%R).
  { intros a h A H HA HH. rewrite Rabs_mult. apply Rmult_le_compat; [apply Rabs_pos|apply Rabs_pos|exact HA|apply Rabs_le; exact HH]. }
  assert (P1 := P va (2 * t ^ 3 - 3 * t ^ 2 + 1)%R _ 3%R Ha ltac:(lra)). assert (P2 := P m0 (t ^ 3 - 2 * t ^ 2 + t)%R _ 2%R H0 ltac:(lra)).
  assert (P3 := P vb (3 * t ^ 2 - 2 * t ^ 3)%R _ 3%R Hb ltac:(lra)). assert (P4 := P m1 (t ^ 3 - t ^ 2)%R _ 1%R H1 ltac:(lra)).
  eapply Rle_trans; [apply Rabs_triang|]. assert (Q := Rabs_triang (va * (2 * t ^ 3 - 3 * t ^ 2 + 1) + m0 * (t ^ 3 - 2 * t ^ 2 + t)) (vb * (3 * t ^ 2 - 2 * t ^ 3))).
  assert (Q2 := Rabs_triang (va * (2 * t ^ 3 - 3 * t ^ 2 + 1)) (m0 * (t ^ 3 - 2 * t ^ 2 + t))). lra.
Qed.

Lemma slope_small x b a y D (dx db : R) : (0 <= D)%R -> x < b -> 0 < y <= b - x -> (Rabs dx <= D)%R -> (Rabs db <= D)%R ->
  a = IZR y -> (Rabs ((db - dx) / (IZR b - IZR x) * a) <= 2 * D)%R.
Proof.
  intros HD Hxb Hy Hx Hb ->. assert (H1 : (0 < IZR b - IZR x)%R) by (rewrite <- minus_IZR; apply IZR_lt; lia).
  assert (H2 : (0 < IZR y <= IZR b - IZR x)%R) by (rewrite <- minus_IZR; split; [apply IZR_lt|apply IZR_le]; lia).
  replace ((db - dx) / (IZR b - IZR x) * IZR y)%R with ((db - dx) * (IZR y / (IZR b - IZR x)))%R by (field; lra).
  assert (H3 : (0 <= IZR y / (IZR b - IZR x) <= 1)%R) by (split; [apply Rlt_le, Rdiv_lt_0_compat; lra|apply Rmult_le_reg_r with (IZR b - IZR x)%R; [lra|]; unfold Rdiv; rewrite Rmult_assoc, Rinv_l by lra; lra]).
  rewrite Rabs_mult, (Rabs_right (IZR y / _)) by lra. assert (H4 : (Rabs (db - dx) <= 2 * D)%R) by (unfold Rminus; eapply Rle_trans; [apply Rabs_triang|]; rewrite Rabs_Ropp; lra).
  assert (0 <= Rabs (db - dx))%R by apply Rabs_pos. nra.
Qed.

Lemma drawn_near_line n s v pos w c d D : 1 <= s -> 0 <= pos < n -> (0 <= D)%R -> (forall i, 0 <= i < n -> (Rabs (v i - (c + d * IZR i)) <= D)%R) ->
  drawn n s v pos w -> (Rabs (w - (c + d * IZR pos)) <= 12 * D)%R.
Proof.
  intros Hs Hp HD Hv H. destruct H as [St|k a b K B C|k q x a b y K B C Q].
  - specialize (Hv pos Hp). lra.
  - assert (0 <= a < n /\ 0 <= b < n) as [Ra Rb] by (unfold a, b, knot in *; lia). assert (Va := Hv a Ra). assert (Vb := Hv b Rb).
    assert (L1 : (IZR a < IZR pos)%R) by (apply IZR_lt; lia). assert (L2 : (IZR pos < IZR b)%R) by (apply IZR_lt; lia).
    set (t := ((IZR pos - IZR a) / (IZR b - IZR a))%R). assert (Et : (t * (IZR b - IZR a) = IZR pos - IZR a)%R) by (unfold t; field; lra).
    assert (Ht : (0 <= t <= 1)%R) by (split; nra). unfold straight. fold t.
    replace (v a + (v b - v a) * t - (c + d * IZR pos))%R with ((v a - (c + d * IZR a)) * (1 - t) + (v b - (c + d * IZR b)) * t)%R by (replace (IZR pos) with (IZR a + t * (IZR b - IZR a))%R by lra; ring).
    eapply Rle_trans; [apply Rabs_triang|]. rewrite !Rabs_mult, (Rabs_right t), (Rabs_right (1 - t)) by lra.
    assert (Rabs (v a - (c + d * IZR a)) * (1 - t) <= D * (1 - t))%R by (apply Rmult_le_compat_r; lra). assert (Rabs (v b - (c + d * IZR b)) * t <= D * t)%R by (apply Rmult_le_compat_r; lra). lra.
  - assert (X : 0 <= x < a) by (unfold x, a, b, knot in *; nia). assert (Y : b < y < n) by (unfold y, a, b, knot in *; nia).
    assert (Hab : IZR a <> IZR b) by (intros E; apply eq_IZR in E; lia). rewrite (hermite_unique _ _ _ _ _ _ _ (IZR pos) Hab Q).
    rewrite <- (hermite_line (IZR a) (IZR b) c d (IZR pos) Hab).
    assert (L1 : (IZR a < IZR pos)%R) by (apply IZR_lt; lia). assert (L2 : (IZR pos < IZR b)%R) by (apply IZR_lt; lia).
    set (t := ((IZR pos - IZR a) / (IZR b - IZR a))%R). assert (Et : (t * (IZR b - IZR a) = IZR pos - IZR a)%R) by (unfold t; field; lra).
    assert (Ht : (0 <= t <= 1)%R) by (split; nra). unfold secant.
    assert (Hxb : IZR x <> IZR b) by (intros E; apply eq_IZR in E; lia). assert (Hay : IZR a <> IZR y) by (intros E; apply eq_IZR in E; lia).
    set (e := fun i => (v i - (c + d * IZR i))%R).
    replace (hermite_value t (v a) (v b) ((v b - v x) / (IZR b - IZR x) * (IZR b - IZR a)) ((v y - v a) / (IZR y - IZR a) * (IZR b - IZR a)) -
      hermite_value t (c + d * IZR a) (c + d * IZR b) (d * (IZR b - IZR a)) (d * (IZR b - IZR a)))%R
    with (hermite_value t (e a) (e b) ((e b - e x) / (IZR b - IZR x) * (IZR b - IZR a)) ((e y - e a) / (IZR y - IZR a) * (IZR b - IZR a))).
    2:{ unfold hermite_value, e. field. lra. }
    apply hermite_small; [exact Ht|exact HD|apply Hv; lia|apply Hv; lia| |].
    + apply slope_small with (y := b - a); [exact HD|lia|lia|apply Hv; lia|apply Hv; lia|now rewrite minus_IZR].
    + apply slope_small with (y := b - a); [exact HD|lia|lia|apply Hv; lia|apply Hv; lia|now rewrite minus_IZR].
Qed.

(** *** Rounding to five decimals *)
Lemma rd_close r k : Z.abs k <= 3 * 10 ^ 12 -> (Rabs (r - IZR k / 100000) <= 4 / 1000000)%R -> rd 5 r = rnd64 (IZR k / 100000).
Proof.
  intros Hk Hr. unfold rd. change (IZR (10 ^ 5)) with 100000%R.
  assert (Hkr : (Rabs (IZR k) <= 3000000000000)%R) by (rewrite <- abs_IZR; apply IZR_le; exact Hk).
  assert (E2 : (Rabs (rnd64 (r * 100000) - r * 100000) <= / 128)%R).
  { change (/ 128)%R with (bpow radix2 (47 - 54)). apply rnd_err; [lia|]. replace (r * 100000)%R with (IZR k + (r - IZR k / 100000) * 100000)%R by field.
    eapply Rle_trans; [apply Rabs_triang|]. rewrite Rabs_mult, (Rabs_right 100000) by lra. change (bpow radix2 47) with 140737488355328%R. lra. }
  rewrite (ZnearestA_near _ k); [reflexivity|].
  replace (rnd64 (r * 100000) - IZR k)%R with ((rnd64 (r * 100000) - r * 100000) + (r - IZR k / 100000) * 100000)%R by field.
  eapply Rle_lt_trans; [apply Rabs_triang|]. rewrite Rabs_mult, (Rabs_right 100000) by lra. lra.
Qed.

Lemma fraction_near k : Z.abs k <= 3 * 10 ^ 12 -> (Rabs (rnd64 (IZR k / 100000) - IZR k / 100000) <= / 100000000)%R /\ (Rabs (rnd64 (IZR k / 100000)) <= 30000001)%R.
Proof.
  intros Hk. assert (Hkr : (Rabs (IZR k) <= 3000000000000)%R) by (rewrite <- abs_IZR; apply IZR_le; exact Hk).
  assert (Hq : (Rabs (IZR k / 100000) <= 30000000)%R) by (unfold Rdiv; rewrite Rabs_mult, (Rabs_right (/ 100000)) by lra; lra).
  assert (E : (Rabs (rnd64 (IZR k / 100000) - IZR k / 100000) <= bpow radix2 (25 - 54))%R) by (apply rnd_err; [lia|change (bpow radix2 25) with 33554432%R; lra]).
  change (bpow radix2 (25 - 54)) with (/ 536870912)%R in E. split; [lra|].
  replace (rnd64 (IZR k / 100000)) with (IZR k / 100000 + (rnd64 (IZR k / 100000) - IZR k / 100000))%R by ring. eapply Rle_trans; [apply Rabs_triang|]. lra.
Qed.

(** *** A steady series comes back from any grid *)
Lemma steady_bounded data : steady data -> Forall (fun x => (Rabs (R64 x) <= 30000001)%R) data.
Proof.
  intros (k0 & d & H). apply Forall_forall. intros x Hx. apply In_nth_error in Hx. destruct Hx as [i Hi].
  destruct (H (Z.of_nat i) x) as (_ & Hk & Hr); [split; [lia|now rewrite Nat2Z.id]|]. rewrite Hr. now apply fraction_near.
Qed.

Lemma steady_supported data : steady data -> Forall supported data.
Proof.
  intros H. assert (B := steady_bounded data H). destruct H as (k0 & d & H). rewrite Forall_forall in B |- *. intros x Hx. specialize (B x Hx). apply In_nth_error in Hx. destruct Hx as [i Hi].
  destruct (H (Z.of_nat i) x) as (F & Hk & Hr); [split; [lia|now rewrite Nat2Z.id]|]. split; [exact F|]. split.
  - set (k := k0 + d * Z.of_nat i) in *. destruct (Z.eq_dec k 0) as [E|E].
    + left. rewrite Hr, E. unfold Rdiv. rewrite Rmult_0_l. apply round_0. apply valid_rnd_N.
    + right. destruct (fraction_near k Hk) as [N _]. change (FLT_exp (-1074) 53) with fexp64 in Hr. fold (rnd64 (IZR k / 100000)) in Hr. rewrite Hr.
      assert (K1 : (1 <= Rabs (IZR k))%R) by (rewrite <- abs_IZR; apply IZR_le; lia).
      assert (K2 : (/ 100000 <= Rabs (IZR k / 100000))%R) by (unfold Rdiv; rewrite Rabs_mult, (Rabs_right (/ 100000)) by lra; lra).
      assert (T := Rabs_triang_inv (IZR k / 100000) (IZR k / 100000 - rnd64 (IZR k / 100000))). rewrite <- Rabs_Ropp in N.
      replace (- (rnd64 (IZR k / 100000) - IZR k / 100000))%R with (IZR k / 100000 - rnd64 (IZR k / 100000))%R in N by ring.
      replace (IZR k / 100000 - (IZR k / 100000 - rnd64 (IZR k / 100000)))%R with (rnd64 (IZR k / 100000)) in T by ring.
      change (bpow radix2 (-64)) with (/ 18446744073709551616)%R. lra.
  - change (- 2 ^ 63) with (-9223372036854775808). change (2 ^ 63) with 9223372036854775808. unfold Rabs in B. destruct (Rcase_abs (R64 x)); lra.
Qed.

Lemma same_of_samples out data : length out = length data -> (forall pos x, sample_at data pos x -> exists y, sample_at out pos y /\ same_value y x) -> same_series out data.
Proof.
  intros Hl H. unfold same_series. revert out Hl H. induction data as [|x data IH]; intros [|y out] Hl H; try discriminate; constructor.
  - destruct (H 0 x) as (y' & [_ Hy] & V); [split; [lia|reflexivity]|]. cbn in Hy. injection Hy as <-. exact V.
  - apply IH; [now injection Hl|]. intros pos z [H0 Hz]. destruct (H (pos + 1) z) as (y' & [_ Hy] & V).
    + split; [lia|]. replace (Z.to_nat (pos + 1)) with (S (Z.to_nat pos)) by lia. exact Hz.
    + exists y'. split; [|exact V]. split; [exact H0|]. replace (Z.to_nat (pos + 1)) with (S (Z.to_nat pos)) in Hy by lia. exact Hy.
Qed.

Lemma steady_drawing p c data s : 1 <= s <= 133 -> pl_step c = s -> 1 <= len data <= 2 ^ 53 -> steady data ->
  Forall2 (fun pos v => finite v /\ R64 v = value_at data pos) (grid (len data) s) (pl_points c) ->
  finite (pl_min c) -> finite (pl_max c) -> Forall (fun x => (R64 (pl_min c) <= R64 x <= R64 (pl_max c))%R) data ->
  exists out, polynomial_to_data p c (length data) = Ok out /\ same_series out data.
Proof.
  intros Hs Hst Hn Hd Hpts Fn Fx Hr. assert (B := steady_bounded data Hd).
  assert (Hle : (R64 (pl_min c) <= R64 (pl_max c))%R).
  { destruct data as [|x data']; [cbn in Hn; lia|]. inversion Hr; lra. }
  destruct (drawing p c data s 30000001 Hs Hst Hn Hpts) as (out & Ho & Hl & H); auto.
  { split; [lra|]. apply Rle_trans with (bpow radix2 25); [change (bpow radix2 25) with 33554432%R; lra|apply bpow_le; lia]. }
  { apply value_bounded; [lra|exact B]. }
  exists out. split; [exact Ho|]. apply same_of_samples; [exact Hl|]. intros pos x Hx.
  assert (Hpos : 0 <= pos < len data) by (destruct Hx as [H0 Hx]; assert (L : (Z.to_nat pos < length data)%nat) by (apply nth_error_Some; congruence); unfold len; lia).
  destruct (H pos Hpos) as (y & w & r & Hy & Fy & Ry & Hw & Hrw & _). exists y. split; [exact Hy|]. destruct Hd as (k0 & d & Hd).
  destruct (Hd pos x Hx) as (F & Hk & Rx). split; [exact Fy|]. split; [exact F|].
  change (FLT_exp (-1074) 53) with fexp64 in Rx. fold (rnd64 (IZR (k0 + d * pos) / 100000)) in Rx.
  assert (N := drawn_near_line (len data) s (value_at data) pos w (IZR k0 / 100000) (IZR d / 100000) (/ 100000000) ltac:(lia) Hpos ltac:(lra)).
  assert (Eq : forall i, (IZR k0 / 100000 + IZR d / 100000 * IZR i = IZR (k0 + d * i) / 100000)%R) by (intros i; rewrite plus_IZR, mult_IZR; field).
  rewrite Eq in N. specialize (N ltac:(
    intros i Hi; destruct (sample_exists data i Hi) as [z Hz]; rewrite (value_at_sample _ _ _ Hz), Eq; destruct (Hd i z Hz) as (_ & Hki & Rz); rewrite Rz; now apply fraction_near) Hw).
  assert (Er : rd 5 r = R64 x).
  { rewrite Rx. apply rd_close; [exact Hk|]. replace (r - IZR (k0 + d * pos) / 100000)%R with ((r - w) + (w - IZR (k0 + d * pos) / 100000))%R by ring.
    eapply Rle_trans; [apply Rabs_triang|]. unfold ee in Hrw. change (bpow radix2 (-52)) with (/ 4503599627370496)%R in Hrw. lra. }
  rewrite Ry, Er. unfold clamp. rewrite Forall_forall in Hr. destruct Hx as [_ Hx]. destruct (Hr x (nth_error_In _ _ Hx)). rewrite Rmax_left, Rmin_left; lra.
Qed.

(** *** The error of an exact reconstruction *)
Definition no_error (err : f64) : Prop := zero err \/ fis_nan err = true.

Lemma mape_same data out err : data <> [] -> Z.of_nat (length data) <= 2 ^ 53 -> same_series out data -> calculate_error data out = Ok err ->
  no_error err /\ (Forall (fun x => R64 x <> 0%R) data -> zero err).
Proof.
  intros Hne Hn Hs H. unfold calculate_error, method_error, error_mape in H. destruct (negb _); [discriminate H|]. apply ok_inj in H. subst err.
  destruct (len_pos data Hne Hn) as [_ Hl]. set (L := len_f64 data) in *. clearbody L.
  set (t := fun o g : f64 => fabs (fdiv (fsub g o) o)).
  assert (T : forall o g, same_value g o -> (zero (t o g) \/ fis_nan (t o g) = true) /\ (R64 o <> 0%R -> zero (t o g))).
  { intros o g (Fg & Fo & E). assert (Z0 : zero (fsub g o)) by (apply fsub_same; assumption).
    destruct (zero_dec o Fo) as [Zo|No].
    - split; [right; apply nan_fabs, zero_zero_nan; assumption|intros N; destruct Zo; contradiction].
    - assert (zero (t o g)) by (apply zero_fabs, zero_div; assumption). auto. }
  assert (K : (Forall zero (zip_map t data out) \/ Exists (fun x => fis_nan x = true) (zip_map t data out)) /\ (Forall (fun x => R64 x <> 0%R) data -> Forall zero (zip_map t data out))).
  { clear Hne Hn. induction Hs as [|g o l l' V _ [IH1 IH2]]; cbn [zip_map]; [split; [left; constructor|constructor]|]. destruct (T o g V) as [T1 T2]. split.
    - destruct T1 as [T1|T1]; [|right; now constructor]. destruct IH1 as [IH1|IH1]; [left; now constructor|right; now constructor].
    - intros N. inversion N; subst. constructor; auto. }
  fold t. destruct K as [K1 K2]. split.
  - destruct K1 as [K1|K1]; [left; apply zero_div; [now apply zero_sum|lra]|right; apply nan_fdiv_l; apply nan_fold; now right].
  - intros N. apply zero_div; [apply zero_sum; auto|lra].
Qed.

Lemma no_error_stops e err : finite e -> (0 <= R64 e <= bpow radix2 29)%R -> no_error err -> flt (round_f64 e 3) (round_f64 err 4) = false.
Proof.
  intros Fe [H0 H1] H.
  assert (Be : bnd 29 e) by (split; [exact Fe|rewrite Rabs_right; lra]). destruct (round_f64_R 29 e 3 ltac:(lia) ltac:(lia) Be) as (F3 & R3 & _).
  assert (Rnn : forall d r, 3 <= d <= 5 -> (0 <= r)%R -> (0 <= rd d r)%R).
  { intros d r Hd Hr. unfold rd. pose proof (pow10_cases d Hd) as Hy. assert (Py : (0 < IZR (10 ^ d))%R) by (apply IZR_lt; lia).
    assert (Q : (0 <= rnd64 (r * IZR (10 ^ d)))%R) by (unfold rnd64; rewrite <- (round_0 radix2 fexp64 ZnearestE); apply round_le; [apply fexp_correct; exact prec53_gt_0|apply valid_rnd_N|apply Rmult_le_pos; lra]).
    assert (E0 : ZnearestA 0 = 0) by (apply ZnearestA_near; rewrite Rminus_diag_eq, Rabs_R0 by reflexivity; lra).
    assert (Q2 := @Zrnd_le ZnearestA (valid_rnd_N _) _ _ Q). rewrite E0 in Q2.
    unfold rnd64 at 1. rewrite <- (round_0 radix2 fexp64 ZnearestE). apply round_le; [apply fexp_correct; exact prec53_gt_0|apply valid_rnd_N|].
    apply Rmult_le_pos; [apply (IZR_le 0), Q2|]. apply Rlt_le, Rinv_0_lt_compat. exact Py. }
  destruct H as [[Fz Rz]|Hn].
  - assert (Bz : bnd 0 err) by (split; [exact Fz|rewrite Rz, Rabs_R0; cbn; lra]). destruct (round_f64_R 0 err 4 ltac:(lia) ltac:(lia) Bz) as (F4 & R4 & _).
    destruct (flt (round_f64 e 3) (round_f64 err 4)) eqn:E; [|reflexivity]. apply flt_R in E; [|assumption..]. rewrite R3, R4, Rz in E. assert (Q := Rnn 3 (R64 e) ltac:(lia) H0).
    assert (Q0 : rd 4 0 = 0%R).
    { unfold rd. assert (Z0 : rnd64 0 = 0%R) by (apply round_0; apply valid_rnd_N). rewrite Rmult_0_l, Z0. rewrite (ZnearestA_near 0 0) by (rewrite Rminus_diag_eq, Rabs_R0 by reflexivity; lra).
      unfold Rdiv. rewrite Rmult_0_l. exact Z0. }
    lra.
  - unfold flt. rewrite fcmp_nan_r; [reflexivity|]. unfold round_f64. apply nan_fdiv_l. destruct err; try discriminate Hn. reflexivity.
Qed.

(** *** The loop stops after the first round *)
Lemma steady_loop idw p data st e fuel : 1 <= len data <= 2 ^ 53 -> steady data -> data_stats data = Ok st -> feq (st_max st) (st_min st) = false ->
  finite e -> (0 <= R64 e <= bpow radix2 29)%R ->
  exists c err, bounded_loop idw p (S (S fuel)) data (round_f64 e 3) (frame0 st PPolynomial) (fadd e f1) 0 0 = Ok (c, err) /\
    holds data (frame0 st PPolynomial) c (hint_step data (baseline_points (len data))) /\ no_error err /\ (Forall (fun x => R64 x <> 0%R) data -> zero err).
Proof.
  intros Hn Hd Hst Hne Fe He. assert (Dne : data <> []) by (intros ->; cbn in Hn; lia). assert (Hs := steady_supported data Hd).
  cbn [bounded_loop]. rewrite (usable_bound e Fe He). cbn [negb]. cbv zeta. fold (len data). rewrite Z.add_0_r, Z.add_0_l.
  destruct (hinted_holds (frame0 st PPolynomial) (frame0 st PPolynomial) data (baseline_points (len data))) as (c & Hc & Hh); auto; try lia.
  rewrite Hc. cbn [bind]. destruct (stats_facts data Dne (supported_forall_finite _ Hs)) as (st' & Hst' & Fn & Fx & Hle & [i Hmn] & [j Hmx]). rewrite Hst in Hst'. apply ok_inj in Hst'. subst st'.
  assert (Hin : Forall (fun x => (R64 (st_min st) <= R64 x <= R64 (st_max st))%R) data).
  { destruct Hmn as (_ & A & _), Hmx as (_ & B & _). rewrite Forall_forall in A, B |- *. intros x Hx. split; auto. }
  assert (M : exists out, method_to_data idw p c (length data) = Ok out /\ same_series out data).
  { destruct Hh as [Hr ->]. unfold method_to_data. cbn [with_points frame0 poly_new pl_id]. apply (steady_drawing p _ data (hint_step data (baseline_points (len data)))); cbn [with_points frame0 poly_new pl_step pl_points pl_min pl_max]; auto.
    rewrite <- (map_id (pick data _)). apply picked; [lia|lia|]. intros x Hx. split; [|reflexivity]. now apply (proj1 (Forall_forall _ _) (supported_forall_finite _ Hs)). }
  destruct M as (out & Ho & Hsame). rewrite Ho. cbn [bind]. assert (Hlo : length out = length data) by (clear - Hsame; induction Hsame; cbn [length]; congruence).
  destruct (mape_total data out Hlo) as [e1 He1]. rewrite He1. cbn [bind]. destruct (mape_same data out e1 Dne ltac:(unfold len in Hn; lia) Hsame He1) as [N1 N2].
  replace (jump_increment 1 (len data)) with (Some (Z.max (len data / 10) 1)) by reflexivity.
  destruct (length (pl_points c) =? length data)%nat.
  - exists c, f0. split; [reflexivity|]. split; [exact Hh|]. split; [left; apply zero_f0|intros _; apply zero_f0].
  - rewrite (no_error_stops e e1 Fe He N1). cbn [negb]. exists c, e1. auto.
Qed.

(** Size of a stored polynomial. *)
Lemma varint_max z : (length (enc_varint z) <= 9)%nat.
Proof. unfold enc_varint. destruct (z <=? 250); [cbn; lia|]. destruct (z <? 2 ^ 16); [cbn [length]; rewrite le_bytes_length; lia|]. destruct (z <? 2 ^ 32); cbn [length]; rewrite le_bytes_length; lia. Qed.
Lemma varint_32 z : z < 2 ^ 32 -> (length (enc_varint z) <= 5)%nat.
Proof. intros H. unfold enc_varint. destruct (z <=? 250); [cbn; lia|]. destruct (z <? 2 ^ 16); [cbn [length]; rewrite le_bytes_length; lia|]. destruct (Z.ltb_spec z (2 ^ 32)); [cbn [length]; rewrite le_bytes_length; lia|lia]. Qed.
Lemma sample_max b x : (length (enc_sample b x) <= 8)%nat.
Proof.
  assert (K : forall lo hi, - 2 ^ 31 <= lo <= 0 -> 0 <= hi < 2 ^ 31 -> (length (enc_int (f64_as_int lo hi x)) <= 8)%nat).
  { intros lo hi H1 H2. assert (R := f64_as_int_range lo hi x ltac:(lia)). unfold enc_int. assert (V : zigzag (f64_as_int lo hi x) < 2 ^ 32) by (unfold zigzag; destruct (_ <? 0) eqn:E; lia).
    assert (Q := varint_32 _ V). lia. }
  destruct b; cbn [enc_sample].
  - unfold enc_f64. rewrite le_bytes_length. lia.
  - apply K; lia.
  - apply K; lia.
  - cbn. lia.
Qed.
Lemma poly_size c : (length (enc_poly c) <= 28 + 8 * length (pl_points c))%nat.
Proof.
  unfold enc_poly, enc_vec, enc_f64. rewrite !app_length, !le_bytes_length. assert (V := varint_max (Z.of_nat (length (pl_points c)))). unfold enc_usize, enc_u64.
  assert (F : (length (flat_map (enc_sample (pl_bitdepth c)) (pl_points c)) <= 8 * length (pl_points c))%nat).
  { clear V. generalize (pl_points c) as l. generalize (pl_bitdepth c) as b. intros b l. induction l as [|x l IH]; [cbn; lia|]. cbn [flat_map length]. rewrite app_length. assert (S1 := sample_max b x). lia. }
  assert (length (enc_ptype (pl_id c)) = 1%nat) by (destruct (pl_id c); reflexivity). assert (length (enc_bitdepth (pl_bitdepth c)) = 1%nat) by (destruct (pl_bitdepth c); reflexivity).
  cbn [length enc_u8]. lia.
Qed.

Lemma few_points data : 1 <= len data -> Z.of_nat (length (grid (len data) (hint_step data (baseline_points (len data))))) <= len data / 100 + 5.
Proof.
  intros Hn. assert (Hs := hint_step_small data (baseline_points (len data)) Hn (Z.le_refl _)). rewrite grid_count by lia. unfold hint_step, baseline_points in *. fold (len data) in *. set (n := len data) in *.
  assert (E := Z.div_mod n 100 ltac:(lia)). assert (B := Z.mod_pos_bound n 100 ltac:(lia)). set (q := n / 100) in *.
  destruct (q <=? 3) eqn:C.
  - assert (E3 := Z.div_mod n 3 ltac:(lia)). assert (B3 := Z.mod_pos_bound n 3 ltac:(lia)). set (s := n / 3) in *. assert (0 <= q) by lia.
    enough ((n - 1 + (Z.max s 1 - 1)) / Z.max s 1 <= 4) by lia. apply Z.div_le_upper_bound; lia.
  - assert (S100 : 100 <= n / q) by (apply Z.div_le_lower_bound; lia). set (s := n / q) in *. replace (Z.max s 1) with s by lia.
    enough ((n - 1 + (s - 1)) / s <= q + 2) by lia. apply Z.div_le_upper_bound; [lia|]. nia.
Qed.

(** What is stored for a steady series. *)
Lemma steady_shape e p data bytes st : 1 <= len data <= 2 ^ 53 -> steady data -> data_stats data = Ok st -> feq (st_max st) (st_min st) = false ->
  produced_usable e p Polynomial data bytes -> exists f, bytes = enc_poly f /\ holds data (frame0 st PPolynomial) f (hint_step data (baseline_points (len data))).
Proof.
  intros Hn Hd Hst Hne [H|(b & Fb & Rb & H)].
  - unfold compress in H. rewrite Hst in H. cbn [bind] in H. destruct (polynomial_shape data PPolynomial st Hst Hn) as [[E Hs]|[_ (f & Hs & Hh)]]; [congruence|].
    rewrite Hs in H. apply ok_inj in H. subst bytes. eauto.
  - unfold compress_bounded in H. rewrite Hst in H. cbn [bind] in H. unfold polynomial_allowed_error in H. rewrite Hst in H. cbn [bind] in H. unfold poly_compress_bounded in H.
    cbn [poly_new pl_max pl_min] in H. rewrite Hne in H. cbv zeta in H.
    destruct (steady_loop (e_idw e) p data st b 22 Hn Hd Hst Hne Fb Rb) as (c & err & Hl & Hh & _). change 24%nat with (S (S 22)) in H. unfold frame0 in Hl. rewrite Hl in H. cbn [bind cr_data] in H.
    apply ok_inj in H. subst bytes. exists c. split; [reflexivity|exact Hh].
Qed.

(** *** C77 *)
(** A steady series comes back exactly from a polynomial frame, whatever the allowed error, and the frame keeps only about one sample in a hundred. *)
Theorem C77_frame : forall e p data bytes,
  data <> [] -> Z.of_nat (length data) <= 2 ^ 53 -> steady data -> produced_usable e p Polynomial data bytes ->
  (exists out, decompress e p Polynomial (length data) bytes = Ok out /\ same_series out data) /\
  Z.of_nat (length bytes) <= 8 * (Z.of_nat (length data) / 100) + 68.
Proof.
  intros e p data bytes Hne Hn Hd Hp. assert (Hlen := nonempty_len data Hne). assert (Hs := steady_supported data Hd).
  destruct (stats_facts data Hne (supported_forall_finite _ Hs)) as (st & Hst & Fn & Fx & Hle & [i Hmn] & [j Hmx]).
  destruct (feq (st_max st) (st_min st)) eqn:E.
  - split.
    + destruct (constant_frame e p data bytes st Hne Hn Hs Hst E Hp) as [Ho Hsame]. eauto.
    + assert (Q : 0 <= Z.of_nat (length data) / 100) by (apply Z.div_pos; lia).
      destruct Hp as [H|(b & Fb & Rb & H)].
      * unfold compress in H. rewrite Hst in H. cbn [bind] in H. destruct (polynomial_shape data PPolynomial st Hst (conj Hlen Hn)) as [[_ Hsh]|[E' _]]; [|congruence].
        rewrite Hsh in H. apply ok_inj in H. subst bytes. assert (P := poly_size (frame0 st PPolynomial)). cbn [frame0 poly_new pl_points length] in P. lia.
      * unfold compress_bounded in H. rewrite Hst in H. cbn [bind] in H. destruct (allowed_shape (e_idw e) p data b PPolynomial st Hst (conj Hlen Hn)) as [[_ Hsh]|[E' _]]; [|congruence].
        rewrite Hsh in H. apply ok_inj in H. cbn [cr_data] in H. subst bytes. assert (P := poly_size (frame0 st PPolynomial)). cbn [frame0 poly_new pl_points length] in P. lia.
  - destruct (steady_shape e p data bytes st (conj Hlen Hn) Hd Hst E Hp) as (f & -> & Hh). split.
    + cbn [decompress]. unfold polynomial_decompress. rewrite (decode_holds _ _ _ _ (conj Hlen Hn) Hh). cbn [bind].
      destruct Hh as [Hr ->]. unfold poly_to_data, method_to_data. cbn [conv_poly with_points frame0 poly_new pl_max pl_min pl_id]. rewrite E.
      apply (steady_drawing p _ data (hint_step data (baseline_points (len data)))); cbn [conv_poly with_points frame0 poly_new pl_step pl_points pl_min pl_max pl_bitdepth]; auto.
      * apply picked; [lia|lia|]. intros x Hx. assert (Hc := stats_conv data st Hs Hst). rewrite Forall_forall in Hc. destruct (Hc x Hx) as (F & _ & R). now split.
      * destruct Hmn as (_ & A & _), Hmx as (_ & B & _). rewrite Forall_forall in A, B |- *. intros x Hx. split; auto.
    + assert (P := poly_size f). destruct Hh as [Hr Ef]. rewrite Ef in P at 2. cbn [with_points pl_points] in P. unfold pick in P. rewrite map_length in P.
      assert (K := few_points data Hlen). unfold len in *. lia.
Qed.
Print Assumptions C77_frame.

(** The reported error is 0, or NaN if some sample is 0 (then the frame is still exact). *)
Theorem C77_reported_error : forall e p data bound r,
  data <> [] -> Z.of_nat (length data) <= 2 ^ 53 -> steady data -> finite bound -> (0 <= R64 bound <= bpow radix2 29)%R ->
  compress_results e p Polynomial data bound = Ok r ->
  (finite (cr_error r) /\ R64 (cr_error r) = 0%R) \/ (fis_nan (cr_error r) = true /\ exists x, In x data /\ R64 x = 0%R).
Proof.
  intros e p data b r Hne Hn Hd Fb Rb H. assert (Hlen := nonempty_len data Hne). assert (Hs := steady_supported data Hd).
  destruct (stats_facts data Hne (supported_forall_finite _ Hs)) as (st & Hst & Fn & Fx & Hle & [i Hmn] & [j Hmx]).
  unfold compress_results in H. rewrite Hst in H. cbn [bind] in H. destruct (feq (st_max st) (st_min st)) eqn:E.
  - destruct (allowed_shape (e_idw e) p data b PPolynomial st Hst (conj Hlen Hn)) as [[_ Hsh]|[E' _]]; [|congruence]. rewrite Hsh in H. apply ok_inj in H. subst r. left. exact zero_f0.
  - unfold polynomial_allowed_error in H. rewrite Hst in H. cbn [bind] in H. unfold poly_compress_bounded in H.
    cbn [poly_new pl_max pl_min] in H. rewrite E in H. cbv zeta in H.
    destruct (steady_loop (e_idw e) p data st b 22 (conj Hlen Hn) Hd Hst E Fb Rb) as (c & err & Hl & Hh & N1 & N2). change 24%nat with (S (S 22)) in H. unfold frame0 in Hl. rewrite Hl in H. cbn [bind cr_data] in H.
    apply ok_inj in H. subst r. cbn [cr_error pl_error]. destruct N1 as [N1|N1]; [left; exact N1|].
    assert (D : (exists x, In x data /\ R64 x = 0%R) \/ Forall (fun x => R64 x <> 0%R) data).
    { clear. induction data as [|x l IH]; [right; constructor|]. destruct (Req_dec (R64 x) 0); [left; exists x; split; [now left|assumption]|].
      destruct IH as [(y & Hy & Ry)|IH]; [left; exists y; split; [now right|assumption]|right; now constructor]. }
    destruct D as [D|D]; [right; auto|left; exact (N2 D)].
Qed.
Print Assumptions C77_reported_error.

(** *** Files *)
Lemma piece_of (l : list f64) chunks d : concat chunks = l -> In d chunks -> exists pre post, l = pre ++ d ++ post.
Proof. intros <- H. apply in_split in H. destruct H as (c1 & c2 & ->). exists (concat c1), (concat c2). now rewrite concat_app. Qed.

Lemma steady_piece pre d post : steady (pre ++ d ++ post) -> steady d.
Proof.
  intros (k0 & q & H). exists (k0 + q * Z.of_nat (length pre)), q. intros pos x [H0 Hx]. destruct (H (pos + Z.of_nat (length pre)) x) as (F & K & R).
  - split; [lia|]. replace (Z.to_nat (pos + Z.of_nat (length pre))) with (length pre + Z.to_nat pos)%nat by lia.
    rewrite nth_error_app2 by lia. replace (length pre + Z.to_nat pos - length pre)%nat with (Z.to_nat pos) by lia. rewrite nth_error_app1; [exact Hx|]. apply nth_error_Some. congruence.
  - replace (k0 + q * Z.of_nat (length pre) + q * pos) with (k0 + q * (pos + Z.of_nat (length pre))) by ring. auto.
Qed.

Lemma file_size e p data c err level bytes :
  (forall d f pre post, d <> [] -> Z.of_nat (length d) <= 131072 -> clean_data data = pre ++ d ++ post -> frame_of e p (call_for c err level d) = Ok f ->
     Z.of_nat (length (fr_data f)) <= 8 * (Z.of_nat (length d) / 100) + 68) ->
  compress_data e p data c err level = Ok bytes -> Z.of_nat (length bytes) <= Z.of_nat (length data) / 12 + 900.
Proof.
  intros HF C. destruct (compress_data_calls e p data c err level) as (sizes & Hs & E). rewrite E in C. clear E.
  destruct (add_all e p (map (call_for c err level) _)) as [s|] eqn:A; [|discriminate C]. cbn [bind] in C. apply ok_inj in C. subst bytes. apply C04_frame_counter in A. destruct A as (A & _ & _).
  destruct (cut_facts (clean_data data) sizes Hs) as (Hc & Hall & Hlen). assert (Hcnt := sizes_count _ _ Hs).
  assert (G : Z.of_nat (length (flat_map enc_frame (s_frames s))) <= 8 * (Z.of_nat (length (concat (cut (clean_data data) sizes))) / 100) + 96 * Z.of_nat (length (cut (clean_data data) sizes)) /\
    length (s_frames s) = length (cut (clean_data data) sizes)).
  { assert (P : forall d, In d (cut (clean_data data) sizes) -> exists pre post, clean_data data = pre ++ d ++ post) by (intros d Hd; now apply (piece_of _ (cut (clean_data data) sizes))).
    clear Hc Hlen Hcnt Hs. revert A P Hall. generalize (s_frames s). induction (cut (clean_data data) sizes) as [|d l IH]; cbn [map]; intros fs A P Hall.
    - inversion A. cbn. split; [lia|reflexivity].
    - inversion A as [|? f ? fs' Hf Hfs]; subst. inversion Hall as [|? ? [D1 D2] D3]; subst. destruct (IH fs' Hfs ltac:(intros d' Hd'; apply P; now right) D3) as [I1 I2].
      destruct (P d (or_introl eq_refl)) as (pre & post & Hp). assert (F := HF d f pre post D1 D2 Hp Hf). split; [|cbn [length]; now rewrite I2].
      cbn [flat_map concat length]. rewrite !app_length. unfold enc_frame at 1. unfold enc_bytes. rewrite !app_length, tag_length. unfold enc_usize, enc_u64.
      assert (V1 := varint_max (fr_size f)). assert (V2 := varint_max (fr_samples f)). assert (V3 := varint_max (Z.of_nat (length (fr_data f)))).
      assert (Q : Z.of_nat (length d) / 100 + Z.of_nat (length (concat l)) / 100 <= (Z.of_nat (length d) + Z.of_nat (length (concat l))) / 100) by (apply Z.div_le_lower_bound; [lia|]; assert (Z1 := Z.mul_div_le (Z.of_nat (length d)) 100); assert (Z2 := Z.mul_div_le (Z.of_nat (length (concat l))) 100); lia).
      rewrite !Nat2Z.inj_add. lia. }
  rewrite Hc in G. destruct G as [G1 G2]. unfold stream_to_bytes, header_bytes, enc_vec, enc_usize, enc_u64, BRRO. rewrite !app_length, le_bytes_length. assert (V := varint_max (Z.of_nat (length (s_frames s)))).
  assert (L := clean_data_length data). cbn [length].
  set (m := Z.of_nat (length (clean_data data))) in *. set (n := Z.of_nat (length data)) in *. assert (Hm : 0 <= m <= n) by (unfold m, n; lia).
  assert (Q : 8 * (m / 100) + 96 * (m / 131072) <= n / 12) by (apply Z.div_le_lower_bound; [lia|]; assert (Z1 := Z.mul_div_le m 100); assert (Z2 := Z.mul_div_le m 131072); lia).
  rewrite Hlen in G1. lia.
Qed.

Lemma cli_bound err : 0 <= err <= 50 -> finite (f32_as_f64 (cli_error err)) /\ (0 <= R64 (f32_as_f64 (cli_error err)) <= bpow radix2 29)%R.
Proof.
  intros H. destruct (cli_bounds err err ltac:(lia) ltac:(lia)) as (F & _ & [L _] & U). split; [exact F|]. split; [exact L|]. apply Rle_trans with 1%R; [exact U|exact (bpow_le radix2 0 29 ltac:(lia))].
Qed.

(** The command line tool with the polynomial compressor: exact, and the file has at most n/12 + 900 bytes (the samples alone take 8n). *)
Theorem C77_file : forall e p data err level,
  env_ok e -> 0 <= err <= 50 -> 0 <= level <= 6 -> fits_counter p data -> steady data ->
  exists bytes out, compress_data e p data Polynomial err level = Ok bytes /\ decompress_data e p bytes = Ok out /\ same_series out data /\
    Z.of_nat (length bytes) <= Z.of_nat (length data) / 12 + 900.
Proof.
  intros e p data err level He Herr Hlev Hfit Hd. assert (Hcl : clean_data data = data) by (apply clean_data_id, supported_forall_finite, steady_supported, Hd).
  destruct (cli_bound err Herr) as [Fb Rb].
  assert (Fr : forall d f, frame_of e p (call_for Polynomial err level d) = Ok f -> produced_usable e p Polynomial d (fr_data f) /\ fr_compressor f = Polynomial /\ fr_samples f = Z.of_nat (length d)).
  { intros d f Hf. unfold call_for in Hf. cbn [is_bounded frame_of] in Hf. unfold frame_compress_bounded in Hf.
    destruct (compress_bounded e p Polynomial d (f32_as_f64 (cli_error err))) as [b|] eqn:Eb; [|discriminate Hf]. cbn [bind] in Hf. apply ok_inj in Hf. subst f. split; [|split; reflexivity].
    right. eauto. }
  destruct (compress_data_calls e p data Polynomial err level) as (sizes & Hs & E). destruct (cut_facts _ _ Hs) as (Hc1 & Hc2 & Hc3).
  assert (Hcnt := counter_ok p data sizes Hfit Hs).
  destruct (library_runs e p (map (call_for Polynomial err level) (cut (clean_data data) sizes)) He
    (proper_calls Polynomial err level _ ltac:(lia) Hlev Hc2) ltac:(rewrite map_length, Hc3; exact Hcnt)) as (s & outs & H1 & H2 & H3 & H4).
  assert (Ec : compress_data e p data Polynomial err level = Ok (stream_to_bytes s)) by (rewrite E, H1; reflexivity).
  exists (stream_to_bytes s), (concat outs). split; [exact Ec|]. split; [unfold decompress_data; rewrite H2; exact H3|]. split.
  - rewrite <- Hcl at 1. rewrite <- Hc1.
    assert (P : forall d, In d (cut (clean_data data) sizes) -> steady d).
    { intros d Hin. destruct (piece_of _ _ d Hc1 Hin) as (pre & post & Hp). rewrite Hcl in Hp. apply (steady_piece pre d post). now rewrite <- Hp. }
    clear - H4 P Hc2 Fr. revert outs H4 P Hc2. induction (cut (clean_data data) sizes) as [|d l IH]; cbn [map]; intros outs H4 P Hc2.
    + inversion H4. constructor.
    + inversion H4 as [|? o ? outs' (f & Hf & Ho & Hl) H5]; subst. inversion Hc2 as [|? ? [D1 D2] D3]; subst. cbn [concat]. apply Forall2_app; [|apply IH; auto; intros d' Hd'; apply P; now right].
      destruct (Fr d f Hf) as (Fp & Fc & Fs). destruct (C77_frame e p d (fr_data f) D1 ltac:(lia) (P d (or_introl eq_refl)) Fp) as ((out & Hout & Hsame) & _).
      unfold frame_decompress in Ho. rewrite Fc, Fs, Nat2Z.id in Ho. rewrite Hout in Ho. apply ok_inj in Ho. subst o. exact Hsame.
  - apply (file_size e p data Polynomial err level); [|exact Ec]. intros d f pre post D1 D2 Hp Hf. destruct (Fr d f Hf) as (Fp & _ & _).
    rewrite Hcl in Hp. apply (C77_frame e p d (fr_data f) D1 ltac:(lia)); [|exact Fp]. apply (steady_piece pre d post). now rewrite <- Hp.
Qed.
Print Assumptions C77_file.

(** With automatic selection (and no sampling of the chunk, the default) the file is no longer than that if no sample is 0. *)
Theorem C77_auto_size : forall e p data err bytes,
  env_ok e -> 0 <= err <= 50 -> steady data -> (forall x, In x data -> R64 x <> 0%R) ->
  compress_data e p data Auto err 0 = Ok bytes -> Z.of_nat (length bytes) <= Z.of_nat (length data) / 12 + 900.
Proof.
  intros e p data err bytes He Herr Hd Hz. assert (Hcl : clean_data data = data) by (apply clean_data_id, supported_forall_finite, steady_supported, Hd).
  destruct (cli_bound err Herr) as [Fb Rb]. assert (Nb := cli_error_nonneg err ltac:(lia)).
  apply file_size. intros d f pre post D1 D2 Hp Hf. rewrite Hcl in Hp. assert (Sd : steady d) by (apply (steady_piece pre d post); now rewrite <- Hp).
  assert (Fin : Forall finite d) by (apply supported_forall_finite, steady_supported, Sd). assert (Q0 : 0 <= Z.of_nat (length d) / 100) by (apply Z.div_pos; lia).
  unfold call_for in Hf. cbn [is_bounded frame_of] in Hf.
  assert (AE : all_equal d \/ ~ all_equal d) by apply Classical_Prop.classic. destruct AE as [AE|AE].
  - destruct (C20_automatic_selection e p d (cli_error err) 0 He D1 ltac:(lia) Fin ltac:(lia) Nb) as (f' & r & Hb & _ & Hr & Hdat & Hcon & _). rewrite Hb in Hf. apply ok_inj in Hf. subst f'.
    rewrite Hcon in Hr by exact AE. unfold compress_results in Hr. destruct (data_stats d) as [st|]; [|discriminate Hr]. cbn [bind] in Hr. apply ok_inj in Hr. subst r. rewrite Hdat.
    cbn [constant_compressor cr_data]. unfold enc_constant. rewrite !app_length. assert (V := sample_max (st_bitdepth st) (st_min st)). assert (length (enc_bitdepth (st_bitdepth st)) = 1%nat) by (destruct (st_bitdepth st); reflexivity).
    cbn [enc_u8 length]. lia.
  - destruct (C20_unsampled_choice e p d (cli_error err) 0 He D1 ltac:(lia) Fin AE ltac:(lia) ltac:(cbn [level_sample]; lia) Nb) as (f' & r & Hb & _ & _ & _ & _ & Best). rewrite Hb in Hf. apply ok_inj in Hf. subst f'.
    assert (R : exists r', compress_results e p Polynomial d (f32_as_f64 (cli_error err)) = Ok r').
    { assert (Hlen := nonempty_len d D1). destruct (stats_facts d D1 Fin) as (st & Hst & _). unfold compress_results. rewrite Hst. cbn [bind].
      destruct (allowed_shape (e_idw e) p d (f32_as_f64 (cli_error err)) PPolynomial st Hst ltac:(unfold len in *; lia)) as [[_ Hsh]|[_ (c & er & Hsh & _)]]; eauto. }
    destruct R as [r' Hr']. destruct (C77_reported_error e p d _ r' D1 ltac:(lia) Sd Fb Rb Hr') as [[Fz Rz]|[_ (x & Hx & Rx)]].
    2:{ exfalso. apply (Hz x); [|exact Rx]. rewrite Hp. apply in_or_app. right. apply in_or_app. now left. }
    assert (L : (length (fr_data f) <= length (cr_data r'))%nat).
    { apply (Best Polynomial r'); [cbn; tauto|exact Hr'|]. apply (proj2 (fle_R (cr_error r') (f32_as_f64 (cli_error err)) Fz Fb)). rewrite Rz. apply Rb. }
    assert (B : compress_bounded e p Polynomial d (f32_as_f64 (cli_error err)) = Ok (cr_data r')).
    { unfold compress_results in Hr'. unfold compress_bounded. destruct (data_stats d) as [st|]; [|discriminate Hr']. cbn [bind] in *. rewrite Hr'. reflexivity. }
    destruct (C77_frame e p d (cr_data r') D1 ltac:(lia) Sd (or_intror (ex_intro _ _ (conj Fb (conj Rb B))))) as [_ Sz]. lia.
Qed.
Print Assumptions C77_auto_size.

(** Integer progressions are steady, and so are progressions of decimal fractions. *)
Lemma integers_steady data a b : (forall pos x, sample_at data pos x -> is_int x (a + b * pos) /\ Z.abs (a + b * pos) <= 30000000) -> steady data.
Proof.
  intros H. exists (100000 * a), (100000 * b). intros pos x Hx. destruct (H pos x Hx) as [[F R] B]. split; [exact F|]. split; [lia|].
  replace (100000 * a + 100000 * b * pos) with ((a + b * pos) * 100000) by ring. replace (IZR ((a + b * pos) * 100000) / 100000)%R with (IZR (a + b * pos)) by (rewrite mult_IZR; field).
  change (FLT_exp (-1074) 53) with fexp64. rewrite rnd64_int; [exact R|]. lia.
Qed.
Definition ramp (k0 d : Z) (n : nat) : list f64 := map (fun i => fdiv (int_as_f64 (k0 + d * i)) (int_as_f64 100000)) (range n).
Lemma ramp_steady k0 d n : (forall pos, 0 <= pos < Z.of_nat n -> Z.abs (k0 + d * pos) <= 3 * 10 ^ 12) -> steady (ramp k0 d n).
Proof.
  intros H. exists k0, d. intros pos x [H0 Hx]. unfold ramp in Hx. rewrite nth_error_map in Hx. destruct (nth_error (range n) (Z.to_nat pos)) as [i|] eqn:Ei; [|discriminate Hx]. cbn [option_map] in Hx.
  assert (Hi : (Z.to_nat pos < n)%nat) by (rewrite <- (range_length n); apply nth_error_Some; congruence). rewrite range_nth in Ei by exact Hi. assert (i = pos) by (assert (Some i = Some (Z.of_nat (Z.to_nat pos))) by congruence; assert (i = Z.of_nat (Z.to_nat pos)) by congruence; lia). subst i.
  assert (Ex : x = fdiv (int_as_f64 (k0 + d * pos)) (int_as_f64 100000)) by congruence. assert (B := H pos ltac:(lia)).
  destruct (int_as_f64_exact (k0 + d * pos) ltac:(lia)) as [R1 F1]. destruct (int_as_f64_exact 100000 ltac:(lia)) as [R2 F2].
  destruct (fdiv_R (int_as_f64 (k0 + d * pos)) (int_as_f64 100000) F1) as [R F].
  - rewrite R2. lra.
  - rewrite R1, R2. destruct (fraction_near (k0 + d * pos) B) as [_ Q]. eapply Rle_lt_trans; [exact Q|]. apply Rlt_trans with (bpow radix2 25); [change (bpow radix2 25) with 33554432%R; lra|apply bpow_lt; lia].
  - subst x. split; [exact F|]. split; [exact B|]. rewrite R, R1, R2. reflexivity.
Qed.

(** A thousand samples 7.25, 7.35, 7.45, ...: a file of 158 bytes with an allowed error of 0. *)
Example C77_example : forall e, steady (ramp 725000 10000 1000) /\ fits_counter Dev (ramp 725000 10000 1000) /\
  (do b <- compress_data e Dev (ramp 725000 10000 1000) Polynomial 0 0; Ok (length b)) = Ok 158%nat.
Proof.
  intros e. split; [apply ramp_steady; intros; lia|]. split; [apply fits_small; vm_compute; reflexivity|]. vm_compute. reflexivity.
Qed.
