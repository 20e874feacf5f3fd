(** Forward error analysis of the error metrics. *)
From Coq Require Import List ZArith Bool Lia Reals Lra ZifyBool.
From Flocq Require Import Core Plus_error Relative IEEE754.BinarySingleNaN IEEE754.Binary IEEE754.Bits.
From Verif Require Import Base Model_Float Spec Spec_Metric FloatFacts ArithFacts Model_Utils MetricFacts PolyApiFacts ExactFacts.
Import ListNotations.
Open Scope Z_scope.

Notation u := (bpow radix2 (-53)).
Notation eta := (bpow radix2 (-1075)).

Lemma u_pos : (0 < u)%R. Proof. apply bpow_gt_0. Qed.
Lemma u_small : (u <= / 1024)%R. Proof. change (/ 1024)%R with (bpow radix2 (-10)). apply bpow_le. lia. Qed.
Lemma eta_pos : (0 < eta)%R. Proof. apply bpow_gt_0. Qed.

(** Rounding: relative error u, plus an absolute error from underflow. *)
Lemma rnd_rel r : exists d h, (Rabs d <= u)%R /\ (Rabs h <= eta)%R /\ rnd64 r = (r * (1 + d) + h)%R.
Proof.
  destruct (error_N_FLT radix2 (-1074) 53 eq_refl (fun x => negb (Z.even x)) r) as (d & h & Hd & Hh & _ & E).
  exists d, h. split; [|split; [|exact E]].
  - eapply Rle_trans; [exact Hd|]. change (/ 2)%R with (bpow radix2 (-1)). rewrite <- bpow_plus. apply bpow_le. lia.
  - eapply Rle_trans; [exact Hh|]. change (/ 2)%R with (bpow radix2 (-1)). rewrite <- bpow_plus. apply bpow_le. lia.
Qed.
Lemma fmt x : generic_format radix2 (FLT_exp (-1074) 53) (R64 x). Proof. apply Binary.generic_format_B2R. Qed.
Lemma rnd_plus x y : generic_format radix2 (FLT_exp (-1074) 53) x -> generic_format radix2 (FLT_exp (-1074) 53) y ->
  exists d, (Rabs d <= u)%R /\ rnd64 (x + y) = ((x + y) * (1 + d))%R.
Proof.
  intros Fx Fy. destruct (@FLT_plus_error_N_ex radix2 (-1074) 53 prec53_gt_0 (fun x => negb (Z.even x)) x y Fx Fy) as (d & Hd & E).
  exists d. split; [|exact E]. eapply Rle_trans; [exact Hd|].
  assert (U : u_ro radix2 53 = u) by (unfold u_ro; change (/ 2)%R with (bpow radix2 (-1)); rewrite <- bpow_plus; f_equal; lia).
  rewrite U. assert (P := u_pos). apply Rmult_le_reg_r with (1 + u)%R; [lra|]. unfold Rdiv. rewrite Rmult_assoc, Rinv_l by lra. nra.
Qed.

Lemma up_pow k : (INR k * u <= / 2)%R -> ((1 + u) ^ k <= 1 + 2 * INR k * u)%R.
Proof.
  assert (P := u_pos). induction k as [|k IH]; intros H; [cbn; lra|]. rewrite S_INR in *. cbn [pow].
  assert (0 <= INR k)%R by apply pos_INR. specialize (IH ltac:(nra)).
  apply Rle_trans with ((1 + u) * (1 + 2 * INR k * u))%R; [apply Rmult_le_compat_l; lra|].
  assert (2 * INR k * u * u <= u)%R by nra. nra.
Qed.
Lemma dn_pow k : (1 - INR k * u <= (1 - u) ^ k)%R.
Proof.
  assert (P := u_pos). assert (Q := u_small). induction k as [|k IH]; [cbn; lra|]. rewrite S_INR. cbn [pow].
  assert (0 <= INR k)%R by apply pos_INR.
  apply Rle_trans with ((1 - u) * (1 - INR k * u))%R; [nra|]. apply Rmult_le_compat_l; lra.
Qed.
Lemma up_ge1 k : (1 <= (1 + u) ^ k)%R.
Proof. assert (P := u_pos). induction k as [|k IH]; cbn [pow]; [lra|nra]. Qed.
Lemma dn_range k : (0 <= (1 - u) ^ k <= 1)%R.
Proof. assert (P := u_pos). assert (Q := u_small). induction k as [|k IH]; cbn [pow]; [lra|nra]. Qed.

Definition sumR (l : list R) : R := fold_right Rplus 0%R l.

Lemma nneg_finite_R x : nneg x -> finite x -> (0 <= R64 x)%R.
Proof. intros [H|H] F; [apply fis_finite_not_nan in F; congruence|now apply sign_R]. Qed.

Lemma finite_not_inf x : finite x -> ~ inf_or_nan x.
Proof. intros F [H|H]; [apply fis_finite_not_nan in F; congruence|subst; discriminate]. Qed.
Lemma nneg_class x : nneg x -> inf_or_nan x \/ finite x.
Proof.
  intros H. destruct (fis_nan x) eqn:E; [left; now left|]. destruct H as [H|H]; [congruence|].
  destruct (inf_class x E H) as [F| ->]; [now right|left; now right].
Qed.

(** A finite sum of non-negative terms: all terms are finite and the relative error is at most u per addition. *)
Lemma fold_acc l acc : nneg acc -> Forall nneg l -> finite (fold_left fadd l acc) ->
  finite acc /\ Forall finite l /\
  ((1 - u) ^ length l * (R64 acc + sumR (map R64 l)) <= R64 (fold_left fadd l acc) <= (1 + u) ^ length l * (R64 acc + sumR (map R64 l)))%R.
Proof.
  assert (P := u_pos). assert (Q := u_small).
  intros Ha Hl. revert acc Ha. induction Hl as [|x l Hx Hl IH]; intros acc Ha F; cbn [fold_left length pow map sumR fold_right] in *.
  - split; [exact F|]. split; [constructor|]. lra.
  - destruct (IH (fadd acc x) (nneg_fadd _ _ Ha Hx) F) as (Fs & Fl & B).
    assert (C : finite acc /\ finite x).
    { destruct (nneg_class acc Ha) as [C|C]; [exfalso; apply (finite_not_inf _ Fs), inf_or_nan_fadd; auto|].
      destruct (nneg_class x Hx) as [D|D]; [exfalso; apply (finite_not_inf _ Fs), inf_or_nan_fadd; auto|]. auto. }
    destruct C as [Fa Fx]. split; [exact Fa|]. split; [now constructor|].
    assert (Ra := nneg_finite_R _ Ha Fa). assert (Rx := nneg_finite_R _ Hx Fx).
    destruct (fadd_class acc x Fa Fx Ra Rx) as [E|[_ E]]; [rewrite E in Fs; discriminate|].
    destruct (rnd_plus (R64 acc) (R64 x) (fmt acc) (fmt x)) as (d & Hd & Ed). rewrite E, Ed in B. apply Rabs_le_inv in Hd.
    assert (S0 : (0 <= sumR (map R64 l))%R).
    { clear -Hl Fl. induction Hl as [|y l Hy Hl IH]; [cbn; lra|]. inversion Fl as [|? ? F1 F2]; subst. specialize (IH F2). assert (Ry := nneg_finite_R _ Hy F1).
      change (sumR (map R64 (y :: l))) with (R64 y + sumR (map R64 l))%R. lra. }
    change (fold_right Rplus 0%R (map R64 l)) with (sumR (map R64 l)).
    assert (U1 := up_ge1 (length l)). assert (D1 := dn_range (length l)).
    set (a := R64 acc) in *. set (b := R64 x) in *. set (S' := sumR (map R64 l)) in *. set (U := ((1 + u) ^ length l)%R) in *. set (D := ((1 - u) ^ length l)%R) in *.
    split.
    + eapply Rle_trans; [|apply B]. assert ((1 - u) * (a + b) <= (a + b) * (1 + d))%R by nra.
      assert ((1 - u) * S' <= S')%R by nra. replace ((1 - u) * D * (a + (b + S')))%R with (D * ((1 - u) * (a + b) + (1 - u) * S'))%R by ring.
      apply Rmult_le_compat_l; lra.
    + eapply Rle_trans; [apply B|]. assert ((a + b) * (1 + d) <= (1 + u) * (a + b))%R by nra.
      assert (S' <= (1 + u) * S')%R by nra. replace ((1 + u) * U * (a + (b + S')))%R with (U * ((1 + u) * (a + b) + (1 + u) * S'))%R by ring.
      apply Rmult_le_compat_l; lra.
Qed.

(** A computed term and its exact value. *)
Definition term_ok (t : f64) (T : R) : Prop :=
  nneg t /\ (0 <= T)%R /\ (finite t -> ((1 - u) ^ 3 * T - eta <= R64 t <= (1 + u) ^ 3 * T + eta)%R).

Lemma terms_sum l Ts : Forall2 term_ok l Ts -> Forall finite l ->
  (0 <= sumR Ts)%R /\
  ((1 - u) ^ 3 * sumR Ts - INR (length l) * eta <= sumR (map R64 l) <= (1 + u) ^ 3 * sumR Ts + INR (length l) * eta)%R.
Proof.
  induction 1 as [|t T l Ts (Hn & H0 & Ht) Hl IH]; intros Fl.
  - cbn. lra.
  - inversion Fl as [|? ? F1 F2]; subst. destruct (IH F2) as [I1 I2]. specialize (Ht F1). cbn [length map sumR fold_right].
    change (fold_right Rplus 0%R) with sumR. rewrite S_INR. split; [lra|]. lra.
Qed.

Lemma fdiv_finite_l x y : finite (fdiv x y) -> finite y -> finite x.
Proof.
  intros F Fy. destruct x as [s|s|s pl H|s m e H]; try reflexivity; exfalso.
  - destruct y as [s'|s'|s' pl' H'|s' m' e' H']; try discriminate.
  - destruct y as [s'|s'|s' pl' H'|s' m' e' H']; discriminate.
Qed.

Lemma mean_accuracy l Ts : Forall2 term_ok l Ts -> l <> [] -> Z.of_nat (length l) <= 2 ^ 50 ->
  finite (fdiv (fsum l) (int_as_f64 (Z.of_nat (length l)))) ->
  let mean := (sumR Ts / INR (length l))%R in
  Forall finite l /\
  (Rabs (R64 (fdiv (fsum l) (int_as_f64 (Z.of_nat (length l)))) - mean) <= INR (length l + 4) * bpow radix2 (-52) * mean + bpow radix2 (-1070))%R.
Proof.
  intros HT Hne Hn F mean. assert (P := u_pos). assert (Q := u_small). assert (PE := eta_pos).
  assert (Hnn : Forall nneg l) by (clear -HT; induction HT as [|t T l Ts (H & _) _ IH]; constructor; auto).
  assert (N1 : (1 <= INR (length l))%R).
  { destruct l as [|x l']; [congruence|]. cbn [length]. rewrite S_INR. assert (0 <= INR (length l'))%R by apply pos_INR. lra. }
  assert (NB : (INR (length l) <= bpow radix2 50)%R).
  { rewrite INR_IZR_INZ. rewrite <- (IZR_Zpower radix2) by lia. apply IZR_le. exact Hn. }
  destruct (int_as_f64_exact (Z.of_nat (length l)) ltac:(lia)) as [RN FN]. rewrite <- INR_IZR_INZ in RN.
  assert (Fs := fdiv_finite_l _ _ F FN).
  destruct (fold_acc l f0 nneg_f0 Hnn Fs) as (_ & Fl & B). rewrite f0_R, Rplus_0_l in B.
  destruct (terms_sum l Ts HT Fl) as [T0 TB]. split; [exact Fl|].
  set (n := INR (length l)) in *. set (N := int_as_f64 (Z.of_nat (length l))) in *.
  assert (E : R64 (fdiv (fsum l) N) = rnd64 (R64 (fsum l) / n)).
  { assert (NZ : R64 N <> 0%R) by (rewrite RN; lra).
    rewrite <- RN. apply fdiv_R; [exact Fs|exact NZ|].
    destruct (Rlt_or_le (Rabs (rnd64 (R64 (fsum l) / R64 N))) (bpow radix2 1024)) as [H|H]; [exact H|exfalso].
    pose proof (Binary.Bdiv_correct 53 1024 eq_refl eq_refl binop_nan_pl64 mode_NE (fsum l) N NZ) as HB.
    cbn [round_mode] in HB. change (round radix2 (SpecFloat.fexp 53 1024) ZnearestE) with rnd64 in HB. change (Binary.B2R 53 1024) with R64 in HB.
    rewrite Rlt_bool_false in HB by exact H.
    unfold finite, fis_finite, fdiv, b64_div in F. unfold Binary.binary_overflow, binary_overflow in HB. cbn [BinarySingleNaN.overflow_to_inf] in HB.
    destruct (Binary.Bdiv 53 1024 _ _ _ mode_NE (fsum l) N); cbn in F, HB; discriminate. }
  fold N in F. rewrite E. destruct (rnd_rel (R64 (fsum l) / n)) as (d & h & Hd & Hh & ->). apply Rabs_le_inv in Hd. apply Rabs_le_inv in Hh.
  assert (M0 : (0 <= mean)%R) by (unfold mean; apply Rmult_le_pos; [exact T0|apply Rlt_le, Rinv_0_lt_compat; lra]).
  assert (ST : sumR Ts = (mean * n)%R) by (unfold mean; field; lra).
  rewrite ST in TB. set (s := R64 (fsum l)) in *. set (sl := sumR (map R64 l)) in *.
  change (fold_left fadd l f0) with (fsum l) in B. fold s in B.
  assert (Up := up_pow (length l + 4)). assert (Dn := dn_pow (length l + 4)). rewrite plus_INR in Up, Dn |- *. fold n in Up, Dn |- *.
  change (INR 4) with (1 + 1 + 1 + 1)%R in *. replace (n + (1 + 1 + 1 + 1))%R with (n + 4)%R in * by ring.
  assert (NU : ((n + 4) * u <= / 4)%R).
  { apply Rle_trans with (bpow radix2 51 * u)%R; [|rewrite <- bpow_plus; change (/ 4)%R with (bpow radix2 (-2)); apply bpow_le; lia].
    apply Rmult_le_compat_r; [lra|]. change 51 with (1 + 50). rewrite bpow_plus. change (bpow radix2 1) with 2%R.
    assert (bpow radix2 2 <= bpow radix2 50)%R by (apply bpow_le; lia). change (bpow radix2 2) with 4%R in *. lra. }
  specialize (Up ltac:(lra)).
  assert (U2 : bpow radix2 (-52) = (2 * u)%R) by (change (-52) with (1 + -53); rewrite bpow_plus; reflexivity). rewrite U2.
  assert (ET : bpow radix2 (-1070) = (32 * eta)%R) by (change (-1070) with (5 + -1075); rewrite bpow_plus; reflexivity). rewrite ET.
  set (U := ((1 + u) ^ length l)%R) in *. set (D := ((1 - u) ^ length l)%R) in *.
  assert (EU : ((1 + u) ^ (length l + 4) = U * ((1 + u) ^ 3 * (1 + u)))%R) by (rewrite pow_add; unfold U; f_equal; ring).
  assert (ED : ((1 - u) ^ (length l + 4) = D * ((1 - u) ^ 3 * (1 - u)))%R) by (rewrite pow_add; unfold D; f_equal; ring).
  rewrite EU in Up. rewrite ED in Dn. assert (U1 : (1 <= U)%R) by apply up_ge1. assert (D1 : (0 <= D <= 1)%R) by apply dn_range.
  assert (UB : (U <= 2)%R).
  { assert (1 <= (1 + u) ^ 3 * (1 + u))%R by (assert (1 <= (1 + u) ^ 3)%R by apply up_ge1; nra).
    assert ((n + 4) * u <= / 4)%R by exact NU. nra. }
  assert (IN : (0 < / n)%R) by (apply Rinv_0_lt_compat; lra).
  assert (SN1 : (s / n <= U * ((1 + u) ^ 3 * mean) + U * eta)%R).
  { apply Rmult_le_reg_r with n; [lra|]. unfold Rdiv. rewrite Rmult_assoc, Rinv_l, Rmult_1_r by lra.
    eapply Rle_trans; [apply B|]. eapply Rle_trans; [apply Rmult_le_compat_l; [lra|apply TB]|]. right. ring. }
  assert (SN2 : (D * ((1 - u) ^ 3 * mean) - D * eta <= s / n)%R).
  { apply Rmult_le_reg_r with n; [lra|]. unfold Rdiv. rewrite (Rmult_assoc s), Rinv_l, Rmult_1_r by lra.
    eapply Rle_trans; [|apply B]. eapply Rle_trans; [|apply Rmult_le_compat_l; [lra|apply TB]]. right. ring. }
  assert (SN0 : (0 <= s / n)%R).
  { apply Rmult_le_pos; [|lra]. apply nneg_finite_R; [|exact Fs]. apply nneg_sum. exact Hnn. }
  apply Rabs_le. split.
  - assert (L1 : ((1 - u) * (s / n) - eta <= s / n * (1 + d) + h)%R) by nra.
    assert (L2 : ((1 - u) * (D * ((1 - u) ^ 3 * mean) - D * eta) <= (1 - u) * (s / n))%R) by (apply Rmult_le_compat_l; lra).
    assert (L3 : ((1 - (n + 4) * u) * mean <= D * ((1 - u) ^ 3 * (1 - u)) * mean)%R) by (apply Rmult_le_compat_r; lra).
    assert (L4 : ((1 - u) * (D * eta) <= eta)%R).
    { assert ((1 - u) * D <= 1)%R by nra. rewrite <- Rmult_assoc. apply Rmult_le_compat_r with (r := eta) in H; lra. }
    assert (L5 : (0 <= (n + 4) * u * mean)%R) by (apply Rmult_le_pos; [apply Rmult_le_pos; lra|lra]). nra.
  - assert (L1 : (s / n * (1 + d) + h <= (1 + u) * (s / n) + eta)%R) by nra.
    assert (L2 : ((1 + u) * (s / n) <= (1 + u) * (U * ((1 + u) ^ 3 * mean) + U * eta))%R) by (apply Rmult_le_compat_l; lra).
    assert (L3 : (U * ((1 + u) ^ 3 * (1 + u)) * mean <= (1 + 2 * (n + 4) * u) * mean)%R) by (apply Rmult_le_compat_r; lra).
    assert (L4 : ((1 + u) * (U * eta) <= 4 * eta)%R).
    { assert ((1 + u) * U <= 4)%R by nra. rewrite <- Rmult_assoc. apply Rmult_le_compat_r with (r := eta) in H; lra. }
    nra.
Qed.

(** *** The terms of the metrics *)
Lemma fsub_finite_l x y : finite (fsub x y) -> finite y -> finite x.
Proof.
  intros F Fy. destruct x as [s|s|s pl H|s m e H]; try reflexivity; exfalso.
  - destruct y as [s'|s'|s' pl' H'|s' m' e' H']; try discriminate.
  - destruct y as [s'|s'|s' pl' H'|s' m' e' H']; discriminate.
Qed.
Lemma fsub_fin_R x y : finite x -> finite y -> finite (fsub x y) -> R64 (fsub x y) = rnd64 (R64 x - R64 y).
Proof.
  intros Fx Fy F. pose proof (Binary.Bminus_correct 53 1024 eq_refl eq_refl binop_nan_pl64 mode_NE x y Fx Fy) as HP.
  destruct (Rlt_bool _ _); [apply HP|exfalso]. destruct HP as (HP & _).
  unfold finite, fis_finite, fsub, b64_minus in F. unfold Binary.binary_overflow, binary_overflow in HP. cbn [BinarySingleNaN.overflow_to_inf] in HP.
  destruct (Binary.Bminus 53 1024 _ _ _ mode_NE x y); cbn in F, HP; discriminate.
Qed.
Lemma fdiv_fin_R x y : finite x -> R64 y <> 0%R -> finite (fdiv x y) -> R64 (fdiv x y) = rnd64 (R64 x / R64 y).
Proof.
  intros Fx NZ F. pose proof (Binary.Bdiv_correct 53 1024 eq_refl eq_refl binop_nan_pl64 mode_NE x y NZ) as HP.
  destruct (Rlt_bool _ _); [apply HP|exfalso].
  unfold finite, fis_finite, fdiv, b64_div in F. unfold Binary.binary_overflow, binary_overflow in HP. cbn [BinarySingleNaN.overflow_to_inf] in HP.
  destruct (Binary.Bdiv 53 1024 _ _ _ mode_NE x y); cbn in F, HP; discriminate.
Qed.
Lemma fmul_fin_R x y : finite x -> finite y -> finite (fmul x y) -> R64 (fmul x y) = rnd64 (R64 x * R64 y).
Proof.
  intros Fx Fy F. pose proof (Binary.Bmult_correct 53 1024 eq_refl eq_refl binop_nan_pl64 mode_NE x y) as HP.
  destruct (Rlt_bool _ _); [apply HP|exfalso].
  unfold finite, fis_finite, fmul, b64_mult in F. unfold Binary.binary_overflow, binary_overflow in HP. cbn [BinarySingleNaN.overflow_to_inf] in HP.
  destruct (Binary.Bmult 53 1024 _ _ _ mode_NE x y); cbn in F, HP; discriminate.
Qed.
Lemma div_zero_not_finite x y : finite y -> R64 y = 0%R -> ~ finite (fdiv x y).
Proof.
  intros Fy Zy F. destruct y as [s|s|s pl H|s m e H]; try discriminate; [|unfold R64 in Zy; cbn in Zy; apply eq_0_F2R in Zy; destruct s; discriminate].
  destruct x as [s'|s'|s' pl' H'|s' m' e' H']; discriminate.
Qed.

Lemma diff_rel g o : finite g -> finite o -> finite (fsub g o) -> exists d, (Rabs d <= u)%R /\ R64 (fsub g o) = ((R64 g - R64 o) * (1 + d))%R.
Proof.
  intros Fg Fo F. rewrite fsub_fin_R by assumption. unfold Rminus.
  apply rnd_plus; [apply fmt|]. apply generic_format_opp, fmt.
Qed.

Lemma three_up d : (Rabs d <= u -> 0 <= 1 - u <= 1 + d /\ 1 + d <= 1 + u)%R.
Proof. intros H. apply Rabs_le_inv in H. assert (Q := u_small). assert (P := u_pos). lra. Qed.
Lemma pow_1 x : (0 <= x)%R -> (x <= 1)%R -> (x * x * x <= x * x <= x)%R. Proof. intros. nra. Qed.
Lemma pow_2 x : (1 <= x)%R -> (x <= x * x <= x * x * x)%R. Proof. intros. nra. Qed.

Lemma term_mae g o : finite o -> finite g -> term_ok (fabs (fsub g o)) (Rabs (R64 g - R64 o)).
Proof.
  intros Fo Fg. split; [apply nneg_fabs|]. split; [apply Rabs_pos|]. intros F.
  assert (Fs : finite (fsub g o)) by (unfold finite in *; now rewrite fabs_finite in F).
  destruct (diff_rel g o Fg Fo Fs) as (d & Hd & E). rewrite fabs_R, E, Rabs_mult. apply three_up in Hd. rewrite (Rabs_right (1 + d)) by lra.
  assert (P := u_pos). assert (Q := u_small). assert (PE := eta_pos). assert (A := Rabs_pos (R64 g - R64 o)).
  assert (P1 := pow_1 (1 - u) ltac:(lra) ltac:(lra)). assert (P2 := pow_2 (1 + u) ltac:(lra)).
  replace ((1 - u) ^ 3)%R with ((1 - u) * (1 - u) * (1 - u))%R by ring. replace ((1 + u) ^ 3)%R with ((1 + u) * (1 + u) * (1 + u))%R by ring.
  set (a := Rabs (R64 g - R64 o)) in *. split; nra.
Qed.

Lemma term_mape g o : finite o -> term_ok (fabs (fdiv (fsub g o) o)) (Rabs (R64 g - R64 o) / Rabs (R64 o)) /\
  (finite (fabs (fdiv (fsub g o) o)) -> R64 o <> 0%R /\ finite g).
Proof.
  intros Fo.
  assert (H2 : finite (fabs (fdiv (fsub g o) o)) -> R64 o <> 0%R /\ finite (fdiv (fsub g o) o) /\ finite (fsub g o) /\ finite g).
  { intros F. assert (Fd : finite (fdiv (fsub g o) o)) by (unfold finite in *; now rewrite fabs_finite in F).
    split; [intros Z; exact (div_zero_not_finite _ _ Fo Z Fd)|]. split; [exact Fd|].
    assert (Fs := fdiv_finite_l _ _ Fd Fo). split; [exact Fs|]. exact (fsub_finite_l _ _ Fs Fo). }
  split; [|intros F; destruct (H2 F) as (H & _ & _ & H'); auto].
  split; [apply nneg_fabs|]. split.
  { destruct (Req_dec (R64 o) 0) as [Z|Z]; [rewrite Z, Rabs_R0; unfold Rdiv; rewrite Rinv_0; lra|].
    apply Rmult_le_pos; [apply Rabs_pos|]. apply Rlt_le, Rinv_0_lt_compat, Rabs_pos_lt, Z. }
  intros F. destruct (H2 F) as (Z & Fd & Fs & Fg).
  rewrite fabs_R, fdiv_fin_R by assumption. destruct (diff_rel g o Fg Fo Fs) as (d & Hd & E). rewrite E.
  destruct (rnd_rel ((R64 g - R64 o) * (1 + d) / R64 o)) as (d' & h & Hd' & Hh & ->).
  apply three_up in Hd. apply three_up in Hd'.
  assert (P := u_pos). assert (Q := u_small). assert (PE := eta_pos). assert (A := Rabs_pos (R64 g - R64 o)).
  assert (P1 := pow_1 (1 - u) ltac:(lra) ltac:(lra)). assert (P2 := pow_2 (1 + u) ltac:(lra)).
  assert (T0 : (0 <= Rabs (R64 g - R64 o) / Rabs (R64 o))%R).
  { apply Rmult_le_pos; [exact A|]. apply Rlt_le, Rinv_0_lt_compat, Rabs_pos_lt, Z. }
  assert (EQ : Rabs ((R64 g - R64 o) * (1 + d) / R64 o * (1 + d')) = (Rabs (R64 g - R64 o) / Rabs (R64 o) * ((1 + d) * (1 + d')))%R).
  { unfold Rdiv. rewrite !Rabs_mult, Rabs_inv. rewrite (Rabs_right (1 + d)), (Rabs_right (1 + d')) by lra. ring. }
  set (T := (Rabs (R64 g - R64 o) / Rabs (R64 o))%R) in *.
  assert (B : ((1 - u) ^ 3 * T <= T * ((1 + d) * (1 + d')) <= (1 + u) ^ 3 * T)%R).
  { replace ((1 - u) ^ 3)%R with ((1 - u) * (1 - u) * (1 - u))%R by ring. replace ((1 + u) ^ 3)%R with ((1 + u) * (1 + u) * (1 + u))%R by ring.
    assert ((1 - u) * (1 - u) <= (1 + d) * (1 + d') <= (1 + u) * (1 + u))%R by (split; apply Rmult_le_compat; lra).
    split; [|rewrite (Rmult_comm _ T)]; [rewrite (Rmult_comm _ T)|]; apply Rmult_le_compat_l; lra. }
  rewrite <- EQ in B. set (w := ((R64 g - R64 o) * (1 + d) / R64 o * (1 + d'))%R) in *.
  assert (R1 := Rabs_triang w h). assert (R2 := Rabs_triang (w + h) (- h)). rewrite Rabs_Ropp in R2. replace (w + h + - h)%R with w in R2 by ring. lra.
Qed.

Lemma term_mse o g : finite o -> finite g -> term_ok (fsquare (fsub o g)) ((R64 g - R64 o) * (R64 g - R64 o)).
Proof.
  intros Fo Fg. split; [apply nneg_square|]. split; [apply Rle_0_sqr|]. intros F. unfold fsquare in *.
  assert (Fs : finite (fsub o g)).
  { destruct (fsub o g) as [s|s|s pl H|s m e H]; try reflexivity; discriminate. }
  rewrite fmul_fin_R by assumption. destruct (diff_rel o g Fo Fg Fs) as (d & Hd & ->).
  destruct (rnd_rel ((R64 o - R64 g) * (1 + d) * ((R64 o - R64 g) * (1 + d)))) as (d' & h & Hd' & Hh & ->). apply Rabs_le_inv in Hh.
  apply three_up in Hd. apply three_up in Hd'. assert (P := u_pos). assert (Q := u_small). assert (PE := eta_pos).
  replace ((R64 g - R64 o) * (R64 g - R64 o))%R with ((R64 o - R64 g) * (R64 o - R64 g))%R by ring. set (a := (R64 o - R64 g)%R).
  assert (A : (0 <= a * a)%R) by apply Rle_0_sqr. replace (a * (1 + d) * (a * (1 + d)) * (1 + d'))%R with ((1 + d) * (1 + d) * (1 + d') * (a * a))%R by ring.
  assert (B : ((1 - u) ^ 3 <= (1 + d) * (1 + d) * (1 + d') <= (1 + u) ^ 3)%R).
  { replace ((1 - u) ^ 3)%R with ((1 - u) * (1 - u) * (1 - u))%R by ring. replace ((1 + u) ^ 3)%R with ((1 + u) * (1 + u) * (1 + u))%R by ring.
    assert ((1 - u) * (1 - u) <= (1 + d) * (1 + d) <= (1 + u) * (1 + u))%R by (split; apply Rmult_le_compat; lra).
    assert (0 <= (1 - u) * (1 - u))%R by apply Rle_0_sqr. assert (0 <= (1 + d) * (1 + d))%R by apply Rle_0_sqr.
    split; apply Rmult_le_compat; lra. }
  destruct B as [B1 B2]. apply (Rmult_le_compat_r (a * a) _ _ A) in B1. apply (Rmult_le_compat_r (a * a) _ _ A) in B2. lra.
Qed.

Lemma zip_terms (t : f64 -> f64 -> f64) (T : R -> R -> R) original generated :
  Forall2 (fun o g => term_ok (t o g) (T (R64 o) (R64 g))) original generated ->
  Forall2 term_ok (zip_map t original generated) (map (fun '(o, g) => T (R64 o) (R64 g)) (combine original generated)).
Proof. induction 1; cbn [zip_map combine map]; constructor; auto. Qed.
Lemma zip_map_len {A} (f : f64 -> f64 -> A) l1 : forall l2, length l1 = length l2 -> length (zip_map f l1 l2) = length l1.
Proof. induction l1 as [|a l1 IH]; intros [|b l2] H; try discriminate; [reflexivity|]. cbn [zip_map length]. f_equal. apply IH. now injection H. Qed.
Lemma Forall_Forall2 {A B} (P : A -> Prop) (Q : B -> Prop) (S' : A -> B -> Prop) l1 : forall l2, length l1 = length l2 -> Forall P l1 -> Forall Q l2 ->
  (forall a b, P a -> Q b -> S' a b) -> Forall2 S' l1 l2.
Proof.
  induction l1 as [|a l1 IH]; intros [|b l2] H H1 H2 HS; try discriminate; [constructor|]. inversion H1; inversion H2; subst. constructor; auto.
Qed.

(** The three means. *)
Lemma mean_metric (t : f64 -> f64 -> f64) (T : R -> R -> R) original generated :
  original <> [] -> Z.of_nat (length original) <= 2 ^ 50 -> length original = length generated ->
  Forall2 (fun o g => term_ok (t o g) (T (R64 o) (R64 g))) original generated ->
  let err := fdiv (fsum (zip_map t original generated)) (len_f64 original) in
  finite err -> Forall finite (zip_map t original generated) /\
    (Rabs (R64 err - mean_over T original generated) <= INR (length original + 4) * bpow radix2 (-52) * mean_over T original generated + bpow radix2 (-1070))%R.
Proof.
  intros Hne Hl Hlen HT err F. assert (L := zip_map_len t original generated Hlen).
  assert (M := mean_accuracy _ _ (zip_terms t T _ _ HT)). cbv zeta in M. rewrite L in M. apply M; auto.
  intros E. rewrite E in L. destruct original; [congruence|discriminate].
Qed.

Lemma mape_accuracy original generated err : original <> [] -> Z.of_nat (length original) <= 2 ^ 50 -> Forall finite original ->
  method_error Mape original generated = Ok err -> finite err ->
  Forall (fun o => R64 o <> 0%R) original /\ Forall finite generated /\ length generated = length original /\
  (Rabs (R64 err - mean_relative_error original generated) <=
     INR (length original + 4) * bpow radix2 (-52) * mean_relative_error original generated + bpow radix2 (-1070))%R.
Proof.
  intros Hne Hl Fo H F. unfold method_error, error_mape in H. destruct (Nat.eqb_spec (length original) (length generated)) as [E|E]; [|discriminate].
  cbn [negb] in H. apply ok_inj in H. subst err.
  destruct (mean_metric (fun o g => fabs (fdiv (fsub g o) o)) (fun o g => Rabs (g - o) / Rabs o)%R original generated Hne Hl E) as [Ft Hb]; [|exact F|].
  { apply (Forall_Forall2 finite (fun _ => True)); auto; [now apply Forall_forall|]. intros a b Fa _. now apply term_mape. }
  assert (G : Forall (fun o => R64 o <> 0%R) original /\ Forall finite generated).
  { clear -Ft Fo E. revert generated E Ft. induction Fo as [|o l Ho Hl IH]; intros [|g l'] E Ft; try discriminate; [split; constructor|].
    cbn [zip_map] in Ft. inversion Ft as [|? ? F1 F2]; subst. destruct (IH l' ltac:(now injection E) F2) as [G1 G2].
    destruct (proj2 (term_mape g o Ho) F1). split; constructor; auto. }
  destruct G as [G1 G2]. split; [exact G1|]. split; [exact G2|]. split; [now symmetry|exact Hb].
Qed.

Lemma mae_accuracy original generated err : original <> [] -> Z.of_nat (length original) <= 2 ^ 50 -> Forall finite original -> Forall finite generated ->
  method_error Mae original generated = Ok err -> finite err ->
  (Rabs (R64 err - mean_absolute_error original generated) <=
     INR (length original + 4) * bpow radix2 (-52) * mean_absolute_error original generated + bpow radix2 (-1070))%R.
Proof.
  intros Hne Hl Fo Fg H F. unfold method_error, error_mae in H. destruct (Nat.eqb_spec (length original) (length generated)) as [E|E]; [|discriminate].
  cbn [negb] in H. apply ok_inj in H. subst err.
  destruct (mean_metric (fun o g => fabs (fsub g o)) (fun o g => Rabs (g - o))%R original generated Hne Hl E) as [_ Hb]; [|exact F|exact Hb].
  apply (Forall_Forall2 finite finite); auto. intros a b Fa Fb. now apply term_mae.
Qed.
Lemma mse_accuracy original generated err : original <> [] -> Z.of_nat (length original) <= 2 ^ 50 -> Forall finite original -> Forall finite generated ->
  method_error Mse original generated = Ok err -> finite err ->
  (Rabs (R64 err - mean_squared_error original generated) <=
     INR (length original + 4) * bpow radix2 (-52) * mean_squared_error original generated + bpow radix2 (-1070))%R.
Proof.
  intros Hne Hl Fo Fg H F. unfold method_error, error_mse in H. destruct (Nat.eqb_spec (length original) (length generated)) as [E|E]; [|discriminate].
  cbn [negb] in H. apply ok_inj in H. subst err.
  destruct (mean_metric (fun o g => fsquare (fsub o g)) (fun o g => (g - o) * (g - o))%R original generated Hne Hl E) as [_ Hb]; [|exact F|exact Hb].
  apply (Forall_Forall2 finite finite); auto. intros a b Fa Fb. now apply term_mse.
Qed.
