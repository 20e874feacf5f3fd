(** C53: the two metrics that are ratios of sums. *)
From Coq Require Import List ZArith Bool Lia Reals Lra ZifyBool.
From Flocq Require Import Core Plus_error Relative IEEE754.BinarySingleNaN IEEE754.Binary IEEE754.Bits.
From Verif Require Import Base Model_Float Model_Bincode BincodeFacts Spec Spec_Metric FloatFacts ArithFacts Model_Utils Model_Stats MetricFacts PolyApiFacts ExactFacts AccuracyFacts Props_Mean.
Import ListNotations.
Open Scope Z_scope.

(** ** The metrics over the real numbers *)
Definition sum_over (f : R -> R -> R) (original generated : list f64) : R :=
  fold_right Rplus 0%R (map (fun '(o, g) => f (R64 o) (R64 g)) (combine original generated)).
(** Sum of the absolute errors relative to the sum of the magnitudes, divided by the number of samples. *)
Definition symmetric_error (original generated : list f64) : R :=
  (sum_over (fun o g => Rabs (g - o)) original generated / sum_over (fun o g => Rabs o + Rabs g) original generated / INR (length original))%R.
(** Sum of the squared errors relative to the sum of the squares of the original. *)
Definition normalised_squared_error (original generated : list f64) : R :=
  (sum_over (fun o g => (g - o) * (g - o)) original generated / sum_over (fun o _ => o * o) original generated)%R.

(** ** Ratios *)
Lemma up_mono j k : (j <= k)%nat -> ((1 + u) ^ j <= (1 + u) ^ k)%R.
Proof. intros H. apply Rle_pow; [|exact H]. assert (P := u_pos). lra. Qed.
Lemma dn_mono j k : (j <= k)%nat -> ((1 - u) ^ k <= (1 - u) ^ j)%R.
Proof.
  intros H. replace k with (j + (k - j))%nat by lia. rewrite pow_add. rewrite <- (Rmult_1_r ((1 - u) ^ j)) at 2.
  apply Rmult_le_compat_l; [apply dn_range|apply dn_range].
Qed.
Lemma inv_dn k : (/ (1 - u) ^ k <= (1 + u) ^ (2 * k))%R.
Proof.
  assert (P := u_pos). assert (Q := u_small). assert (D : (0 < (1 - u) ^ k)%R) by (apply pow_lt; lra).
  apply Rmult_le_reg_r with ((1 - u) ^ k)%R; [exact D|]. rewrite Rinv_l by lra. rewrite pow_mult, <- Rpow_mult_distr.
  rewrite <- (pow1 k) at 1. apply pow_incr. split; [lra|]. set (v := u) in *. cbn [pow]. assert (v * v <= v * / 1024)%R by (apply Rmult_le_compat_l; lra).
  assert (v * (v * v) <= v * / 1024)%R by (apply Rmult_le_compat_l; lra). lra.
Qed.
Lemma inv_up k : ((1 - u) ^ k <= / (1 + u) ^ k)%R.
Proof.
  assert (P := u_pos). assert (Q := u_small). assert (D : (0 < (1 + u) ^ k)%R) by (apply pow_lt; lra).
  apply Rmult_le_reg_r with ((1 + u) ^ k)%R; [exact D|]. rewrite Rinv_l by lra. rewrite <- Rpow_mult_distr.
  apply Rle_trans with (1 ^ k)%R; [apply pow_incr; split; nra|rewrite pow1; lra].
Qed.

(** A quotient of two approximations, before rounding. *)
Lemma ratio k a b A B al : (0 <= A)%R -> (0 < B)%R -> (0 <= al)%R -> (INR k * u <= / 8)%R ->
  ((1 - u) ^ k * A - al <= a <= (1 + u) ^ k * A + al)%R -> ((1 - u) ^ k * B <= b <= (1 + u) ^ k * B)%R ->
  (0 < b)%R /\ ((1 - u) ^ (2 * k) * (A / B) - 2 * (al / B) <= a / b <= (1 + u) ^ (3 * k) * (A / B) + 2 * (al / B))%R.
Proof.
  intros HA HB Hal Hk Ha Hb. assert (P := u_pos). assert (Q := u_small).
  assert (D : (0 < (1 - u) ^ k)%R) by (apply pow_lt; lra). assert (E : (0 < (1 + u) ^ k)%R) by (apply pow_lt; lra).
  assert (Pb : (0 < b)%R) by (assert (0 < (1 - u) ^ k * B)%R by (apply Rmult_lt_0_compat; lra); lra). split; [exact Pb|].
  assert (IB : (0 < / B)%R) by (now apply Rinv_0_lt_compat).
  assert (I1 : (/ b <= (1 + u) ^ (2 * k) * / B)%R).
  { apply Rle_trans with (/ ((1 - u) ^ k * B))%R; [apply Rinv_le_contravar; [apply Rmult_lt_0_compat; lra|lra]|].
    rewrite Rinv_mult. apply Rmult_le_compat_r; [lra|apply inv_dn]. }
  assert (I2 : ((1 - u) ^ k * / B <= / b)%R).
  { apply Rle_trans with (/ ((1 + u) ^ k * B))%R; [|apply Rinv_le_contravar; [lra|lra]].
    rewrite Rinv_mult. apply Rmult_le_compat_r; [lra|apply inv_up]. }
  assert (U2 : ((1 + u) ^ (2 * k) <= 2)%R).
  { eapply Rle_trans; [apply up_pow|]; rewrite mult_INR; change (INR 2) with 2%R; lra. }
  assert (Ib : (0 < / b)%R) by (now apply Rinv_0_lt_compat).
  assert (A1 : (al * / b <= 2 * (al / B))%R).
  { apply Rle_trans with (al * ((1 + u) ^ (2 * k) * / B))%R; [apply Rmult_le_compat_l; lra|]. unfold Rdiv.
    replace (2 * (al * / B))%R with (2 * al * / B)%R by ring. rewrite <- Rmult_assoc. apply Rmult_le_compat_r; [lra|]. nra. }
  assert (AB : (0 <= A * / B)%R) by (apply Rmult_le_pos; lra).
  unfold Rdiv at 1 3. split.
  - apply Rle_trans with (((1 - u) ^ k * A - al) * / b)%R; [|apply Rmult_le_compat_r; lra].
    rewrite Rmult_minus_distr_r. apply Rplus_le_compat; [|apply Ropp_le_contravar; exact A1].
    replace (2 * k)%nat with (k + k)%nat by lia. rewrite pow_add. replace ((1 - u) ^ k * (1 - u) ^ k * (A * / B))%R with ((1 - u) ^ k * A * ((1 - u) ^ k * / B))%R by ring.
    apply Rmult_le_compat_l; [|exact I2]. apply Rmult_le_pos; lra.
  - apply Rle_trans with (((1 + u) ^ k * A + al) * / b)%R; [apply Rmult_le_compat_r; lra|].
    rewrite Rmult_plus_distr_r. apply Rplus_le_compat; [|exact A1].
    replace (3 * k)%nat with (k + 2 * k)%nat by lia. rewrite pow_add. replace ((1 + u) ^ k * (1 + u) ^ (2 * k) * (A / B))%R with ((1 + u) ^ k * A * ((1 + u) ^ (2 * k) * / B))%R by (unfold Rdiv; ring).
    apply Rmult_le_compat_l; [|exact I1]. apply Rmult_le_pos; lra.
Qed.

(** Rounding a non-negative approximation. *)
Lemma approx_round k x X al : (0 <= X)%R -> (0 <= al)%R ->
  ((1 - u) ^ k * X - al <= x <= (1 + u) ^ k * X + al)%R -> (0 <= x)%R ->
  ((1 - u) ^ (S k) * X - (2 * al + eta) <= rnd64 x <= (1 + u) ^ (S k) * X + (2 * al + eta))%R.
Proof.
  intros HX Hal [H1 H2] Hx. assert (P := u_pos). assert (Q := u_small). assert (E := eta_pos).
  destruct (rnd_rel x) as (d & h & Hd & Hh & ->). apply Rabs_le_inv in Hd, Hh. cbn [pow].
  assert (L : ((1 - u) * x - eta <= x * (1 + d) + h <= (1 + u) * x + eta)%R) by nra.
  assert (L1 : ((1 - u) * ((1 - u) ^ k * X - al) <= (1 - u) * x)%R) by (apply Rmult_le_compat_l; lra).
  assert (L2 : ((1 + u) * x <= (1 + u) * ((1 + u) ^ k * X + al))%R) by (apply Rmult_le_compat_l; lra).
  assert (L3 : ((1 - u) * al <= 2 * al)%R) by nra. assert (L4 : ((1 + u) * al <= 2 * al)%R) by nra. lra.
Qed.

Lemma approx_abs k x X al : (0 <= X)%R -> (INR k * u <= / 2)%R -> ((1 - u) ^ k * X - al <= x <= (1 + u) ^ k * X + al)%R ->
  (Rabs (x - X) <= 2 * INR k * u * X + al)%R.
Proof.
  intros HX Hk H. assert (P := u_pos). assert (Up := up_pow k Hk). assert (Dn := dn_pow k). assert (K := pos_INR k).
  assert ((1 + u) ^ k * X <= (1 + 2 * INR k * u) * X)%R by (apply Rmult_le_compat_r; lra).
  assert ((1 - INR k * u) * X <= (1 - u) ^ k * X)%R by (apply Rmult_le_compat_r; lra).
  assert (0 <= INR k * u * X)%R by (apply Rmult_le_pos; [apply Rmult_le_pos; lra|lra]). apply Rabs_le. lra.
Qed.

(** ** Sums of non-negative terms with a relative error of one rounding *)
Lemma terms_rel j l Ts : Forall2 (fun t T => (0 <= T)%R /\ ((1 - u) ^ j * T <= R64 t <= (1 + u) ^ j * T)%R) l Ts ->
  (0 <= sumR Ts)%R /\ ((1 - u) ^ j * sumR Ts <= sumR (map R64 l) <= (1 + u) ^ j * sumR Ts)%R.
Proof.
  induction 1 as [|t T l Ts (H0 & Ht) Hl IH]; [cbn; lra|]. cbn [map sumR fold_right]. change (fold_right Rplus 0%R) with sumR. lra.
Qed.

(** ** Symmetric error *)
Definition both_zero (og : f64 * f64) : bool := feq (snd og) f0 && feq (fst og) f0.
Lemma smape_sums o : forall g up down, length o = length g ->
  smape_loop o g up down =
  (fold_left fadd (map (fun og => fabs (fsub (snd og) (fst og))) (filter (fun og => negb (both_zero og)) (combine o g))) up,
   fold_left fadd (map (fun og => fadd (fabs (fst og)) (fabs (snd og))) (filter (fun og => negb (both_zero og)) (combine o g))) down).
Proof.
  induction o as [|a o IH]; intros [|b g] up down H; try discriminate; [reflexivity|]. cbn [smape_loop combine filter]. change (both_zero (a, b)) with (feq b f0 && feq a f0).
  destruct (feq b f0 && feq a f0); cbn [negb map fold_left fst snd]; apply IH; now injection H.
Qed.
Lemma feq_zero x : finite x -> (feq x f0 = true <-> R64 x = 0%R).
Proof. intros F. assert (Z : finite f0) by reflexivity. assert (H := feq_R x f0 F Z). rewrite f0_R in H. exact H. Qed.

Lemma sum_kept (T : R -> R -> R) l : T 0%R 0%R = 0%R -> Forall (fun og => finite (fst og) /\ finite (snd og)) l ->
  sumR (map (fun og => T (R64 (fst og)) (R64 (snd og))) (filter (fun og => negb (both_zero og)) l)) = sumR (map (fun '(o, g) => T (R64 o) (R64 g)) l).
Proof.
  intros HT Hl. induction Hl as [|[o g] l [Fo Fg] _ IH]; [reflexivity|]. cbn [filter]. unfold both_zero at 1. cbn [fst snd] in *.
  destruct (feq g f0) eqn:E1; cbn [andb negb]; [destruct (feq o f0) eqn:E2; cbn [negb]|]; cbn [map sumR fold_right fst snd]; change (fold_right Rplus 0%R) with sumR; rewrite IH; try reflexivity.
  apply feq_zero in E1; [|exact Fg]. apply feq_zero in E2; [|exact Fo]. rewrite E1, E2, HT. lra.
Qed.

Lemma forall2_imp {A B} (P Q : A -> B -> Prop) l1 l2 : (forall a b, P a b -> Q a b) -> Forall2 P l1 l2 -> Forall2 Q l1 l2.
Proof. intros H. induction 1; constructor; auto. Qed.
(** A finite sum of finite non-negative terms, each within one rounding of its exact value. *)
Lemma sum_rel l Ts n : Forall2 (fun t T => nneg t /\ (0 <= T)%R /\ ((1 - u) ^ 1 * T <= R64 t <= (1 + u) ^ 1 * T)%R) l Ts -> (length l <= n)%nat ->
  finite (fsum l) -> (0 <= sumR Ts)%R /\ ((1 - u) ^ (S n) * sumR Ts <= R64 (fsum l) <= (1 + u) ^ (S n) * sumR Ts)%R.
Proof.
  intros H Hn F. assert (Hnn : Forall nneg l) by (clear -H; induction H as [|t T l Ts (H & _) _ IH]; constructor; auto).
  destruct (fold_acc l f0 nneg_f0 Hnn F) as (_ & _ & B). rewrite f0_R, Rplus_0_l in B. fold (fsum l) in B.
  destruct (terms_rel 1 l Ts) as [T0 TB]; [eapply forall2_imp; [|exact H]; intros t T (_ & H1 & H2); now split|]. split; [exact T0|].
  assert (P := u_pos). assert (Q := u_small). assert (U1 := up_ge1 (length l)). assert (D1 := dn_range (length l)).
  assert (M1 := up_mono (S (length l)) (S n) ltac:(lia)). assert (M2 := dn_mono (S (length l)) (S n) ltac:(lia)).
  replace (S (length l)) with (length l + 1)%nat in M1, M2 by lia. rewrite pow_add in M1, M2. split.
  - eapply Rle_trans; [|apply B]. eapply Rle_trans; [|apply Rmult_le_compat_l; [apply D1|apply TB]]. rewrite <- Rmult_assoc. apply Rmult_le_compat_r; lra.
  - eapply Rle_trans; [apply B|]. eapply Rle_trans; [apply Rmult_le_compat_l; [lra|apply TB]|]. rewrite <- Rmult_assoc. apply Rmult_le_compat_r; lra.
Qed.

Lemma rel1 d T : (0 <= T)%R -> (Rabs d <= u)%R -> ((1 - u) ^ 1 * T <= T * (1 + d) <= (1 + u) ^ 1 * T)%R.
Proof. intros H Hd. apply Rabs_le_inv in Hd. cbn [pow]. rewrite !Rmult_1_r. nra. Qed.

Definition moderate (k : Z) (x : f64) : Prop := finite x /\ (Rabs (R64 x) <= bpow radix2 k)%R.

Lemma diff_term k o g : 0 <= k <= 1000 -> moderate k o -> moderate k g ->
  let t := fabs (fsub g o) in nneg t /\ (0 <= Rabs (R64 g - R64 o))%R /\
  ((1 - u) ^ 1 * Rabs (R64 g - R64 o) <= R64 t <= (1 + u) ^ 1 * Rabs (R64 g - R64 o))%R /\ moderate (k + 1) t.
Proof.
  intros Hk Ho Hg t. assert (B : bnd (Z.max k k + 1) (fsub g o)) by (apply bnd_sub; [exact Hg|exact Ho|lia]). rewrite Z.max_id in B.
  destruct Ho as [Fo _], Hg as [Fg _]. split; [apply nneg_fabs|]. split; [apply Rabs_pos|]. split; [|exact (bnd_abs _ _ B)].
  unfold t. rewrite fabs_R. destruct (diff_rel g o Fg Fo (proj1 B)) as (d & Hd & ->). rewrite Rabs_mult.
  assert (Hd' := three_up d Hd). rewrite (Rabs_right (1 + d)) by lra. apply rel1; [apply Rabs_pos|exact Hd].
Qed.
Lemma plus_term k o g : 0 <= k <= 1000 -> moderate k o -> moderate k g ->
  let t := fadd (fabs o) (fabs g) in nneg t /\ (0 <= Rabs (R64 o) + Rabs (R64 g))%R /\
  ((1 - u) ^ 1 * (Rabs (R64 o) + Rabs (R64 g)) <= R64 t <= (1 + u) ^ 1 * (Rabs (R64 o) + Rabs (R64 g)))%R /\ moderate (k + 1) t.
Proof.
  intros Hk Ho Hg t. assert (Bo := bnd_abs k o Ho). assert (Bg := bnd_abs k g Hg).
  assert (B : bnd (Z.max k k + 1) t) by (apply bnd_add; [exact Bo|exact Bg|lia]). rewrite Z.max_id in B.
  split; [apply nneg_fadd; apply nneg_fabs|]. assert (P1 := Rabs_pos (R64 o)). assert (P2 := Rabs_pos (R64 g)). split; [lra|]. split; [|exact B].
  destruct (fadd_fin (fabs o) (fabs g) (proj1 Bg) (proj1 B)) as [_ E]. unfold t. rewrite E, !fabs_R.
  destruct (rnd_plus (Rabs (R64 o)) (Rabs (R64 g))) as (d & Hd & ->); [rewrite <- fabs_R; apply fmt|rewrite <- fabs_R; apply fmt|]. apply rel1; [lra|exact Hd].
Qed.

Lemma combine_forall {A B} (P : A -> Prop) (Q : B -> Prop) : forall l1 l2, Forall P l1 -> Forall Q l2 -> Forall (fun xy => P (fst xy) /\ Q (snd xy)) (combine l1 l2).
Proof. intros l1 l2 H1. revert l2. induction H1; intros l2 H2; [constructor|]. destruct H2; cbn [combine]; constructor; auto. Qed.

Lemma forall2_map {A B C} (f : A -> B) (g : A -> C) (R : B -> C -> Prop) l : Forall (fun x => R (f x) (g x)) l -> Forall2 R (map f l) (map g l).
Proof. induction 1; constructor; auto. Qed.

Lemma approx_quot k x X al n : (1 <= n)%R -> (0 <= X)%R -> (0 <= al)%R -> (0 <= x)%R ->
  ((1 - u) ^ k * X - al <= x <= (1 + u) ^ k * X + al)%R -> (0 <= x / n)%R /\ ((1 - u) ^ k * (X / n) - al <= x / n <= (1 + u) ^ k * (X / n) + al)%R.
Proof.
  intros Hn HX Hal Hx [H1 H2]. assert (IN : (0 < / n)%R) by (apply Rinv_0_lt_compat; lra). assert (IN1 : (/ n <= 1)%R) by (rewrite <- Rinv_1; apply Rinv_le_contravar; lra).
  split; [apply Rmult_le_pos; lra|]. apply (Rmult_le_compat_r (/ n)) in H1; [|lra]. apply (Rmult_le_compat_r (/ n)) in H2; [|lra].
  assert (al * / n <= al)%R by (rewrite <- (Rmult_1_r al) at 2; apply Rmult_le_compat_l; lra).
  unfold Rdiv. lra.
Qed.

(** *** C53 *)
(** The symmetric error, for samples of at most 2^899 that are not all zero. *)
Theorem C53_symmetric_error_accurate : forall original generated,
  length generated = length original -> Z.of_nat (length original) <= 2 ^ 49 ->
  Forall (moderate 899) original -> Forall (moderate 899) generated ->
  Exists (fun x => R64 x <> 0%R) (original ++ generated) ->
  exists err, method_error Smape original generated = Ok err /\ finite err /\
  (Rabs (R64 err - symmetric_error original generated) <=
     INR (length original + 4) * / IZR (2 ^ 50) * symmetric_error original generated + bpow radix2 (-1070))%R.
Proof.
  intros o g Hlen Hn Ho Hg Hex. cbn [method_error]. unfold error_smape. rewrite Hlen, Nat.eqb_refl. cbn [negb].
  rewrite smape_sums by (symmetry; exact Hlen). eexists. split; [reflexivity|].
  assert (P := u_pos). assert (Q := u_small). assert (PE := eta_pos).
  set (l := filter (fun og => negb (both_zero og)) (combine o g)).
  assert (Hl0 := combine_forall (moderate 899) (moderate 899) o g Ho Hg).
  assert (Hl : Forall (fun og => moderate 899 (fst og) /\ moderate 899 (snd og)) l).
  { apply Forall_forall. intros og H. apply filter_In in H. rewrite Forall_forall in Hl0. now apply Hl0. }
  assert (Ll : (length l <= length o)%nat).
  { apply Nat.le_trans with (length (combine o g)); [unfold l; clear; induction (combine o g) as [|x q IH]; [constructor|]; cbn [filter]; destruct (negb (both_zero x)); cbn [length]; lia|].
    rewrite combine_length. lia. }
  set (ups := map (fun og => fabs (fsub (snd og) (fst og))) l). set (downs := map (fun og => fadd (fabs (fst og)) (fabs (snd og))) l).
  set (UT := map (fun og => Rabs (R64 (snd og) - R64 (fst og))) l). set (DT := map (fun og => (Rabs (R64 (fst og)) + Rabs (R64 (snd og)))%R) l).
  assert (SU : sumR UT = sum_over (fun o g => Rabs (g - o)) o g).
  { apply (sum_kept (fun a b => Rabs (b - a))); [rewrite Rminus_0_r, Rabs_R0; reflexivity|].
    eapply Forall_impl; [|exact Hl0]. intros og [[F1 _] [F2 _]]. now split. }
  assert (SD : sumR DT = sum_over (fun o g => Rabs o + Rabs g)%R o g).
  { apply (sum_kept (fun a b => Rabs a + Rabs b)%R); [rewrite Rabs_R0; lra|].
    eapply Forall_impl; [|exact Hl0]. intros og [[F1 _] [F2 _]]. now split. }
  assert (FU : finite (fsum ups) /\ (Rabs (R64 (fsum ups)) <= bpow radix2 953)%R).
  { apply (sum_moderate ups f0 0); [lia|unfold ups; rewrite map_length; lia|reflexivity|rewrite f0_R, Rabs_R0; lra|].
    unfold ups. apply Forall_map. eapply Forall_impl; [|exact Hl]. intros og [H1 H2]. apply (diff_term 899); auto; lia. }
  assert (FD : finite (fsum downs) /\ (Rabs (R64 (fsum downs)) <= bpow radix2 953)%R).
  { apply (sum_moderate downs f0 0); [lia|unfold downs; rewrite map_length; lia|reflexivity|rewrite f0_R, Rabs_R0; lra|].
    unfold downs. apply Forall_map. eapply Forall_impl; [|exact Hl]. intros og [H1 H2]. apply (plus_term 899); auto; lia. }
  destruct FU as [FU _], FD as [FD _].
  destruct (sum_rel ups UT (length o)) as [U0 UB]; [|unfold ups; rewrite map_length; exact Ll|exact FU|].
  { unfold ups, UT. apply forall2_map. eapply Forall_impl; [|exact Hl]. intros og [H1 H2]. destruct (diff_term 899 (fst og) (snd og) ltac:(lia) H1 H2) as (G1 & G2 & G3 & _). auto. }
  destruct (sum_rel downs DT (length o)) as [D0 DB]; [|unfold downs; rewrite map_length; exact Ll|exact FD|].
  { unfold downs, DT. apply forall2_map. eapply Forall_impl; [|exact Hl]. intros og [H1 H2]. destruct (plus_term 899 (fst og) (snd og) ltac:(lia) H1 H2) as (G1 & G2 & G3 & _). auto. }
  fold ups downs. change (fold_left fadd ups f0) with (fsum ups). change (fold_left fadd downs f0) with (fsum downs).
  unfold symmetric_error. rewrite <- SU, <- SD.
  assert (Dp : (0 < sumR DT)%R).
  { rewrite SD. clear -Hex Hlen. unfold sum_over. revert g Hlen Hex. induction o as [|a o IH]; intros [|b g] Hlen Hex; try discriminate; [inversion Hex|].
    cbn [combine map fold_right]. assert (P1 := Rabs_pos (R64 a)). assert (P2 := Rabs_pos (R64 b)).
    assert (P3 : (0 <= fold_right Rplus 0 (map (fun '(o, g) => Rabs (R64 o) + Rabs (R64 g)) (combine o g)))%R).
    { clear. induction (combine o g) as [|[x y] q IH]; cbn [map fold_right]; [lra|]. assert (P1 := Rabs_pos (R64 x)). assert (P2 := Rabs_pos (R64 y)). lra. }
    destruct (Req_dec (R64 a) 0) as [Za|Za]; [|assert (0 < Rabs (R64 a))%R by (now apply Rabs_pos_lt); lra].
    destruct (Req_dec (R64 b) 0) as [Zb|Zb]; [|assert (0 < Rabs (R64 b))%R by (now apply Rabs_pos_lt); lra].
    assert (0 < fold_right Rplus 0 (map (fun '(o, g) => Rabs (R64 o) + Rabs (R64 g)) (combine o g)))%R; [|lra].
    apply IH; [now injection Hlen|]. cbn [app] in Hex. inversion Hex as [? ? H|? ? H]; subst; [congruence|]. apply Exists_app in H. apply Exists_app. destruct H as [H|H]; [now left|].
    inversion H as [? ? H'|? ? H']; subst; [congruence|now right]. }
  assert (UD : (sumR UT <= sumR DT)%R).
  { unfold UT, DT. clear. induction l as [|[x y] q IH]; cbn [map sumR fold_right fst snd]; [lra|]. change (fold_right Rplus 0%R) with sumR.
    assert (T := Rabs_triang (R64 y) (- R64 x)). rewrite Rabs_Ropp in T. unfold Rminus in *. lra. }
  assert (No : (1 <= length o)%nat).
  { destruct o; [|cbn; lia]. destruct g; [|discriminate]. inversion Hex. }
  assert (N1 : (1 <= INR (length o))%R) by (apply (le_INR 1); exact No).
  assert (NB : (INR (length o) <= bpow radix2 49)%R) by (rewrite INR_IZR_INZ, <- (IZR_Zpower radix2) by lia; apply IZR_le; exact Hn).
  assert (NU : ((INR (length o) + 1) * u <= / 8)%R).
  { apply Rle_trans with (bpow radix2 50 * u)%R; [|rewrite <- bpow_plus; change (/ 8)%R with (bpow radix2 (-3)); apply bpow_le; lia].
    apply Rmult_le_compat_r; [lra|]. change 50 with (1 + 49). rewrite bpow_plus. change (bpow radix2 1) with 2%R.
    assert (bpow radix2 1 <= bpow radix2 49)%R by (apply bpow_le; lia). change (bpow radix2 1) with 2%R in *. lra. }
  destruct (ratio (S (length o)) (R64 (fsum ups)) (R64 (fsum downs)) (sumR UT) (sumR DT) 0 U0 Dp ltac:(lra)) as [Bp RB]; [rewrite S_INR; exact NU|lra|exact DB|].
  set (a := R64 (fsum ups)) in *. set (b := R64 (fsum downs)) in *. set (X := (sumR UT / sumR DT)%R) in *.
  assert (X0 : (0 <= X <= 1)%R).
  { unfold X. split; [apply Rmult_le_pos; [lra|left; now apply Rinv_0_lt_compat]|]. apply Rmult_le_reg_r with (sumR DT); [exact Dp|]. unfold Rdiv. rewrite Rmult_assoc, Rinv_l by lra. lra. }
  replace (2 * (0 / sumR DT))%R with 0%R in RB by (field; lra).
  set (K := (3 * S (length o))%nat) in *.
  assert (KU : ((INR K + 2) * u <= / 2)%R).
  { unfold K. rewrite mult_INR, (S_INR (length o)). replace (INR 3) with 3%R by (cbn; lra). assert (u <= / 1024)%R by exact Q. lra. }
  assert (RB' : ((1 - u) ^ K * X - 0 <= a / b <= (1 + u) ^ K * X + 0)%R).
  { split; [|apply RB]. eapply Rle_trans; [|apply RB]. assert (M := dn_mono (2 * S (length o)) K ltac:(unfold K; lia)).
    apply Rplus_le_compat_r. apply Rmult_le_compat_r; lra. }
  assert (A0 : (0 <= a)%R) by (eapply Rle_trans; [|apply UB]; apply Rmult_le_pos; [apply dn_range|exact U0]).
  assert (AB0 : (0 <= a / b)%R) by (apply Rmult_le_pos; [exact A0|left; now apply Rinv_0_lt_compat]).
  assert (UK : ((1 + u) ^ K <= 2)%R) by (eapply Rle_trans; [apply up_pow; lra|]; lra).
  assert (AB1 : (a / b <= 2)%R) by (eapply Rle_trans; [apply RB'|]; nra).
  assert (Z1 : R64 (fsum downs) <> 0%R) by (fold b; lra).
  assert (Bq : (Rabs (rnd64 (a / b)) < bpow radix2 1024)%R).
  { destruct (rnd_bnd 1 (a / b) ltac:(lia)) as [_ B2]; [rewrite Rabs_right by lra; exact AB1|exact B2]. }
  destruct (fdiv_R (fsum ups) (fsum downs) FU Z1 Bq) as [E1 F1]. fold a b in E1.
  assert (R1 := approx_round K (a / b) X 0 ltac:(lra) ltac:(lra) RB' AB0). rewrite Rmult_0_r, Rplus_0_l in R1.
  set (q := rnd64 (a / b)) in *.
  assert (q0 : (0 <= q)%R) by (unfold q; rewrite <- (round_0 radix2 fexp64 ZnearestE); apply round_le; [apply fexp64_valid|apply valid_rnd_N|exact AB0]).
  assert (q2 : (q <= 2)%R).
  { unfold q. apply round_le_generic; [apply fexp64_valid|apply valid_rnd_N| |exact AB1]. change 2%R with (bpow radix2 1). apply generic_format_bpow. unfold SpecFloat.fexp, SpecFloat.emin. lia. }
  destruct (approx_quot (S K) q X eta (INR (length o)) N1 ltac:(lra) ltac:(lra) q0 R1) as [Q0 R2].
  assert (XN : (0 <= X / INR (length o))%R) by (apply Rmult_le_pos; [lra|left; apply Rinv_0_lt_compat; lra]).
  assert (R3 := approx_round (S K) _ _ eta XN ltac:(lra) R2 Q0).
  unfold len_f64. destruct (int_as_f64_exact (Z.of_nat (length o)) ltac:(lia)) as [RN FN]. rewrite <- INR_IZR_INZ in RN.
  destruct (fdiv_R (fdiv (fsum ups) (fsum downs)) (int_as_f64 (Z.of_nat (length o))) F1) as [E2 F2].
  - rewrite RN. lra.
  - rewrite E1, RN. destruct (rnd_bnd 1 (q / INR (length o)) ltac:(lia)) as [_ B2]; [|exact B2].
    rewrite Rabs_right by lra. change (bpow radix2 1) with 2%R. assert (q / INR (length o) <= q)%R; [|lra].
    unfold Rdiv. rewrite <- (Rmult_1_r q) at 2. apply Rmult_le_compat_l; [lra|]. rewrite <- Rinv_1. apply Rinv_le_contravar; lra.
  - split; [exact F2|]. rewrite E2, E1, RN. fold q.
    eapply Rle_trans; [refine (approx_abs (S (S K)) (rnd64 (q / INR (length o))) (X / INR (length o)) (2 * eta + eta) XN _ _)|].
    + rewrite !S_INR. lra.
    + exact R3.
    + assert (U2 : (/ IZR (2 ^ 50) = 8 * u)%R).
      { change (IZR (2 ^ 50)) with (IZR (radix2 ^ 50)). rewrite (IZR_Zpower radix2) by lia. rewrite <- bpow_opp. change (- (50)) with (3 + -53). rewrite bpow_plus. reflexivity. }
      rewrite U2. assert (ET : bpow radix2 (-1070) = (32 * eta)%R) by (change (-1070) with (5 + -1075); rewrite bpow_plus; reflexivity). rewrite ET.
      apply Rplus_le_compat; [|lra]. apply Rmult_le_compat_r; [exact XN|]. rewrite 2!S_INR, plus_INR. unfold K. rewrite mult_INR, (S_INR (length o)). replace (INR 3) with 3%R by (cbn; lra). change (INR 4) with (1 + 1 + 1 + 1)%R. nra.
Qed.
Print Assumptions C53_symmetric_error_accurate.

(** Contrary to its description (between 0 and 1), the symmetric error of [n] samples is at most [1/n]. *)
Theorem C53_symmetric_error_at_most : forall original generated,
  length generated = length original -> original <> [] -> (0 <= symmetric_error original generated <= / INR (length original))%R.
Proof.
  intros o g Hlen Hne. assert (N1 : (1 <= INR (length o))%R) by (apply (le_INR 1); destruct o; [congruence|cbn; lia]).
  assert (IN : (0 < / INR (length o))%R) by (apply Rinv_0_lt_compat; lra).
  unfold symmetric_error. set (A := sum_over (fun o g => Rabs (g - o)) o g). set (B := sum_over (fun o g => Rabs o + Rabs g)%R o g).
  assert (AB : (0 <= A <= B)%R).
  { unfold A, B, sum_over. clear. induction (combine o g) as [|[x y] q IH]; cbn [map fold_right]; [lra|].
    assert (P := Rabs_pos (R64 y - R64 x)). assert (T := Rabs_triang (R64 y) (- R64 x)). rewrite Rabs_Ropp in T. unfold Rminus in *. lra. }
  destruct (Req_dec B 0) as [Z|Z]; [rewrite Z; unfold Rdiv; rewrite Rinv_0, Rmult_0_r, Rmult_0_l; lra|].
  assert (Bp : (0 < B)%R) by lra. assert (IB : (0 < / B)%R) by (now apply Rinv_0_lt_compat).
  assert (X : (0 <= A / B <= 1)%R).
  { split; [apply Rmult_le_pos; lra|]. apply Rmult_le_reg_r with B; [exact Bp|]. unfold Rdiv. rewrite Rmult_assoc, Rinv_l by lra. lra. }
  unfold Rdiv at 1 3. split; [apply Rmult_le_pos; lra|]. rewrite <- (Rmult_1_l (/ INR (length o))) at 2. apply Rmult_le_compat_r; lra.
Qed.
Print Assumptions C53_symmetric_error_at_most.

(** ** Normalised squared error *)
Lemma term_sq x : finite x -> term_ok (fsquare x) (R64 x * R64 x).
Proof.
  intros Fx. split; [apply nneg_square|]. split; [apply Rle_0_sqr|]. intros F. unfold fsquare in *.
  rewrite fmul_fin_R by assumption. destruct (rnd_rel (R64 x * R64 x)) as (d & h & Hd & Hh & ->). apply Rabs_le_inv in Hh. apply three_up in Hd.
  assert (P := u_pos). assert (Q := u_small). assert (A : (0 <= R64 x * R64 x)%R) by apply Rle_0_sqr.
  assert (P1 := pow_1 (1 - u) ltac:(lra) ltac:(lra)). assert (P2 := pow_2 (1 + u) ltac:(lra)).
  replace ((1 - u) ^ 3)%R with ((1 - u) * (1 - u) * (1 - u))%R by ring. replace ((1 + u) ^ 3)%R with ((1 + u) * (1 + u) * (1 + u))%R by ring.
  set (a := (R64 x * R64 x)%R) in *. split; nra.
Qed.
Lemma sum_terms l Ts n : Forall2 term_ok l Ts -> (length l <= n)%nat -> (INR n * u <= / 8)%R -> finite (fsum l) ->
  (0 <= sumR Ts)%R /\ ((1 - u) ^ (n + 3) * sumR Ts - 2 * INR n * eta <= R64 (fsum l) <= (1 + u) ^ (n + 3) * sumR Ts + 2 * INR n * eta)%R.
Proof.
  intros H Hn Hu F. assert (Hnn : Forall nneg l) by (clear -H; induction H as [|t T l Ts (H & _) _ IH]; constructor; auto).
  destruct (fold_acc l f0 nneg_f0 Hnn F) as (_ & Fl & B). rewrite f0_R, Rplus_0_l in B. fold (fsum l) in B.
  destruct (terms_sum l Ts H Fl) as [T0 TB]. split; [exact T0|].
  assert (P := u_pos). assert (Q := u_small). assert (PE := eta_pos). assert (U1 := up_ge1 (length l)). assert (D1 := dn_range (length l)).
  assert (M1 := up_mono (length l + 3) (n + 3) ltac:(lia)). assert (M2 := dn_mono (length l + 3) (n + 3) ltac:(lia)). rewrite (pow_add _ (length l) 3) in M1. rewrite (pow_add _ (length l) 3) in M2.
  assert (L := le_INR _ _ Hn). assert (L0 := pos_INR (length l)).
  assert (U2 : ((1 + u) ^ length l <= 2)%R).
  { eapply Rle_trans; [apply (up_mono _ n Hn)|]. eapply Rle_trans; [apply up_pow; lra|]. lra. }
  assert (E : (INR (length l) * eta <= INR n * eta)%R) by (apply Rmult_le_compat_r; lra). assert (E0 : (0 <= INR (length l) * eta)%R) by (apply Rmult_le_pos; lra).
  split.
  - eapply Rle_trans; [|apply B]. eapply Rle_trans; [|apply Rmult_le_compat_l; [apply D1|apply TB]]. rewrite Rmult_minus_distr_l.
    assert ((1 - u) ^ (n + 3) * sumR Ts <= (1 - u) ^ length l * ((1 - u) ^ 3 * sumR Ts))%R by (rewrite <- Rmult_assoc; apply Rmult_le_compat_r; lra).
    assert ((1 - u) ^ length l * (INR (length l) * eta) <= 1 * (INR (length l) * eta))%R by (apply Rmult_le_compat_r; lra). lra.
  - eapply Rle_trans; [apply B|]. eapply Rle_trans; [apply Rmult_le_compat_l; [lra|apply TB]|]. rewrite Rmult_plus_distr_l.
    assert ((1 + u) ^ length l * ((1 + u) ^ 3 * sumR Ts) <= (1 + u) ^ (n + 3) * sumR Ts)%R by (rewrite <- Rmult_assoc; apply Rmult_le_compat_r; lra).
    assert ((1 + u) ^ length l * (INR (length l) * eta) <= 2 * (INR (length l) * eta))%R by (apply Rmult_le_compat_r; lra). lra.
Qed.

(** The normalised squared error, for samples of at most 2^449 of which one original is at least 2^-250. *)
Theorem C53_normalised_error_accurate : forall original generated err,
  Z.of_nat (length original) <= 2 ^ 49 ->
  Forall (moderate 449) original -> Forall (moderate 449) generated ->
  Exists (fun x => bpow radix2 (-250) <= Rabs (R64 x))%R original ->
  method_error Nmse original generated = Ok err -> finite err ->
  (Rabs (R64 err - normalised_squared_error original generated) <=
     INR (length original + 4) * / IZR (2 ^ 50) * normalised_squared_error original generated + bpow radix2 (-500))%R.
Proof.
  intros o g err Hn Ho Hg Hex. cbn [method_error]. unfold error_nmsqe. destruct (Nat.eqb_spec (length o) (length g)) as [Hlen|Hlen]; [|intros H; discriminate H]. cbn [negb].
  intros H F. apply ok_inj in H. subst err.
  assert (P := u_pos). assert (Q := u_small). assert (PE := eta_pos).
  assert (NB : (INR (length o) <= bpow radix2 49)%R) by (rewrite INR_IZR_INZ, <- (IZR_Zpower radix2) by lia; apply IZR_le; exact Hn).
  assert (B8 : (bpow radix2 3 <= bpow radix2 49)%R) by (apply bpow_le; lia). change (bpow radix2 3) with 8%R in B8.
  assert (NU : ((INR (length o) + 4) * u <= / 8)%R).
  { apply Rle_trans with (bpow radix2 50 * u)%R; [|rewrite <- bpow_plus; change (/ 8)%R with (bpow radix2 (-3)); apply bpow_le; lia].
    apply Rmult_le_compat_r; [lra|]. change 50 with (1 + 49). rewrite bpow_plus. change (bpow radix2 1) with 2%R. lra. }
  assert (N0 := pos_INR (length o)).
  set (ns := zip_map (fun o g => fsquare (fsub g o)) o g) in *. set (ds := map fsquare o) in *.
  set (NT := map (fun '(o, g) => ((R64 g - R64 o) * (R64 g - R64 o))%R) (combine o g)). set (DT := map (fun x => (R64 x * R64 x)%R) o).
  assert (HN : Forall2 term_ok ns NT).
  { unfold ns, NT. apply (zip_terms (fun o g => fsquare (fsub g o)) (fun a b => ((b - a) * (b - a))%R)).
    apply (Forall_Forall2 (moderate 449) (moderate 449)); auto. intros a b [Fa _] [Fb _].
    replace ((R64 b - R64 a) * (R64 b - R64 a))%R with ((R64 a - R64 b) * (R64 a - R64 b))%R by ring. now apply term_mse. }
  assert (HD : Forall2 term_ok ds DT).
  { unfold ds, DT. apply forall2_map. eapply Forall_impl; [|exact Ho]. intros x [Fx _]. now apply term_sq. }
  assert (SD : sumR DT = sum_over (fun o _ => o * o)%R o g).
  { unfold DT, sum_over. clear -Hlen. revert g Hlen. induction o as [|a o IH]; intros [|b g] Hlen; try discriminate; [reflexivity|].
    cbn [map combine sumR fold_right]. change (fold_right Rplus 0%R) with sumR in *. f_equal. apply IH. now injection Hlen. }
  assert (FD : finite (fsum ds)).
  { apply (sum_moderate ds f0 0); [lia|unfold ds; rewrite map_length; lia|reflexivity|rewrite f0_R, Rabs_R0; lra|].
    unfold ds. apply Forall_map. eapply Forall_impl; [|exact Ho]. intros x Hx. assert (B := bnd_mul 449 449 x x Hx Hx ltac:(lia)).
    apply (bnd_weaken (449 + 449) 900); [lia|exact B]. }
  assert (Dge : (bpow radix2 (-500) <= sumR DT)%R).
  { unfold DT. clear -Hex. induction Hex as [x l Hx|x l Hx IH]; cbn [map sumR fold_right]; change (fold_right Rplus 0%R) with sumR.
    - assert (S0 : (0 <= sumR (map (fun x => (R64 x * R64 x)%R) l))%R).
      { clear. induction l as [|y l IH]; cbn [map sumR fold_right]; [lra|]. change (fold_right Rplus 0%R) with sumR. assert (A : (0 <= R64 y * R64 y)%R) by apply Rle_0_sqr. lra. }
      assert (A : (bpow radix2 (-250) * bpow radix2 (-250) <= Rabs (R64 x) * Rabs (R64 x))%R) by (apply Rmult_le_compat; auto; apply bpow_ge_0).
      rewrite <- bpow_plus in A. change (-250 + -250) with (-500) in A. rewrite <- Rabs_mult in A. rewrite Rabs_right in A by (apply Rle_ge, Rle_0_sqr). lra.
    - assert (A : (0 <= R64 x * R64 x)%R) by apply Rle_0_sqr. lra. }
  destruct (sum_terms ds DT (length o) HD) as [D0 DB]; [unfold ds; rewrite map_length; lia|lra|exact FD|].
  set (n := INR (length o)) in *. set (A := sumR NT) in *. set (B := sumR DT) in *. set (b := R64 (fsum ds)) in *.
  assert (P500 := bpow_gt_0 radix2 (-500)).
  assert (SM : (2 * n * eta <= bpow radix2 (-1025))%R).
  { apply Rle_trans with (bpow radix2 50 * eta)%R; [apply Rmult_le_compat_r; [lra|]; change 50 with (1 + 49); rewrite bpow_plus; change (bpow radix2 1) with 2%R; lra|].
    rewrite <- bpow_plus. apply bpow_le. lia. }
  assert (SB : (bpow radix2 (-1025) <= / 2 * (u * B))%R).
  { apply Rle_trans with (bpow radix2 (-1 + (-53 + -500))); [apply bpow_le; lia|]. rewrite !bpow_plus. change (bpow radix2 (-1)) with (/ 2)%R.
    apply Rmult_le_compat_l; [lra|]. apply Rmult_le_compat_l; lra. }
  assert (K3 : (INR (length o + 3) = n + 3)%R) by (rewrite plus_INR; unfold n; cbn; lra).
  assert (K4 : (INR (length o + 4) = n + 4)%R) by (rewrite plus_INR; unfold n; cbn; lra).
  assert (DB' : ((1 - u) ^ (length o + 4) * B <= b <= (1 + u) ^ (length o + 4) * B)%R).
  { replace (length o + 4)%nat with (S (length o + 3)) by lia. cbn [pow]. assert (U1 := up_ge1 (length o + 3)). assert (Dn := dn_pow (length o + 3)). rewrite K3 in Dn.
    set (U := ((1 + u) ^ (length o + 3))%R) in *. set (D := ((1 - u) ^ (length o + 3))%R) in *.
    assert (DH : (/ 2 <= D)%R) by lra. assert (uB : (0 <= u * B)%R) by (apply Rmult_le_pos; lra).
    assert (/ 2 * (u * B) <= D * (u * B))%R by (apply Rmult_le_compat_r; lra). assert (1 * (u * B) <= U * (u * B))%R by (apply Rmult_le_compat_r; lra).
    split; nra. }
  assert (Bp : (0 < b)%R).
  { eapply Rlt_le_trans; [|apply DB']. apply Rmult_lt_0_compat; [apply pow_lt; lra|lra]. }
  assert (Z : R64 (fsum ds) <> 0%R) by (fold b; lra).
  destruct (finite_quotient (fsum ns) (fsum ds) FD Z F) as [FN E]. rewrite E. fold b.
  destruct (sum_terms ns NT (length o) HN) as [N0' NB']; [unfold ns; rewrite zip_map_len by exact Hlen; lia|fold n; lra|exact FN|].
  fold n A in NB', N0'. set (a := R64 (fsum ns)) in *.
  assert (a0 : (0 <= a)%R).
  { apply nneg_finite_R; [|exact FN]. apply nneg_sum. clear -HN. induction HN as [|t T l Ts (H & _) _ IH]; constructor; auto. }
  assert (NB2 : ((1 - u) ^ (length o + 4) * A - 2 * n * eta <= a <= (1 + u) ^ (length o + 4) * A + 2 * n * eta)%R).
  { assert (M1 := up_mono (length o + 3) (length o + 4) ltac:(lia)). assert (M2 := dn_mono (length o + 3) (length o + 4) ltac:(lia)).
    apply (Rmult_le_compat_r A) in M1; [|lra]. apply (Rmult_le_compat_r A) in M2; [|lra]. lra. }
  assert (n0 : (0 <= 2 * n * eta)%R) by (apply Rmult_le_pos; lra).
  destruct (ratio (length o + 4) a b A B (2 * n * eta) N0' ltac:(lra) n0 ltac:(rewrite K4; lra) NB2 DB') as [_ RB].
  assert (AL : (2 * (2 * n * eta / B) <= bpow radix2 (-520))%R).
  { unfold Rdiv. apply Rle_trans with (2 * (bpow radix2 (-1025) * / bpow radix2 (-500)))%R.
    - apply Rmult_le_compat_l; [lra|]. apply Rmult_le_compat; [exact n0|left; apply Rinv_0_lt_compat; lra|exact SM|apply Rinv_le_contravar; lra].
    - rewrite <- bpow_opp, <- bpow_plus. change 2%R with (bpow radix2 1). rewrite <- bpow_plus. apply bpow_le. lia. }
  set (X := (A / B)%R) in *. assert (X0 : (0 <= X)%R) by (apply Rmult_le_pos; [lra|left; apply Rinv_0_lt_compat; lra]).
  assert (P520 := bpow_gt_0 radix2 (-520)).
  set (K := (3 * (length o + 4))%nat) in *.
  assert (RB' : ((1 - u) ^ K * X - bpow radix2 (-520) <= a / b <= (1 + u) ^ K * X + bpow radix2 (-520))%R).
  { assert (M := dn_mono (2 * (length o + 4)) K ltac:(unfold K; lia)). apply (Rmult_le_compat_r X) in M; [|lra]. lra. }
  assert (AB0 : (0 <= a / b)%R) by (apply Rmult_le_pos; [exact a0|left; now apply Rinv_0_lt_compat]).
  assert (R1 := approx_round K (a / b) X (bpow radix2 (-520)) X0 ltac:(lra) RB' AB0).
  assert (KK : (INR (S K) = 3 * (n + 4) + 1)%R).
  { rewrite S_INR. unfold K. rewrite mult_INR, K4. replace (INR 3) with 3%R by (cbn; lra). ring. }
  assert (EX : X = normalised_squared_error o g) by (unfold normalised_squared_error; rewrite <- SD; reflexivity). rewrite <- EX.
  eapply Rle_trans; [refine (approx_abs (S K) (rnd64 (a / b)) X (2 * bpow radix2 (-520) + eta) X0 _ R1)|].
  - rewrite KK. lra.
  - rewrite KK, K4. assert (U2 : (/ IZR (2 ^ 50) = 8 * u)%R).
    { change (IZR (2 ^ 50)) with (IZR (radix2 ^ 50)). rewrite (IZR_Zpower radix2) by lia. rewrite <- bpow_opp. change (- (50)) with (3 + -53). rewrite bpow_plus. reflexivity. }
    rewrite U2. apply Rplus_le_compat.
    + apply Rmult_le_compat_r; [exact X0|]. nra.
    + assert (eta <= bpow radix2 (-520))%R by (apply bpow_le; lia). apply Rle_trans with (4 * bpow radix2 (-520))%R; [lra|].
      change 4%R with (bpow radix2 2). rewrite <- bpow_plus. apply bpow_le. lia.
Qed.
Print Assumptions C53_normalised_error_accurate.

(** ** Examples: [1, 2] against [1, 4]. *)
Definition ex_o : list f64 := map int_as_f64 [1; 2].
Definition ex_g : list f64 := map int_as_f64 [1; 4].
Lemma int_moderate k z : 0 <= k <= 1000 -> Z.abs z <= 2 ^ k -> moderate k (int_as_f64 z). Proof. exact (bnd_int k z). Qed.
Example C53_ratio_example :
  Forall (moderate 449) ex_o /\ Forall (moderate 449) ex_g /\ Exists (fun x => bpow radix2 (-250) <= Rabs (R64 x))%R ex_o /\
  (do e <- method_error Smape ex_o ex_g; Ok (to_bits e)) = Ok (to_bits (fdiv (int_as_f64 1) (int_as_f64 8))) /\
  (do e <- method_error Nmse ex_o ex_g; Ok (to_bits e)) = Ok (to_bits (fdiv (int_as_f64 4) (int_as_f64 5))).
Proof.
  split; [|split; [|split; [|split]]].
  - unfold ex_o. cbn [map]. apply Forall_cons; [apply int_moderate; lia|]. apply Forall_cons; [apply int_moderate; lia|]. apply Forall_nil.
  - unfold ex_g. cbn [map]. apply Forall_cons; [apply int_moderate; lia|]. apply Forall_cons; [apply int_moderate; lia|]. apply Forall_nil.
  - apply Exists_cons_hd. destruct (int_as_f64_exact 1 ltac:(lia)) as [-> _]. rewrite Rabs_R1. change 1%R with (bpow radix2 0). apply bpow_le. lia.
  - vm_compute. reflexivity.
  - vm_compute. reflexivity.
Qed.
