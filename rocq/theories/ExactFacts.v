(** A reported error of zero means the same samples. *)
From Coq Require Import List ZArith Bool Lia Reals Lra ZifyBool.
From Flocq Require Import Core IEEE754.BinarySingleNaN IEEE754.Binary IEEE754.Bits.
From Verif Require Import Base Model_Float Spec FloatFacts ArithFacts Model_Utils MetricFacts PolyApiFacts.
Import ListNotations.
Open Scope Z_scope.

Notation b2 := (bpow radix2).

Lemma gap_pos x y : generic_format radix2 fexp64 x -> generic_format radix2 fexp64 y -> (0 < x)%R -> x <> y ->
  (x * b2 (-54) <= Rabs (y - x))%R.
Proof.
  intros Fx Fy Hx Hne. change fexp64 with (FLT_exp (-1074) 53) in *.
  assert (U : forall z, (Rabs z * b2 (-53) < ulp radix2 (FLT_exp (-1074) 53) z)%R) by (intros z; apply (@ulp_FLT_gt radix2 (-1074) 53 eq_refl)).
  assert (E : b2 (-53) = (2 * b2 (-54))%R) by (change (-53) with (1 + -54); rewrite bpow_plus; reflexivity).
  assert (P := bpow_gt_0 radix2 (-54)).
  assert (S1 : (b2 (-54) <= / 4)%R) by (change (/4)%R with (b2 (-2)); apply bpow_le; lia).
  destruct (Rtotal_order x y) as [H|[H|H]]; [|contradiction|].
  - assert (S := succ_le_lt radix2 (FLT_exp (-1074) 53) x y Fx Fy H). rewrite succ_eq_pos in S by lra.
    specialize (U x). rewrite Rabs_pos_eq in U by lra. rewrite Rabs_pos_eq by lra. rewrite E in U. nra.
  - rewrite Rabs_left by lra. destruct (Rle_or_lt (x / 2) y) as [G|G]; [|nra].
    assert (S := succ_le_lt radix2 (FLT_exp (-1074) 53) y x Fy Fx H). rewrite succ_eq_pos in S by lra.
    specialize (U y). rewrite Rabs_pos_eq in U by lra. rewrite E in U. nra.
Qed.
Lemma gap x y : generic_format radix2 fexp64 x -> generic_format radix2 fexp64 y -> (x <> 0)%R -> x <> y ->
  (Rabs x * b2 (-54) <= Rabs (y - x))%R.
Proof.
  intros Fx Fy Hx Hne. destruct (Rle_or_lt 0 x) as [H|H].
  - rewrite (Rabs_pos_eq x) by lra. apply gap_pos; auto; lra.
  - rewrite (Rabs_left x) by lra. rewrite <- (Rabs_Ropp (y - x)). replace (- (y - x))%R with (- y - - x)%R by lra.
    apply gap_pos; try (now apply generic_format_opp); lra.
Qed.

Lemma rnd_ge k r : -900 <= k <= 900 -> (b2 k <= Rabs r)%R -> (b2 k <= Rabs (rnd64 r))%R.
Proof.
  intros Hk H. apply abs_round_ge_generic; auto with typeclass_instances.
  apply generic_format_bpow. change fexp64 with (FLT_exp (-1074) 53). unfold FLT_exp. lia.
Qed.

(** Infinite, NaN, or clearly positive. *)
Definition positive (x : f64) : Prop := inf_or_nan x \/ (finite x /\ (b2 (-250) <= R64 x)%R).

Lemma inf_class x : fis_nan x = false -> Binary.Bsign 53 1024 x = false -> finite x \/ x = B754_infinity 53 1024 false.
Proof. destruct x as [s|s|s pl H|s m e H]; try discriminate; intros _ Hs; cbn in Hs; subst; [left|right|left]; reflexivity. Qed.

Lemma fadd_class x y : finite x -> finite y -> (0 <= R64 x)%R -> (0 <= R64 y)%R ->
  fadd x y = B754_infinity 53 1024 false \/ (finite (fadd x y) /\ R64 (fadd x y) = rnd64 (R64 x + R64 y)).
Proof.
  intros Fx Fy Hx Hy.
  destruct (Rlt_or_le (Rabs (rnd64 (R64 x + R64 y))) (bpow radix2 1024)) as [H|H].
  - right. destruct (fadd_R x y Fx Fy H) as [H1 H2]. split; assumption.
  - left. unfold fadd, b64_plus. pose proof (Binary.Bplus_correct 53 1024 eq_refl eq_refl binop_nan_pl64 mode_NE x y Fx Fy) as B.
    cbn [round_mode] in B. change (round radix2 (SpecFloat.fexp 53 1024) ZnearestE) with rnd64 in B.
    change (Binary.B2R 53 1024) with R64 in B.
    rewrite Rlt_bool_false in B by exact H. destruct B as [B Sg].
    assert (Hs : Binary.Bsign 53 1024 x = false).
    { assert (~ ((R64 x = 0)%R /\ (R64 y = 0)%R)).
      { intros [Z1 Z2]. rewrite Z1, Z2, Rplus_0_r, round_0, Rabs_R0 in H by auto with typeclass_instances. assert (P := bpow_gt_0 radix2 1024). lra. }
      destruct (Binary.Bsign 53 1024 x) eqn:E; [|reflexivity]. exfalso.
      assert (Rx : (R64 x = 0)%R).
      { destruct x as [s|s|s pl Hp|s m e Hp]; try discriminate; [reflexivity|]. cbn in E. subst s.
        unfold R64 in *. cbn in Hx |- *. assert (F2R (Float radix2 (Z.neg m) e) < 0)%R by (apply F2R_lt_0; reflexivity). cbn in H1. lra. }
      destruct y as [s|s|s pl Hp|s m e' Hp]; try discriminate; [apply H0; split; [exact Rx|reflexivity]|]. cbn in Sg. subst s.
      unfold R64 in *. cbn in Hy. assert (F2R (Float radix2 (Z.neg m) e') < 0)%R by (apply F2R_lt_0; reflexivity). cbn in H1. lra. }
    rewrite Hs in B. destruct (Binary.Bplus 53 1024 _ _ _ mode_NE x y) as [s|s|s pl Hp|s m e Hp]; cbn in B; try discriminate.
    inversion B. reflexivity.
Qed.

Lemma positive_fadd x y : nneg x -> nneg y -> positive x \/ positive y -> positive (fadd x y).
Proof.
  intros Hx Hy H.
  assert (C : inf_or_nan x \/ (finite x /\ (0 <= R64 x)%R)).
  { destruct Hx as [Hx|Hx]; [left; now left|]. destruct (fis_nan x) eqn:E; [left; now left|].
    destruct (inf_class x E Hx) as [F| ->]; [right; split; [exact F|now apply sign_R]|left; now right]. }
  assert (D : inf_or_nan y \/ (finite y /\ (0 <= R64 y)%R)).
  { destruct Hy as [Hy|Hy]; [left; now left|]. destruct (fis_nan y) eqn:E; [left; now left|].
    destruct (inf_class y E Hy) as [F| ->]; [right; split; [exact F|now apply sign_R]|left; now right]. }
  destruct C as [C|[Fx Rx]]; [left; apply inf_or_nan_fadd; auto|].
  destruct D as [D|[Fy Ry]]; [left; apply inf_or_nan_fadd; auto|].
  destruct (fadd_class x y Fx Fy Rx Ry) as [E|[F E]]; [left; right; exact E|]. right. split; [exact F|]. rewrite E.
  assert (P : (b2 (-250) <= R64 x + R64 y)%R).
  { destruct H as [[[N|N]|[_ G]]|[[N|N]|[_ G]]]; try lra; try (subst; discriminate);
      [apply fis_finite_not_nan in Fx; congruence|apply fis_finite_not_nan in Fy; congruence]. }
  assert (P0 := bpow_gt_0 radix2 (-250)).
  assert (G := rnd_ge (-250) (R64 x + R64 y) ltac:(lia) ltac:(rewrite Rabs_pos_eq; lra)).
  rewrite Rabs_pos_eq in G; [exact G|]. apply round_ge_generic; auto with typeclass_instances; [apply generic_format_0|lra].
Qed.

Lemma positive_fold l acc : nneg acc -> Forall nneg l -> positive acc \/ Exists positive l -> positive (fold_left fadd l acc).
Proof.
  intros Ha Hl. revert acc Ha. induction Hl as [|x l Hx Hl IH]; intros acc Ha [H|H]; cbn [fold_left].
  - exact H.
  - inversion H.
  - apply IH; [now apply nneg_fadd|]. left. apply positive_fadd; auto.
  - apply IH; [now apply nneg_fadd|]. inversion H; subst; [left; apply positive_fadd; auto|now right].
Qed.

Lemma term_zero o g : supported o -> ~ positive (fabs (fdiv (fsub g o) o)) -> same_value g o.
Proof.
  intros Ho Hp. destruct Ho as (Fo & Hz & Hr).
  assert (Bo := supported_bnd o (conj Fo (conj Hz Hr))).
  destruct (fis_finite g) eqn:Fg.
  2:{ exfalso. apply Hp. left. destruct g as [s|s|s pl H|s m e H]; try discriminate.
      - destruct o as [so|so|so pl' H'|so mo eo H']; try discriminate; right; destruct s, so; reflexivity.
      - left. apply nan_fabs, nan_fdiv_l. now apply nan_fsub_l. }
  split; [exact Fg|]. split; [exact Fo|]. 
  destruct Hz as [Hz|Hz].
  { exfalso. apply Hp. left. assert (exists s, o = B754_zero 53 1024 s) as [s ->].
    { destruct o as [s|s|s pl H|s m e H]; try discriminate; [eauto|]. unfold R64 in Hz. cbn in Hz. apply eq_0_F2R in Hz. destruct s; discriminate. }
    destruct (fsub g (B754_zero 53 1024 s)) as [s'|s'|s' pl' H'|s' m' e' H']; [left|right|left|right]; reflexivity. }
  destruct (Req_dec (R64 g) (R64 o)) as [E|E]; [exact E|]. exfalso. apply Hp.
  assert (Fm : forall z, generic_format radix2 fexp64 (R64 z)) by (intros z; apply Binary.generic_format_B2R).
  assert (P := bpow_gt_0 radix2 (-64)).
  assert (O0 : (R64 o <> 0)%R) by (intros Z; rewrite Z, Rabs_R0 in Hz; lra).
  assert (G := gap (R64 o) (R64 g) (Fm o) (Fm g) O0 (fun Z => E (eq_sym Z))).
  assert (G2 : (b2 (-118) <= Rabs (R64 g - R64 o))%R).
  { change (-118) with (-64 + -54). rewrite bpow_plus. assert (P2 := bpow_gt_0 radix2 (-54)). nra. }
  assert (G3 := rnd_ge (-118) _ ltac:(lia) G2).
  assert (Oab : (Rabs (R64 o) <= b2 63)%R) by apply Bo.
  destruct (Rlt_or_le (Rabs (rnd64 (R64 g - R64 o))) (bpow radix2 1024)) as [H|H].
  - destruct (fsub_R g o Fg Fo H) as [S1 S2]. set (d := fsub g o) in *.
    assert (Q : (b2 (-181) <= Rabs (R64 d / R64 o))%R).
    { unfold Rdiv. rewrite Rabs_mult, S1. change (-181) with (-118 + - 63). rewrite bpow_plus.
      assert (P3 := bpow_gt_0 radix2 (-118)). assert (P4 := bpow_gt_0 radix2 (-63)).
      assert (I : (b2 (-63) <= Rabs (/ R64 o))%R).
      { rewrite Rabs_inv. change (-63) with (Z.opp 63). rewrite bpow_opp. apply Rinv_le_contravar; [|exact Oab]. apply Rabs_pos_lt. exact O0. }
      apply Rmult_le_compat; lra. }
    assert (Q3 := rnd_ge (-181) _ ltac:(lia) Q).
    destruct (Rlt_or_le (Rabs (rnd64 (R64 d / R64 o))) (bpow radix2 1024)) as [H2|H2].
    + destruct (fdiv_R d o S2 O0 H2) as [D1 D2]. right. split; [unfold finite; rewrite fabs_finite; exact D2|]. rewrite fabs_R, D1.
      eapply Rle_trans; [|exact Q3]. apply bpow_le. lia.
    + left. right. unfold fdiv, b64_div. pose proof (Binary.Bdiv_correct 53 1024 eq_refl eq_refl binop_nan_pl64 mode_NE d o O0) as B.
      cbn [round_mode] in B. change (Binary.B2R 53 1024) with R64 in B. rewrite Rlt_bool_false in B by exact H2.
      set (q := Binary.Bdiv 53 1024 _ _ _ mode_NE d o) in *. destruct q as [s|s|s pl Hq|s m e Hq]; cbn in B; try discriminate. reflexivity.
  - left. right. unfold fsub, b64_minus. pose proof (Binary.Bminus_correct 53 1024 eq_refl eq_refl binop_nan_pl64 mode_NE g o Fg Fo) as B.
    cbn [round_mode] in B. change (Binary.B2R 53 1024) with R64 in B. rewrite Rlt_bool_false in B by exact H. destruct B as [B _].
    set (q := Binary.Bminus 53 1024 _ _ _ mode_NE g o) in *. destruct q as [s|s|s pl Hq|s m e Hq]; cbn in B; try discriminate.
    destruct o as [so|so|so pl' H'|so mo eo H']; try discriminate; reflexivity.
Qed.

Theorem mape_zero_exact data out err : data <> [] -> Z.of_nat (length data) <= 2 ^ 53 -> Forall supported data ->
  calculate_error data out = Ok err -> fle err f0 = true -> same_series out data.
Proof.
  intros Hne Hl Hd H Hle. unfold calculate_error, method_error, error_mape in H.
  destruct (negb (length data =? length out)%nat) eqn:El; [discriminate|]. apply ok_inj in H.
  set (terms := zip_map (fun o g => fabs (fdiv (fsub g o) o)) data out) in *.
  assert (Hn : Forall nneg terms) by (apply zip_map_forall; intros; apply nneg_fabs).
  destruct (len_pos data Hne Hl) as [Fl Rl].
  assert (Hterms : Forall (fun t => ~ positive t) terms).
  { apply Forall_forall. intros t Ht Hp. assert (Hs : positive (fsum terms)).
    { apply positive_fold; [apply nneg_f0|exact Hn|]. right. apply Exists_exists. eauto. }
    subst err. destruct Hs as [[Hs|Hs]|[Fs Hs]].
    - apply fle_nan in Hle. destruct Hle as [Hle _]. rewrite nan_fdiv_l in Hle by exact Hs. discriminate.
    - rewrite Hs in Hle. idtac.
      destruct (len_f64 data) as [s|s|s pl Hq|s m e Hq]; try discriminate.
      + unfold R64 in Rl. cbn in Rl. lra.
      + destruct s; [|discriminate]. exfalso. unfold R64 in Rl. cbn in Rl. assert (F2R (Float radix2 (Z.neg m) e) < 0)%R by (apply F2R_lt_0; reflexivity). cbn in H. lra.
    - set (s := fsum terms) in *.
      assert (Ln : (R64 (len_f64 data) <= b2 53)%R).
      { destruct (int_as_f64_exact (Z.of_nat (length data)) ltac:(lia)) as [E _]. unfold len_f64. rewrite E.
        rewrite <- (IZR_Zpower radix2) by lia. apply IZR_le. exact Hl. }
      assert (Q : (b2 (-303) <= Rabs (R64 s / R64 (len_f64 data)))%R).
      { unfold Rdiv. rewrite Rabs_mult. change (-303) with (-250 + - 53). rewrite bpow_plus.
        assert (P3 := bpow_gt_0 radix2 (-250)). assert (P4 := bpow_gt_0 radix2 (-53)).
        assert (I : (b2 (-53) <= Rabs (/ R64 (len_f64 data)))%R).
        { rewrite Rabs_inv. change (-53) with (Z.opp 53). rewrite bpow_opp. rewrite (Rabs_pos_eq (R64 (len_f64 data))) by lra. apply Rinv_le_contravar; lra. }
        rewrite (Rabs_pos_eq (R64 s)) by lra. apply Rmult_le_compat; lra. }
      assert (Pq : (0 < R64 s / R64 (len_f64 data))%R) by (apply Rdiv_lt_0_compat; [assert (P3 := bpow_gt_0 radix2 (-250)); lra|lra]).
      assert (Q3 := rnd_ge (-303) _ ltac:(lia) Q).
      assert (Q4 : (0 <= rnd64 (R64 s / R64 (len_f64 data)))%R) by (apply round_ge_generic; auto with typeclass_instances; [apply generic_format_0|lra]).
      rewrite Rabs_pos_eq in Q3 by exact Q4.
      assert (Hov : (Rabs (rnd64 (R64 s / R64 (len_f64 data))) < bpow radix2 1024)%R).
      { apply Rle_lt_trans with (R64 s).
        - rewrite Rabs_pos_eq by exact Q4. rewrite <- (rnd64_R64 s) at 2. apply round_le; auto with typeclass_instances.
          unfold Rdiv. rewrite <- (Rmult_1_r (R64 s)) at 2. apply Rmult_le_compat_l; [assert (P3 := bpow_gt_0 radix2 (-250)); lra|].
          rewrite <- Rinv_1. apply Rinv_le_contravar; lra.
        - rewrite <- (Rabs_pos_eq (R64 s)); [|assert (P3 := bpow_gt_0 radix2 (-250)); lra]. apply (Binary.abs_B2R_lt_emax 53 1024). }
      destruct (fdiv_R s (len_f64 data) Fs ltac:(lra) Hov) as [D1 D2].
      apply fle_R in Hle; [|exact D2|exact f0_finite]. rewrite D1, f0_R in Hle. assert (P3 := bpow_gt_0 radix2 (-303)). lra. }
  assert (L : length data = length out) by (destruct (length data =? length out)%nat eqn:E'; [now apply Nat.eqb_eq|discriminate]).
  clear - Hterms Hd L. unfold terms in Hterms. clear terms. revert out L Hterms.
  induction Hd as [|o data Ho Hd IH]; intros out L Ht; destruct out as [|g out]; try discriminate; [constructor|].
  cbn [zip_map] in Ht. inversion Ht; subst. constructor; [now apply term_zero|]. apply IH; [cbn in L; congruence|assumption].
Qed.
