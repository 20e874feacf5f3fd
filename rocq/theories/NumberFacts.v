(** Numbers as text: facts. *)
From Coq Require Import List ZArith Bool Reals Lia Lra.
From Flocq Require Import Core Calc.Bracket Calc.Div IEEE754.BinarySingleNaN IEEE754.Binary IEEE754.Bits.
From Verif Require Import Base Model_Float Model_Vsri Model_Csv Model_Number Spec Spec_Number.
Import ListNotations.
Open Scope Z_scope.

(** * The nearest double. *)
Lemma sf_as_f64_ok : forall z, SpecFloat.valid_binary 53 1024 z = true ->
  (BinarySingleNaN.is_finite_SF z = true -> finite (sf_as_f64 z) /\ R64 (sf_as_f64 z) = BinarySingleNaN.SF2R radix2 z /\ Binary.Bsign 53 1024 (sf_as_f64 z) = BinarySingleNaN.sign_SF z) /\
  (forall s, z = SpecFloat.S754_infinity s -> sf_as_f64 z = B754_infinity 53 1024 s).
Proof.
  intros [s|s| |s m e] V; split; try discriminate; try (intros; congruence).
  - intros _. now repeat split.
  - intros s' E. injection E as ->. reflexivity.
  - intros _. cbn [sf_as_f64 BinarySingleNaN.SF2R BinarySingleNaN.sign_SF].
    pose proof (Binary.binary_normalize_correct 53 1024 prec53_gt_0 prec53_lt_emax mode_NE (SpecFloat.cond_Zopp s (Zpos m)) e s) as H. cbv zeta in H.
    assert (G : generic_format radix2 (SpecFloat.fexp 53 1024) (F2R (Float radix2 (SpecFloat.cond_Zopp s (Zpos m)) e))).
    { apply generic_format_canonical. apply (BinarySingleNaN.canonical_bounded 53 1024 s m e). exact V. }
    rewrite round_generic in H; [|apply BinarySingleNaN.valid_rnd_round_mode|exact G].
    rewrite Rlt_bool_true in H.
    2:{ rewrite <- F2R_Zabs. destruct s; cbn [SpecFloat.cond_Zopp Z.opp Z.abs]; apply (BinarySingleNaN.bounded_lt_emax 53 1024); exact V. }
    destruct H as (H1 & H2 & H3). split; [exact H2|]. split; [exact H1|]. rewrite H3. destruct s; cbn [SpecFloat.cond_Zopp].
    + rewrite Rcompare_Lt; [reflexivity|]. now apply F2R_lt_0.
    + rewrite Rcompare_Gt; [reflexivity|]. now apply F2R_gt_0.
Qed.

Lemma fexp64 : forall e, SpecFloat.fexp 53 1024 e = FLT_exp (-1074) 53 e.
Proof. intros e. unfold SpecFloat.fexp, FLT_exp, SpecFloat.emin. reflexivity. Qed.

Definition biggest : R := (bpow radix2 1024 - bpow radix2 971)%R.
Lemma biggest_F : biggest = F2R (Float radix2 (2 ^ 53 - 1) 971).
Proof. unfold biggest, F2R. cbn [Fnum Fexp]. change 1024 with (53 + 971). rewrite bpow_plus. rewrite minus_IZR. change (IZR (2 ^ 53)) with (bpow radix2 53). ring. Qed.
#[local] Instance valid64 : Valid_exp (FLT_exp (-1074) 53).
Proof. apply FLT_exp_valid. exact prec53_gt_0. Qed.
#[local] Instance ne64 : Exists_NE radix2 (FLT_exp (-1074) 53).
Proof. apply exists_NE_FLT. right. reflexivity. Qed.
#[local] Instance mono64 : Monotone_exp (FLT_exp (-1074) 53).
Proof. apply FLT_exp_monotone. Qed.

Lemma biggest_format : generic_format radix2 (FLT_exp (-1074) 53) biggest.
Proof. apply generic_format_FLT. exists (Float radix2 (2 ^ 53 - 1) 971); [exact biggest_F|reflexivity|cbn; lia]. Qed.
Lemma powers : (bpow radix2 1024 = 18014398509481984 * bpow radix2 970)%R /\ (bpow radix2 1023 = 9007199254740992 * bpow radix2 970)%R /\
  (bpow radix2 971 = 2 * bpow radix2 970)%R /\ (0 < bpow radix2 970)%R.
Proof.
  split; [|split; [|split]].
  - change 1024 with (54 + 970). rewrite bpow_plus. reflexivity.
  - change 1023 with (53 + 970). rewrite bpow_plus. reflexivity.
  - change 971 with (1 + 970). rewrite bpow_plus. reflexivity.
  - apply bpow_gt_0.
Qed.
Lemma biggest_mag : mag radix2 biggest = 1024 :> Z.
Proof. pose proof powers. apply mag_unique. unfold biggest. change (1024 - 1) with 1023. rewrite Rabs_pos_eq; lra. Qed.
Lemma biggest_ulp : ulp radix2 (FLT_exp (-1074) 53) biggest = bpow radix2 971.
Proof.
  rewrite ulp_neq_0. - unfold cexp. rewrite biggest_mag. reflexivity.
  - rewrite biggest_F. apply Rgt_not_eq. now apply F2R_gt_0.
Qed.
Lemma biggest_pos : (0 < biggest)%R.
Proof. rewrite biggest_F. now apply F2R_gt_0. Qed.

(** Where rounding leaves the doubles. *)
Lemma overflow_threshold : forall v, (0 <= v)%R -> ((nearest64 v < bpow radix2 1024)%R <-> (v < bpow radix2 1024 - bpow radix2 970)%R).
Proof.
  intros v Hv. assert (T : (bpow radix2 971 = 2 * bpow radix2 970)%R) by (change 971 with (1 + 970); rewrite bpow_plus; reflexivity).
  assert (S : succ radix2 (FLT_exp (-1074) 53) biggest = bpow radix2 1024).
  { rewrite succ_eq_pos by (left; exact biggest_pos). rewrite biggest_ulp. unfold biggest. ring. }
  split.
  - intros H. destruct (Rlt_or_le v (bpow radix2 1024 - bpow radix2 970)) as [L|L]; [exact L|]. exfalso.
    assert (M : (nearest64 (bpow radix2 1024 - bpow radix2 970) <= nearest64 v)%R) by (apply round_le; [exact valid64|apply valid_rnd_N|exact L]).
    enough (E : nearest64 (bpow radix2 1024 - bpow radix2 970) = bpow radix2 1024) by lra.
    assert (Mg : mag radix2 (bpow radix2 1024 - bpow radix2 970) = 1024 :> Z).
    { pose proof powers. apply mag_unique. change (1024 - 1) with 1023. rewrite Rabs_pos_eq; lra. }
    unfold nearest64, round, scaled_mantissa, cexp. rewrite Mg. change (FLT_exp (-1074) 53 1024) with 971.
    replace ((bpow radix2 1024 - bpow radix2 970) * bpow radix2 (- (971)))%R with (9007199254740992 - / 2)%R.
    2:{ rewrite Rmult_minus_distr_r, <- !bpow_plus. reflexivity. }
    assert (Fl : Zfloor (9007199254740992 - / 2) = 9007199254740991) by (apply Zfloor_imp; cbn [Z.add]; split; cbn -[IZR]; lra).
    unfold Znearest. rewrite Fl. rewrite Rcompare_Eq by lra. cbn [Z.even negb].
    rewrite (Zceil_imp 9007199254740992) by (cbn [Z.sub]; split; cbn -[IZR]; lra).
    unfold F2R. cbn [Fnum Fexp]. change (9007199254740992)%R with (bpow radix2 53). rewrite <- bpow_plus. reflexivity.
  - intros H. apply Rle_lt_trans with biggest; [|unfold biggest; pose proof (bpow_gt_0 radix2 971); lra].
    apply round_N_le_midp; [exact valid64|exact biggest_format|]. rewrite S. unfold biggest. lra.
Qed.

Lemma nearest64_nonneg : forall v, (0 <= v)%R -> (0 <= nearest64 v)%R.
Proof. intros v H. apply round_ge_generic; [exact valid64|apply valid_rnd_N|apply generic_format_0|exact H]. Qed.

Lemma infinite_spec : forall x, fis_infinite x = true <-> exists s, x = B754_infinity 53 1024 s.
Proof. intros [s|s|s pl H|s m e H]; split; try discriminate; try (intros [s' E]; discriminate E); intros _; [now exists s|reflexivity]. Qed.

Lemma double_for_unique : forall neg v x y, double_for neg v x -> double_for neg v y -> x = y.
Proof.
  intros neg v x y (Sx & [(Lx & Fx & Rx)|(Lx & Ix)]) (Sy & [(Ly & Fy & Ry)|(Ly & Iy)]); try lra.
  - apply Binary.B2R_Bsign_inj; [exact Fx|exact Fy| |congruence]. unfold R64 in Rx, Ry. congruence.
  - apply infinite_spec in Ix, Iy. destruct Ix as [s ->], Iy as [s' ->]. cbn in Sx, Sy. congruence.
Qed.

Lemma nearest_ratio_ok : forall neg n d, 0 < n -> 0 < d -> double_for neg (IZR n / IZR d) (nearest_ratio neg n d).
Proof.
  intros neg n d Hn Hd. unfold nearest_ratio.
  assert (Pn : (0 < F2R (Float radix2 n 0))%R) by (now apply F2R_gt_0). assert (Pd : (0 < F2R (Float radix2 d 0))%R) by (now apply F2R_gt_0).
  pose proof (Fdiv_correct (FLT_exp (-1074) 53) _ _ Pn Pd) as H. destruct (Fdiv (FLT_exp (-1074) 53) (Float radix2 n 0) (Float radix2 d 0)) as [[m e] l].
  replace (F2R (Float radix2 n 0)) with (IZR n) in H by (unfold F2R; cbn; ring). replace (F2R (Float radix2 d 0)) with (IZR d) in H by (unfold F2R; cbn; ring).
  assert (Rn : (0 < IZR n)%R) by (now apply IZR_lt). assert (Rd : (0 < IZR d)%R) by (now apply IZR_lt).
  set (v := (IZR n / IZR d)%R) in *. assert (Pv : (0 < v)%R) by (now apply Rdiv_lt_0_compat).
  destruct H as (He & Hb). set (x := if neg then (- v)%R else v).
  assert (Nx : x <> 0%R) by (subst x; destruct neg; lra).
  assert (Ax : Rabs x = v) by (subst x; destruct neg; [rewrite Rabs_Ropp|]; apply Rabs_pos_eq; lra).
  assert (Lx : Rlt_bool x 0 = neg) by (subst x; destruct neg; [apply Rlt_bool_true|apply Rlt_bool_false]; lra).
  pose proof (BinarySingleNaN.binary_round_aux_correct' 53 1024 prec53_gt_0 prec53_lt_emax mode_NE x m e l Nx) as H. cbv zeta in H. rewrite Ax, Lx in H.
  specialize (H Hb). assert (Hc : e <= cexp radix2 (SpecFloat.fexp 53 1024) x).
  { rewrite <- cexp_abs, Ax. exact He. }
  specialize (H Hc). destruct H as (V & H). set (z := BinarySingleNaN.binary_round_aux 53 1024 mode_NE neg m e l) in *.
  destruct (sf_as_f64_ok z V) as (K1 & K2).
  assert (Rx : round radix2 (SpecFloat.fexp 53 1024) (BinarySingleNaN.round_mode mode_NE) x = if neg then (- nearest64 v)%R else nearest64 v).
  { subst x. destruct neg; [|reflexivity]. cbn [BinarySingleNaN.round_mode]. unfold nearest64. rewrite <- round_NE_opp. reflexivity. }
  rewrite Rx in H.
  assert (Ar : Rabs (if neg then (- nearest64 v)%R else nearest64 v) = nearest64 v).
  { pose proof (nearest64_nonneg v ltac:(lra)). destruct neg; [rewrite Rabs_Ropp|]; now apply Rabs_pos_eq. }
  rewrite Ar in H. destruct (Rlt_bool_spec (nearest64 v) (bpow radix2 1024)) as [L|L].
  - destruct H as (H1 & H2 & H3). destruct (K1 H2) as (F1 & F2 & F3). split; [congruence|]. left. apply overflow_threshold in L; [|lra].
    split; [exact L|]. split; [exact F1|]. congruence.
  - unfold BinarySingleNaN.binary_overflow in H. cbn in H. rewrite (K2 neg H). split; [reflexivity|]. right. split; [|reflexivity].
    apply Rnot_lt_le. intros C. apply overflow_threshold in C; lra.
Qed.

Lemma ten_pow : forall k, (0 < ten_to k)%R. Proof. intros k. apply powerRZ_lt. lra. Qed.
Lemma ten_add : forall a b, ten_to (a + b) = (ten_to a * ten_to b)%R. Proof. intros. apply powerRZ_add. lra. Qed.
Lemma ten_Z : forall k, 0 <= k -> ten_to k = IZR (10 ^ k).
Proof. intros k H. unfold ten_to. rewrite <- (Z2Nat.id k H). rewrite <- pow_powerRZ. rewrite pow_IZR. f_equal. Qed.
Lemma ten_neg : forall k, ten_to (- k) = (/ ten_to k)%R. Proof. intros. unfold ten_to. apply powerRZ_neg'. Qed.

Lemma double_for_zero : forall neg, double_for neg 0 (B754_zero 53 1024 neg).
Proof.
  intros neg. split; [reflexivity|]. left. split.
  - change 1024 with (54 + 970). rewrite bpow_plus. pose proof (bpow_gt_0 radix2 970). change (bpow radix2 54) with (18014398509481984)%R. lra.
  - split; [reflexivity|]. unfold nearest64. rewrite round_0 by apply valid_rnd_N. cbn. destruct neg; ring.
Qed.

Lemma nearest_decimal_ok : forall neg m k, 0 <= m -> double_for neg (IZR m * ten_to k) (nearest_decimal neg m k).
Proof.
  intros neg m k Hm. unfold nearest_decimal. destruct (Z.eqb_spec m 0) as [->|N].
  - rewrite Rmult_0_l. apply double_for_zero.
  - destruct (Z.leb_spec 0 k) as [L|L].
    + replace (IZR m * ten_to k)%R with (IZR (m * 10 ^ k) / IZR 1)%R; [apply nearest_ratio_ok; [|lia]|].
      * assert (0 < 10 ^ k) by (apply Z.pow_pos_nonneg; lia). nia.
      * rewrite (ten_Z k L), mult_IZR. field.
    + replace (IZR m * ten_to k)%R with (IZR m / IZR (10 ^ (- k)))%R; [apply nearest_ratio_ok; [lia|apply Z.pow_pos_nonneg; lia]|].
      rewrite <- (ten_Z (- k)) by lia. rewrite ten_neg. unfold Rdiv. rewrite Rinv_inv. reflexivity.
Qed.

(** Rounding depends on the number only. *)
Lemma nearest_decimal_same : forall neg m k m' k', 0 <= m -> 0 <= m' -> (IZR m * ten_to k = IZR m' * ten_to k')%R ->
  nearest_decimal neg m k = nearest_decimal neg m' k'.
Proof.
  intros neg m k m' k' H H' E. apply (double_for_unique neg (IZR m * ten_to k)); [now apply nearest_decimal_ok|]. rewrite E. now apply nearest_decimal_ok.
Qed.

(** * Reading. *)
Lemma is_digit_spec : forall c, is_digit c = true <-> digit c.
Proof. intros c. unfold is_digit, digit. rewrite andb_true_iff, !Z.leb_le. tauto. Qed.
Definition no_digit_first (t : list Z) : Prop := match t with [] => True | c :: _ => ~ digit c end.
Lemma take_digits_app : forall a b, Forall digit a -> no_digit_first b -> take_digits (a ++ b) = (a, b).
Proof.
  induction a as [|c a IH]; intros b Ha Hb; cbn [app].
  - destruct b as [|c b]; [reflexivity|]. cbn [take_digits]. destruct (is_digit c) eqn:E; [|reflexivity]. apply is_digit_spec in E. contradiction.
  - inversion Ha; subst. cbn [take_digits]. rewrite (proj2 (is_digit_spec c)) by assumption. rewrite IH; auto.
Qed.
Lemma take_digits_inv : forall t a b, take_digits t = (a, b) -> t = a ++ b /\ Forall digit a /\ no_digit_first b.
Proof.
  induction t as [|c t IH]; intros a b H; cbn [take_digits] in H.
  - injection H as <- <-. now repeat split.
  - destruct (is_digit c) eqn:E.
    + destruct (take_digits t) as [a' b'] eqn:Et. injection H as <- <-. destruct (IH a' b' eq_refl) as (-> & Ha & Hb). apply is_digit_spec in E.
      split; [reflexivity|]. split; [now constructor|exact Hb].
    + injection H as <- <-. split; [reflexivity|]. split; [constructor|]. cbn. intros D. apply is_digit_spec in D. congruence.
Qed.

Lemma whole_app : forall a b, whole (a ++ b) = whole a * 10 ^ Z.of_nat (length b) + whole b.
Proof.
  induction a as [|c a IH]; intros b; cbn [app whole]; [lia|]. rewrite IH, app_length, Nat2Z.inj_add, Z.pow_add_r by lia. ring.
Qed.
Lemma digits_value_whole : forall ds, digits_value ds = whole ds.
Proof.
  induction ds as [|c ds IH] using rev_ind; [reflexivity|]. unfold digits_value in *. rewrite fold_left_app. cbn [fold_left].
  rewrite IH, whole_app. cbn [length whole]. change (Z.of_nat 1) with 1. change (Z.of_nat 0) with 0. rewrite Z.pow_1_r, Z.pow_0_r. ring.
Qed.
Lemma whole_bounds : forall ds, Forall digit ds -> 0 <= whole ds < 10 ^ Z.of_nat (length ds).
Proof.
  induction ds as [|c ds IH]; intros H; [cbn; lia|]. inversion H as [|? ? Hc Hd]; subst. specialize (IH Hd). unfold digit in Hc. cbn [whole length]. rewrite Nat2Z.inj_succ, Z.pow_succ_r by lia. nia.
Qed.

Lemma take_sign_inv : forall t neg r, take_sign t = (neg, r) -> exists sg, t = sg ++ r /\ sign_is neg sg.
Proof.
  intros t neg r H. unfold take_sign in H. destruct t as [|c t]; [injection H as <- <-; exists []; split; [reflexivity|now left]|].
  destruct (Z.eqb_spec c ch_minus) as [->|N].
  - injection H as <- <-. exists [45]. split; [reflexivity|right; right; now split].
  - destruct (Z.eqb_spec c ch_plus) as [->|N'].
    + injection H as <- <-. exists [43]. split; [reflexivity|right; left; now split].
    + injection H as <- <-. exists []. split; [reflexivity|now left].
Qed.
Lemma take_sign_app : forall neg sg r, sign_is neg sg -> match r with [] => True | c :: _ => c <> 45 /\ c <> 43 end -> take_sign (sg ++ r) = (neg, r).
Proof.
  intros neg sg r [(-> & ->)|[(-> & ->)|(-> & ->)]] H; try reflexivity. destruct r as [|c r]; [reflexivity|]. destruct H as [H1 H2]. cbn [app take_sign].
  rewrite (proj2 (Z.eqb_neq c ch_minus)) by exact H1. rewrite (proj2 (Z.eqb_neq c ch_plus)) by exact H2. reflexivity.
Qed.

Lemma digit_not_sign : forall c, digit c -> c <> 45 /\ c <> 43 /\ c <> 46 /\ c <> 101 /\ c <> 69. Proof. unfold digit. lia. Qed.

Lemma parse_exponent_spec : forall t x, parse_exponent t = Some x <-> exponent_is x t.
Proof.
  intros t x. split.
  - intros H. unfold parse_exponent in H. destruct t as [|c r]; [injection H as <-; left; now split|]. right.
    destruct ((c =? 101) || (c =? 69)) eqn:E; [|discriminate H]. apply orb_true_iff in E. rewrite !Z.eqb_eq in E.
    destruct (take_sign r) as [neg r1] eqn:Es. destruct (take_sign_inv _ _ _ Es) as (sg & -> & Hs).
    destruct (take_digits r1) as [ds rest] eqn:Ed. destruct (take_digits_inv _ _ _ Ed) as (-> & Hd & _).
    destruct ds as [|d ds]; [discriminate H|]. destruct rest as [|? ?]; [|discriminate H]. cbv zeta in H. rewrite app_nil_r.
    exists c, sg, (d :: ds), neg. rewrite digits_value_whole in H. repeat split; try assumption; try discriminate. now injection H as <-.
  - intros [(-> & ->)|(c & sg & ds & neg & -> & Hc & Hs & Hd & Hn & ->)]; [reflexivity|]. unfold parse_exponent.
    replace ((c =? 101) || (c =? 69)) with true by (symmetry; apply orb_true_iff; rewrite !Z.eqb_eq; exact Hc).
    rewrite (take_sign_app neg sg ds Hs). 2:{ destruct ds as [|d ds]; [exact I|]. inversion Hd; subst. destruct (digit_not_sign d) as (? & ? & _); [assumption|now split]. }
    rewrite <- (app_nil_r ds) at 1. rewrite take_digits_app; [|exact Hd|exact I]. destruct ds as [|d ds]; [congruence|]. cbv zeta. now rewrite digits_value_whole.
Qed.

Lemma exponent_first : forall x e, exponent_is x e -> match e with [] => True | c :: _ => c = 101 \/ c = 69 end.
Proof. intros x e [(-> & _)|(c & sg & ds & neg & -> & Hc & _)]; [exact I|exact Hc]. Qed.

Lemma parse_decimal_spec : forall t m k, parse_decimal t = Some (m, k) <-> decimal_is m k t.
Proof.
  intros t m k. split.
  - intros H. unfold parse_decimal in H. destruct (take_digits t) as [a r] eqn:Ea. destruct (take_digits_inv _ _ _ Ea) as (-> & Ha & Hr).
    assert (K : exists point b r', r = point ++ b ++ r' /\ Forall digit b /\ (point = [46] \/ point = [] /\ b = []) /\
      (match r with c :: r1 => if c =? 46 then take_digits r1 else ([], r) | [] => ([], []) end) = (b, r')).
    { destruct r as [|c r1]; [exists [], [], []; repeat split; auto|]. destruct (Z.eqb_spec c 46) as [->|N].
      - destruct (take_digits r1) as [b r'] eqn:Eb. destruct (take_digits_inv _ _ _ Eb) as (-> & Hb & _). exists [46], b, r'. repeat split; auto.
      - exists [], [], (c :: r1). repeat split; auto. }
    destruct K as (point & b & r' & -> & Hb & Hp & E). rewrite E in H. clear E.
    destruct (a ++ b) as [|d ds] eqn:Eab; [discriminate H|]. destruct (parse_exponent r') as [x|] eqn:Ex; [|discriminate H].
    apply parse_exponent_spec in Ex. rewrite digits_value_whole in H. injection H as <- <-.
    exists a, point, b, r', x. rewrite Eab. split; [reflexivity|]. split; [exact Ha|]. split; [exact Hb|]. split; [discriminate|]. split; [exact Hp|]. split; [exact Ex|]. now split.
  - intros (a & point & b & e & x & -> & Ha & Hb & Hn & Hp & He & -> & ->). unfold parse_decimal.
    pose proof (exponent_first _ _ He) as Hf.
    assert (Nd : no_digit_first e) by (destruct e as [|c e]; [exact I|cbn; unfold digit; lia]).
    rewrite take_digits_app; [|exact Ha|destruct Hp as [->|(-> & ->)]; [cbn; unfold digit; lia|exact Nd]].
    match goal with |- (let '(_, _) := ?M in _) = _ => assert (E : M = (b, e)) end.
    { destruct Hp as [->|(-> & ->)]; cbn [app].
      - change (46 =? 46) with true. cbv match. now apply take_digits_app.
      - destruct e as [|c e]; [reflexivity|]. rewrite (proj2 (Z.eqb_neq c 46)) by (destruct Hf; lia). reflexivity. }
    rewrite E. destruct (a ++ b) as [|d ds] eqn:Eab; [congruence|]. rewrite (proj2 (parse_exponent_spec e x) He). now rewrite digits_value_whole.
Qed.

Lemma decimal_first : forall m k t, decimal_is m k t -> 0 <= m /\ exists c r, t = c :: r /\ (digit c \/ c = 46).
Proof.
  intros m k t (a & point & b & e & x & -> & Ha & Hb & Hn & Hp & He & -> & ->). split; [apply whole_bounds; now apply Forall_app|].
  destruct a as [|c a]; [|exists c, (a ++ point ++ b ++ e); split; [reflexivity|left; now inversion Ha]].
  destruct Hp as [->|(-> & ->)]; [|cbn in Hn; congruence]. exists 46, (b ++ e). split; [reflexivity|now right].
Qed.

Lemma lower_spec : forall c d, 97 <= d <= 122 -> (lower c = d <-> same_letter c d).
Proof.
  intros c d H. unfold lower, same_letter. destruct (Z.leb_spec 65 c), (Z.leb_spec c 90); cbn [andb]; lia.
Qed.
Lemma word_spec : forall t w, Forall (fun d => 97 <= d <= 122) w -> (map lower t = w <-> same_word t w).
Proof.
  intros t w. revert t. induction w as [|d w IH]; intros t H; destruct t as [|c t]; cbn [map].
  - split; [constructor|reflexivity].
  - split; [discriminate|]. intros K. inversion K.
  - split; [discriminate|]. intros K. inversion K.
  - inversion H; subst. split.
    + intros E. injection E as E1 E2. constructor; [now apply lower_spec|now apply IH].
    + intros K. inversion K; subst. f_equal; [now apply lower_spec|now apply IH].
Qed.
Lemma text_eqb_iff : forall a b, text_eqb a b = true <-> a = b.
Proof. intros a b. unfold text_eqb. destruct (list_eq_dec Z.eq_dec a b); split; congruence. Qed.

Lemma parse_special_spec : forall neg t x, parse_special neg t = Some x <->
  ((same_word t word_inf \/ same_word t word_infinity) /\ x = B754_infinity 53 1024 neg) \/ (same_word t word_nan /\ x = nan_f64 neg).
Proof.
  intros neg t x. rewrite <- !word_spec by (repeat constructor; lia). unfold parse_special. cbv zeta.
  destruct (text_eqb (map lower t) word_inf || text_eqb (map lower t) word_infinity) eqn:E.
  - apply orb_true_iff in E. rewrite !text_eqb_iff in E. split.
    + intros H. injection H as <-. left. now split.
    + intros [(_ & ->)|(H & _)]; [reflexivity|]. exfalso. rewrite H in E. destruct E; discriminate.
  - assert (N : ~ (map lower t = word_inf \/ map lower t = word_infinity)).
    { rewrite <- !text_eqb_iff. intros H. apply orb_true_iff in H. congruence. }
    destruct (text_eqb (map lower t) word_nan) eqn:F.
    + apply text_eqb_iff in F. split; [intros H; injection H as <-; right; now split|]. intros [(H & _)|(_ & ->)]; [contradiction|reflexivity].
    + split; [discriminate|]. intros [(H & _)|(H & _)]; [contradiction|]. apply text_eqb_iff in H. congruence.
Qed.

Lemma word_first : forall t, same_word t word_inf \/ same_word t word_infinity \/ same_word t word_nan -> exists c r, t = c :: r /\ 65 <= c.
Proof.
  intros t H. assert (K : exists d w, same_word t (d :: w) /\ 97 <= d).
  { destruct H as [H|[H|H]]; [exists 105, [110; 102]|exists 105, [110; 102; 105; 110; 105; 116; 121]|exists 110, [97; 110]]; (split; [exact H|lia]). }
  destruct K as (d & w & K & Hd). inversion K as [|c d' r w' Hc Hr]; subst. exists c, r. split; [reflexivity|]. destruct Hc; lia.
Qed.

Theorem std_parse_spec : forall t x, std_parse t = Some x <->
  (exists neg v, writes t neg v /\ double_for neg v x) \/
  (exists neg sg w, t = sg ++ w /\ sign_is neg sg /\ (same_word w word_inf \/ same_word w word_infinity) /\ x = B754_infinity 53 1024 neg) \/
  (exists neg sg w, t = sg ++ w /\ sign_is neg sg /\ same_word w word_nan /\ x = nan_f64 neg).
Proof.
  intros t x. split.
  - intros H. unfold std_parse in H. destruct (take_sign t) as [neg r] eqn:Es. destruct (take_sign_inv _ _ _ Es) as (sg & -> & Hs).
    destruct (parse_decimal r) as [[m k]|] eqn:Ed.
    + apply parse_decimal_spec in Ed. destruct (decimal_first _ _ _ Ed) as (Hm & _). left. exists neg, (IZR m * ten_to k)%R. split; [now exists sg, m, k, r|].
      injection H as <-. now apply nearest_decimal_ok.
    + apply parse_special_spec in H. destruct H as [(H & ->)|(H & ->)]; [right; left|right; right]; now exists neg, sg, r.
  - intros [(neg & v & (sg & m & k & r & -> & Hs & Hd & ->) & Hx)|[(neg & sg & w & -> & Hs & Hw & ->)|(neg & sg & w & -> & Hs & Hw & ->)]].
    + unfold std_parse. destruct (decimal_first _ _ _ Hd) as (Hm & c & r' & -> & Hc).
      rewrite (take_sign_app neg sg _ Hs) by (unfold digit in Hc; lia). rewrite (proj2 (parse_decimal_spec _ m k) Hd). f_equal.
      apply (double_for_unique neg (IZR m * ten_to k)); [now apply nearest_decimal_ok|exact Hx].
    + destruct (word_first w) as (c & r & -> & Hc); [tauto|]. unfold std_parse. rewrite (take_sign_app neg sg _ Hs) by lia.
      destruct (parse_decimal (c :: r)) as [[m k]|] eqn:Ed.
      * apply parse_decimal_spec, decimal_first in Ed. destruct Ed as (_ & c' & r' & E & D). injection E as <- <-. unfold digit in D. lia.
      * apply parse_special_spec. left. now split.
    + destruct (word_first w) as (c & r & -> & Hc); [tauto|]. unfold std_parse. rewrite (take_sign_app neg sg _ Hs) by lia.
      destruct (parse_decimal (c :: r)) as [[m k]|] eqn:Ed.
      * apply parse_decimal_spec, decimal_first in Ed. destruct Ed as (_ & c' & r' & E & D). injection E as <- <-. unfold digit in D. lia.
      * apply parse_special_spec. right. now split.
Qed.
