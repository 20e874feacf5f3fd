(** C61: the public helpers for rounding and conversion. *)
From Coq Require Import List ZArith Bool Lia Reals Lra.
From Flocq Require Import Core IEEE754.BinarySingleNaN IEEE754.Binary IEEE754.Bits Relative.
From Verif Require Import Base Model_Float Model_Bincode BincodeFacts Spec FloatFacts ArithFacts Model_Utils RoundFacts Model_Rounding.
Import ListNotations.
Open Scope Z_scope.

(** ** Vocabulary *)
(** The double nearest to a real number (ties to even). *)
Definition nearest_double (r : R) : R := round radix2 (FLT_exp (-1074) 53) ZnearestE r.

(** [y] is the double nearest to the multiple of 10^-d which is nearest to [x], where the product [x * 10^d] may be
    off by the rounding of one floating-point multiplication. *)
Definition rounds_to (d : Z) (x y : f64) : Prop :=
  finite y /\ exists n : Z,
    R64 y = nearest_double (IZR n / IZR (10 ^ d)) /\
    (Rabs (R64 x * IZR (10 ^ d) - IZR n) <= / 2 + bpow radix2 (-53) * Rabs (R64 x * IZR (10 ^ d)))%R.

(** [x] is the double nearest to a number with [d] decimals and at most 15 digits. *)
Definition decimals_at_most (d : Z) (x : f64) : Prop :=
  finite x /\ exists n, Z.abs n <= 2 ^ 49 /\ R64 x = nearest_double (IZR n / IZR (10 ^ d)).

(** ** Proofs *)
Lemma pow10_range d : 0 <= d <= 9 -> 1 <= 10 ^ d <= 2 ^ 30.
Proof.
  intros H. split; [apply (Z.pow_le_mono_r 10 0 d); lia|]. apply Z.le_trans with (10 ^ 9); [apply Z.pow_le_mono_r; lia|]. vm_compute. discriminate.
Qed.
Lemma ten_pow_small p d : 0 <= d <= 9 -> ten_pow p d = Ok (10 ^ d).
Proof.
  intros H. pose proof (pow10_range d H). unfold ten_pow, arith_s, in_sb. change (2 ^ (32 - 1)) with 2147483648. change (2 ^ 30) with 1073741824 in H0.
  replace ((- (2147483648) <=? 10 ^ d) && (10 ^ d <? 2147483648)) with true; [reflexivity|]. symmetry. apply andb_true_intro. split; [apply Z.leb_le; lia|apply Z.ltb_lt; lia].
Qed.

Lemma round_any_R k x d : 0 <= k <= 900 -> 0 <= d <= 9 -> bnd k x ->
  finite (round_f64 x d) /\ R64 (round_f64 x d) = rd d (R64 x).
Proof.
  intros Hk Hd Hx. unfold round_f64. pose proof (pow10_range d Hd) as Hy.
  destruct (int_as_f64_exact (10 ^ d)) as [Ry Fy]; [lia|].
  assert (By : bnd 30 (int_as_f64 (10 ^ d))) by (apply bnd_int; lia).
  assert (Bm := bnd_mul k 30 _ _ Hx By ltac:(lia)).
  assert (Bf := fround_bnd (k + 30) _ ltac:(lia) Bm).
  assert (Hlow : (bpow radix2 0 <= Rabs (R64 (int_as_f64 (10 ^ d))))%R).
  { rewrite Ry, Rabs_right by (apply Rle_ge, IZR_le; lia). apply (IZR_le 1). lia. }
  assert (Bq := bnd_div (k + 30) 0 _ _ Bf Hlow ltac:(lia)).
  split; [apply Bq|].
  assert (Rm : R64 (fmul x (int_as_f64 (10 ^ d))) = rnd64 (R64 x * IZR (10 ^ d))).
  { destruct (fmul_R x (int_as_f64 (10 ^ d))) as [E _]; [apply Hx|exact Fy| |rewrite E, Ry; reflexivity].
    apply (rnd_bnd (k + 30)); [lia|]. rewrite Rabs_mult, bpow_plus. apply Rmult_le_compat; try apply Rabs_pos; [apply Hx|apply By]. }
  destruct (fdiv_R (fround (fmul x (int_as_f64 (10 ^ d)))) (int_as_f64 (10 ^ d))) as [E _].
  - apply Bf.
  - rewrite Ry. apply IZR_neq. lia.
  - apply (rnd_bnd (k + 30)); [lia|].
    unfold Rdiv. rewrite Rabs_mult, Rabs_inv. rewrite <- (Rmult_1_r (bpow radix2 (k + 30))).
    apply Rmult_le_compat; try apply Rabs_pos; [left; apply Rinv_0_lt_compat; eapply Rlt_le_trans; [apply (bpow_gt_0 radix2 0)|exact Hlow]|apply Bf|].
    rewrite <- Rinv_1. apply Rinv_le_contravar; [lra|exact Hlow].
  - rewrite E, fround_R, Rm, Ry. reflexivity.
Qed.

Lemma rnd_relative r : (bpow radix2 (-1000) <= Rabs r)%R -> (Rabs (rnd64 r - r) <= bpow radix2 (-53) * Rabs r)%R.
Proof.
  intros H. pose proof (Relative.relative_error_N_FLT radix2 (-1074) 53 eq_refl (fun x => negb (Z.even x)) r) as E.
  replace (bpow radix2 (-53)) with (/ 2 * bpow radix2 (- 53 + 1))%R by (change (-53) with (-1 + (-53 + 1)) at 2; rewrite (bpow_plus radix2 (-1)); reflexivity). apply E. eapply Rle_trans; [|exact H]. apply bpow_le. lia.
Qed.

Lemma nearest_int r : (Rabs (r - IZR (ZnearestA (rnd64 r))) <= / 2 + bpow radix2 (-53) * Rabs r)%R.
Proof.
  assert (P := bpow_gt_0 radix2 (-53)). assert (A := Rabs_pos r).
  destruct (Rle_lt_dec (bpow radix2 (-1000)) (Rabs r)) as [H|H].
  - assert (E1 := rnd_relative r H). assert (E2 := Znearest_half (Z.leb 0) (rnd64 r)).
    replace (r - IZR (ZnearestA (rnd64 r)))%R with ((rnd64 r - IZR (ZnearestA (rnd64 r))) + (r - rnd64 r))%R by ring.
    eapply Rle_trans; [apply Rabs_triang|]. rewrite (Rabs_minus_sym r). lra.
  - assert (Hs : (bpow radix2 (-1000) <= / 4)%R) by (change (/ 4)%R with (bpow radix2 (-2)); apply bpow_le; lia).
    assert (B : (Rabs (rnd64 r) <= / 4)%R) by (change (/ 4)%R with (bpow radix2 (-2)); apply rnd64_abs_le_bpow; [lia|]; change (bpow radix2 (-2)) with (/ 4)%R; lra).
    rewrite (ZnearestA_near (rnd64 r) 0) by (rewrite Rminus_0_r; lra). rewrite Rminus_0_r. nra.
Qed.

(** *** C61 *)
(** Rounding to 0 to 9 decimals never panics and gives the nearest number with that many decimals. *)
Theorem C61_round_is_nearest : forall p x d,
  finite x -> (Rabs (R64 x) <= bpow radix2 900)%R -> 0 <= d <= 9 ->
  exists y, round_f64_any p x d = Ok y /\ rounds_to d x y.
Proof.
  intros p x d Fx Bx Hd. unfold round_f64_any. rewrite ten_pow_small by exact Hd. cbn [bind]. cbv zeta.
  destruct (round_any_R 900 x d ltac:(lia) Hd (conj Fx Bx)) as [F E]. unfold round_f64 in F, E.
  eexists. split; [reflexivity|]. split; [exact F|]. exists (ZnearestA (rnd64 (R64 x * IZR (10 ^ d)))). split; [exact E|]. apply nearest_int.
Qed.
Print Assumptions C61_round_is_nearest.

Lemma rd_fixed d r n : 0 <= d <= 9 -> Z.abs n <= 2 ^ 49 -> r = rnd64 (IZR n / IZR (10 ^ d)) -> rd d r = r.
Proof.
  intros Hd Hn ->. pose proof (pow10_range d Hd) as Hy. unfold rd. set (y := IZR (10 ^ d)).
  assert (Y1 : (1 <= y)%R) by (apply (IZR_le 1); lia).
  assert (Hkr : (Rabs (IZR n) <= bpow radix2 49)%R).
  { rewrite <- abs_IZR. rewrite <- (IZR_Zpower radix2) by lia. apply IZR_le. exact Hn. }
  set (q := (IZR n / y)%R).
  assert (Hqy : (q * y = IZR n)%R) by (unfold q; field; lra).
  (* the first rounding *)
  assert (E1 : (Rabs (rnd64 q - q) * y <= / 16)%R).
  { destruct (Rle_lt_dec (bpow radix2 (-1000)) (Rabs q)) as [H|H].
    - assert (E := rnd_relative q H).
      apply Rle_trans with (bpow radix2 (-53) * Rabs q * y)%R; [apply Rmult_le_compat_r; lra|].
      replace (bpow radix2 (-53) * Rabs q * y)%R with (bpow radix2 (-53) * Rabs (IZR n))%R by (rewrite <- Hqy, Rabs_mult, (Rabs_right y) by lra; ring).
      change (/ 16)%R with (bpow radix2 (-4)). replace (-4) with (-53 + 49) by lia. rewrite bpow_plus. apply Rmult_le_compat_l; [apply bpow_ge_0|exact Hkr].
    - assert (n = 0).
      { destruct (Z.eq_dec n 0) as [|Hnz]; [assumption|]. exfalso.
        assert (H1 : (1 <= Rabs (IZR n))%R) by (rewrite <- abs_IZR; apply (IZR_le 1); lia).
        assert (H2 : (y <= bpow radix2 30)%R) by (unfold y; rewrite <- (IZR_Zpower radix2) by lia; apply IZR_le; exact (proj2 Hy)).
        assert (H3 : (Rabs (IZR n) = Rabs q * y)%R) by (rewrite <- Hqy, Rabs_mult, (Rabs_right y) by lra; ring).
        assert (H4 : (Rabs q * y <= bpow radix2 (-1000) * bpow radix2 30)%R) by (apply Rmult_le_compat; try lra; apply Rabs_pos).
        rewrite <- bpow_plus in H4. assert (H5 : (bpow radix2 (-1000 + 30) < bpow radix2 0)%R) by (apply bpow_lt; lia). change (bpow radix2 0) with 1%R in H5. lra. }
      subst n. unfold q, Rdiv. rewrite Rmult_0_l, round_0 by apply valid_rnd_N. rewrite Rminus_0_r, Rabs_R0. lra. }
  assert (B1 : (Rabs (rnd64 q * y - IZR n) <= / 16)%R).
  { rewrite <- Hqy. replace (rnd64 q * y - q * y)%R with ((rnd64 q - q) * y)%R by ring. rewrite Rabs_mult, (Rabs_right y) by lra. exact E1. }
  assert (B2 : (Rabs (rnd64 q * y) <= bpow radix2 50)%R).
  { replace (rnd64 q * y)%R with ((rnd64 q * y - IZR n) + IZR n)%R by ring. eapply Rle_trans; [apply Rabs_triang|].
    change (bpow radix2 50) with 1125899906842624%R. change (bpow radix2 49) with 562949953421312%R in Hkr. lra. }
  assert (E2 := rnd_err 50 (rnd64 q * y) ltac:(lia) B2). change (bpow radix2 (50 - 54)) with (/ 16)%R in E2.
  rewrite (ZnearestA_near _ n); [reflexivity|].
  replace (rnd64 (rnd64 q * y) - IZR n)%R with ((rnd64 (rnd64 q * y) - rnd64 q * y) + (rnd64 q * y - IZR n))%R by ring.
  eapply Rle_lt_trans; [apply Rabs_triang|]. lra.
Qed.

(** A number that has the decimals already is not changed. *)
Theorem C61_round_idempotent : forall p x d,
  0 <= d <= 9 -> decimals_at_most d x -> exists y, round_f64_any p x d = Ok y /\ same_value y x.
Proof.
  intros p x d Hd (Fx & n & Hn & Rx). unfold round_f64_any. rewrite ten_pow_small by exact Hd. cbn [bind]. cbv zeta.
  pose proof (pow10_range d Hd) as Hy.
  assert (Bx : bnd 50 x).
  { split; [exact Fx|]. rewrite Rx. apply rnd64_abs_le_bpow; [lia|]. unfold Rdiv. rewrite Rabs_mult.
    rewrite <- (Rmult_1_r (bpow radix2 50)). apply Rmult_le_compat; try apply Rabs_pos.
    - rewrite <- abs_IZR, <- (IZR_Zpower radix2) by lia. apply IZR_le. change (radix2 ^ 50) with (2 ^ 50). lia.
    - assert (1 <= IZR (10 ^ d))%R by (apply (IZR_le 1); lia). rewrite Rabs_right by (apply Rle_ge; left; apply Rinv_0_lt_compat; lra).
      rewrite <- Rinv_1. apply Rinv_le_contravar; lra. }
  destruct (round_any_R 50 x d ltac:(lia) Hd Bx) as [F E]. unfold round_f64 in F, E.
  eexists. split; [reflexivity|]. split; [exact F|]. split; [exact Fx|]. rewrite E. exact (rd_fixed d _ n Hd Hn Rx).
Qed.
Print Assumptions C61_round_idempotent.

(** Rounding keeps the order. *)
Theorem C61_round_monotone : forall p x x' d y y',
  finite x -> finite x' -> (Rabs (R64 x) <= bpow radix2 900)%R -> (Rabs (R64 x') <= bpow radix2 900)%R -> 0 <= d <= 9 ->
  (R64 x <= R64 x')%R -> round_f64_any p x d = Ok y -> round_f64_any p x' d = Ok y' -> (R64 y <= R64 y')%R.
Proof.
  intros p x x' d y y' Fx Fx' Bx Bx' Hd Hle. unfold round_f64_any. rewrite ten_pow_small by exact Hd. cbn [bind]. cbv zeta. intros H H'.
  apply ok_inj in H, H'. subst y y'.
  destruct (round_any_R 900 x d ltac:(lia) Hd (conj Fx Bx)) as [_ E]. destruct (round_any_R 900 x' d ltac:(lia) Hd (conj Fx' Bx')) as [_ E'].
  unfold round_f64 in E, E'. rewrite E, E'. apply rd_le; [lia|exact Hle].
Qed.
Print Assumptions C61_round_monotone.

(** Ten or more decimals: a panic with overflow checks; without them, 32 or more decimals turn every number into NaN. *)
Lemma ten_pow_big d : 10 <= d -> in_sb 32 (10 ^ d) = false.
Proof.
  intros H. assert (10 ^ 10 <= 10 ^ d) by (apply Z.pow_le_mono_r; lia). unfold in_sb. apply andb_false_iff. right. apply Z.ltb_ge.
  eapply Z.le_trans; [|exact H0]. vm_compute. discriminate.
Qed.
Theorem C61_round_many_decimals : forall x lo hi d, 10 <= d < 2 ^ 32 ->
  round_f64_any Dev x d = Panic POverflow /\ round_and_limit_any Dev x lo hi d = Panic POverflow /\
  (32 <= d -> exists y, round_f64_any Release x d = Ok y /\ fis_nan y = true).
Proof.
  intros x lo hi d Hd. unfold round_f64_any, round_and_limit_any, ten_pow, arith_s. rewrite ten_pow_big by lia. split; [reflexivity|]. split; [reflexivity|].
  intros H. cbn [bind]. cbv zeta.
  assert (E : wrap_s 32 (10 ^ d) = 0).
  { unfold wrap_s. replace (10 ^ d) with (5 ^ d * 2 ^ (d - 32) * 2 ^ 32).
    - rewrite Z.add_comm, Z.mod_add by lia. reflexivity.
    - rewrite <- Z.mul_assoc, <- Z.pow_add_r by lia. replace (d - 32 + 32) with d by lia. rewrite <- Z.pow_mul_l. reflexivity. }
  rewrite E. eexists. split; [reflexivity|]. change (int_as_f64 0) with (B754_zero 53 1024 false).
  destruct x as [s|s|s pl Hp|s m e He]; destruct s; reflexivity.
Qed.
Print Assumptions C61_round_many_decimals.

(** Limiting: whatever number is rounded, the result is not below the minimum and not above the maximum. *)
Lemma nonzero_div x n : fis_nan x = false -> 1 <= n <= 2 ^ 53 -> fis_nan (fdiv x (int_as_f64 n)) = false.
Proof.
  intros Nx Hn. destruct (int_as_f64_exact n ltac:(lia)) as [Ry Fy].
  assert (NZ : (R64 (int_as_f64 n) <> 0)%R) by (rewrite Ry; apply IZR_neq; lia).
  destruct (int_as_f64 n) as [s|s|s pl H|s m e H]; try discriminate; [unfold R64 in NZ; cbn in NZ; lra|].
  destruct x as [sx|sx|sx plx Hx|sx mx ex Hx]; try discriminate; try reflexivity.
  pose proof (Binary.Bdiv_correct 53 1024 eq_refl eq_refl binop_nan_pl64 mode_NE (B754_finite 53 1024 sx mx ex Hx) (B754_finite 53 1024 s m e H) NZ) as C.
  unfold fdiv, b64_div. destruct (Rlt_bool _ _).
  - destruct C as (_ & C & _). cbn [Binary.is_finite] in C. unfold fis_nan. destruct (Binary.Bdiv _ _ _ _ _ _ _ _); try reflexivity; discriminate.
  - unfold fis_nan. destruct (Binary.Bdiv _ _ _ _ _ _ _ _); try reflexivity.
    unfold Binary.B2FF, binary_overflow in C. cbn in C. discriminate C.
Qed.
Lemma nonzero_mul x n : fis_nan x = false -> 1 <= n <= 2 ^ 53 -> fis_nan (fmul x (int_as_f64 n)) = false.
Proof.
  intros Nx Hn. destruct (int_as_f64_exact n ltac:(lia)) as [Ry Fy].
  assert (NZ : (R64 (int_as_f64 n) <> 0)%R) by (rewrite Ry; apply IZR_neq; lia).
  destruct (int_as_f64 n) as [s|s|s pl H|s m e H]; try discriminate; [unfold R64 in NZ; cbn in NZ; lra|].
  destruct x as [sx|sx|sx plx Hx|sx mx ex Hx]; try discriminate; try reflexivity.
  pose proof (Binary.Bmult_correct 53 1024 eq_refl eq_refl binop_nan_pl64 mode_NE (B754_finite 53 1024 sx mx ex Hx) (B754_finite 53 1024 s m e H)) as C.
  unfold fmul, b64_mult. destruct (Rlt_bool _ _).
  - destruct C as (_ & C & _). cbn [Binary.is_finite andb] in C. unfold fis_nan. destruct (Binary.Bmult _ _ _ _ _ _ _ _); try reflexivity; discriminate C.
  - unfold fis_nan. destruct (Binary.Bmult _ _ _ _ _ _ _ _); try reflexivity.
    unfold Binary.B2FF, binary_overflow in C. cbn in C. discriminate C.
Qed.
Lemma fround_not_nan x : fis_nan x = false -> fis_nan (fround x) = false.
Proof.
  destruct x as [s|s|s pl H|s m e H]; try discriminate; try reflexivity. intros _.
  assert (F := fround_finite (B754_finite 53 1024 s m e H)). cbn in F. destruct (fround _); try reflexivity. discriminate F.
Qed.

Theorem C61_limit_in_range : forall p x lo hi d,
  fis_nan x = false -> finite lo -> finite hi -> (R64 lo <= R64 hi)%R -> 0 <= d <= 9 ->
  exists y, round_and_limit_any p x lo hi d = Ok y /\ finite y /\ (R64 lo <= R64 y <= R64 hi)%R /\
    (forall z, round_f64_any p x d = Ok z -> finite z -> (R64 lo <= R64 z <= R64 hi)%R -> y = z).
Proof.
  intros p x lo hi d Nx Fl Fh Hle Hd. unfold round_and_limit_any, round_f64_any. rewrite ten_pow_small by exact Hd. cbn [bind]. cbv zeta.
  pose proof (pow10_range d Hd) as Hy. eexists. split; [reflexivity|].
  assert (NO : fis_nan (fdiv (fround (fmul x (int_as_f64 (10 ^ d)))) (int_as_f64 (10 ^ d))) = false).
  { apply nonzero_div; [apply fround_not_nan, nonzero_mul; [exact Nx|lia]|lia]. }
  set (out := fdiv _ _) in *. clearbody out.
  assert (D : finite out \/ out = B754_infinity 53 1024 true \/ out = B754_infinity 53 1024 false).
  { destruct out as [s|s|s pl H|s m e H]; try discriminate; [left; reflexivity|right; destruct s; auto|left; reflexivity]. }
  destruct D as [F|[-> | ->]].
  - destruct (flt out lo) eqn:E1.
    + apply flt_R in E1; [|assumption..]. split; [exact Fl|]. split; [lra|]. intros z Hz Fz [H1 H2]. apply ok_inj in Hz. subst z. lra.
    + assert (H1 : (R64 lo <= R64 out)%R) by (apply Rnot_lt_le; intros H; apply flt_R in H; [congruence|assumption..]).
      destruct (fgt out hi) eqn:E2.
      * apply fgt_R in E2; [|assumption..]. split; [exact Fh|]. split; [lra|]. intros z Hz Fz [H2 H3]. apply ok_inj in Hz. subst z. lra.
      * assert (H2 : (R64 out <= R64 hi)%R) by (apply Rnot_lt_le; intros H; apply fgt_R in H; [congruence|assumption..]).
        split; [exact F|]. split; [lra|]. intros z Hz _ _. apply ok_inj in Hz. congruence.
  - assert (E : flt (B754_infinity 53 1024 true) lo = true) by (destruct lo as [s|s|s pl H|s m e H]; try discriminate; reflexivity). rewrite E.
    split; [exact Fl|]. split; [lra|]. intros z Hz Fz _. apply ok_inj in Hz. subst z. discriminate Fz.
  - assert (E : flt (B754_infinity 53 1024 false) lo = false) by (destruct lo as [s|s|s pl H|s m e H]; try discriminate; reflexivity). rewrite E.
    assert (E' : fgt (B754_infinity 53 1024 false) hi = true) by (destruct hi as [s|s|s pl H|s m e H]; try discriminate; reflexivity). rewrite E'.
    split; [exact Fh|]. split; [lra|]. intros z Hz Fz _. apply ok_inj in Hz. subst z. discriminate Fz.
Qed.
Print Assumptions C61_limit_in_range.

(** NaN stays NaN. *)
Theorem C61_limit_nan : forall p x lo hi d, fis_nan x = true -> 0 <= d <= 9 ->
  exists y, round_and_limit_any p x lo hi d = Ok y /\ fis_nan y = true.
Proof.
  intros p x lo hi d Nx Hd. unfold round_and_limit_any. rewrite ten_pow_small by exact Hd. cbn [bind]. cbv zeta.
  destruct x as [s|s|s pl H|s m e H]; try discriminate. destruct (int_as_f64 (10 ^ d)) as [s'|s'|s' pl' H'|s' m' e' H'];
    destruct lo, hi; eexists; (split; [reflexivity|reflexivity]).
Qed.
Print Assumptions C61_limit_nan.

(** ** f64_to_u64 *)
(** Up to six digits are kept: the integer part of [x * 10^digits], one rounding aside; negative numbers, and numbers that
    are too large, give the ends of the range; more than six digits panic. *)
Theorem C61_to_integer : forall x digits, 0 <= digits ->
  (6 < digits -> f64_to_u64 x digits = Panic PExplicit) /\
  (digits <= 6 -> exists n, f64_to_u64 x digits = Ok n /\ 0 <= n < 2 ^ 64 /\
    (fis_nan x = true -> n = 0) /\
    (finite x -> (R64 x <= 0)%R -> n = 0) /\
    (finite x -> (bpow radix2 64 <= R64 x * IZR (10 ^ digits))%R -> n = 2 ^ 64 - 1) /\
    (finite x -> (0 <= R64 x * IZR (10 ^ digits) < bpow radix2 53)%R ->
      (- (1 + bpow radix2 (-53) * (R64 x * IZR (10 ^ digits))) < IZR n - R64 x * IZR (10 ^ digits)
        <= bpow radix2 (-53) * (R64 x * IZR (10 ^ digits)))%R) /\
    (forall k, finite x -> 0 <= k <= 2 ^ 53 -> (R64 x * IZR (10 ^ digits) = IZR k)%R -> n = k)).
Proof.
  intros x digits H0. unfold f64_to_u64. split.
  { intros H. destruct (Z.ltb_spec 6 digits); [reflexivity|lia]. }
  intros H6. destruct (Z.ltb_spec 6 digits); [lia|]. clear H.
  assert (Hy : 1 <= 10 ^ digits <= 2 ^ 20).
  { split; [apply (Z.pow_le_mono_r 10 0 digits); lia|]. apply Z.le_trans with (10 ^ 6); [apply Z.pow_le_mono_r; lia|]. vm_compute. discriminate. }
  eexists. split; [reflexivity|]. destruct (int_as_f64_exact (10 ^ digits) ltac:(lia)) as [Ry Fy].
  assert (Y1 : (1 <= IZR (10 ^ digits))%R) by (apply (IZR_le 1); lia).
  set (y := IZR (10 ^ digits)) in *. set (Y := int_as_f64 (10 ^ digits)) in *.
  assert (G := f64_as_int_range 0 (2 ^ 64 - 1) (fmul x Y) ltac:(lia)).
  split; [lia|]. split.
  { intros N. destruct x; try discriminate. destruct Y; reflexivity. }
  assert (FIN : finite x -> (Rabs (rnd64 (R64 x * y)) < bpow radix2 1024)%R ->
    f64_as_int 0 (2 ^ 64 - 1) (fmul x Y) = Z.max 0 (Z.min (2 ^ 64 - 1) (Ztrunc (rnd64 (R64 x * y))))).
  { intros Fx Hb. rewrite <- Ry in Hb. destruct (fmul_R x Y Fx Fy Hb) as [E F]. rewrite f64_as_int_R by (auto; lia). rewrite E, Ry. reflexivity. }
  (* overflow of the product: an infinity with the sign of x *)
  assert (OVF : finite x -> (bpow radix2 1024 <= Rabs (rnd64 (R64 x * y)))%R ->
    fmul x Y = B754_infinity 53 1024 (xorb (Binary.Bsign 53 1024 x) (Binary.Bsign 53 1024 Y))).
  { intros Fx Hb. pose proof (Binary.Bmult_correct 53 1024 eq_refl eq_refl binop_nan_pl64 mode_NE x Y) as C. cbn [round_mode] in C.
    rewrite Rlt_bool_false in C by (rewrite <- Ry in Hb; exact Hb). unfold fmul, b64_mult.
    destruct (Binary.Bmult _ _ _ _ _ _ _ _); unfold Binary.B2FF, binary_overflow in C; cbn in C; try discriminate C.
    injection C as ->. reflexivity. }
  assert (SY : Binary.Bsign 53 1024 Y = false).
  { destruct Y as [s|s|s pl H|s m e H]; try discriminate; [unfold R64 in Ry; cbn in Ry; lra|]. destruct s; [exfalso|reflexivity].
    unfold R64 in Ry. cbn [Binary.B2R] in Ry. unfold F2R in Ry. cbn [Fnum Fexp SpecFloat.cond_Zopp] in Ry.
    assert (P := bpow_gt_0 radix2 e). assert (N : (IZR (Z.neg m) < 0)%R) by (apply (IZR_lt _ 0); lia). cbn in Ry. nra. }
  assert (SX : finite x -> (R64 x < 0)%R -> Binary.Bsign 53 1024 x = true).
  { intros Fx Hx. destruct x as [s|s|s pl H|s m e H]; try discriminate; [unfold R64 in Hx; cbn in Hx; lra|]. destruct s; [reflexivity|exfalso].
    unfold R64 in Hx. cbn [Binary.B2R] in Hx. unfold F2R in Hx. cbn [Fnum Fexp SpecFloat.cond_Zopp] in Hx.
    assert (P := bpow_gt_0 radix2 e). assert (N : (0 < IZR (Z.pos m))%R) by (apply (IZR_lt 0); lia). cbn in Hx. nra. }
  assert (SX' : finite x -> (0 < R64 x)%R -> Binary.Bsign 53 1024 x = false).
  { intros Fx Hx. destruct x as [s|s|s pl H|s m e H]; try discriminate; [unfold R64 in Hx; cbn in Hx; lra|]. destruct s; [exfalso|reflexivity].
    unfold R64 in Hx. cbn [Binary.B2R] in Hx. unfold F2R in Hx. cbn [Fnum Fexp SpecFloat.cond_Zopp] in Hx.
    assert (P := bpow_gt_0 radix2 e). assert (N : (IZR (Z.neg m) < 0)%R) by (apply (IZR_lt _ 0); lia). cbn in Hx. nra. }
  split; [|split; [|split]].
  - intros Fx Hx. destruct (Rlt_le_dec (Rabs (rnd64 (R64 x * y))) (bpow radix2 1024)) as [Hb|Hb].
    + rewrite FIN by assumption. assert (T : Ztrunc (rnd64 (R64 x * y)) <= 0); [|lia].
      rewrite <- (Ztrunc_IZR 0). apply Ztrunc_le. rewrite <- (round_0 radix2 fexp64 ZnearestE).
      apply round_le; [apply fexp64_valid|apply valid_rnd_N|]. nra.
    + rewrite OVF by assumption. destruct (Rle_lt_or_eq_dec _ _ Hx) as [Hlt|Heq].
      * rewrite (SX Fx Hlt), SY. reflexivity.
      * exfalso. rewrite Heq, Rmult_0_l, round_0, Rabs_R0 in Hb by apply valid_rnd_N. pose proof (bpow_gt_0 radix2 1024). lra.
  - intros Fx Hx. assert (P64 := bpow_gt_0 radix2 64). assert (Px : (0 < R64 x)%R) by nra.
    destruct (Rlt_le_dec (Rabs (rnd64 (R64 x * y))) (bpow radix2 1024)) as [Hb|Hb].
    + rewrite FIN by assumption. assert (T : 2 ^ 64 <= Ztrunc (rnd64 (R64 x * y))); [|lia].
      rewrite <- (Ztrunc_IZR (2 ^ 64)). apply Ztrunc_le. change (IZR (2 ^ 64)) with (IZR (radix2 ^ 64)). rewrite (IZR_Zpower radix2) by lia.
      apply round_ge_generic; [apply fexp64_valid|apply valid_rnd_N| |exact Hx]. apply generic_format_bpow. unfold SpecFloat.fexp, SpecFloat.emin. lia.
    + rewrite OVF by assumption. rewrite (SX' Fx Px), SY. reflexivity.
  - intros Fx [Hx0 Hx1]. set (r := (R64 x * y)%R) in *.
    assert (Bx : (Rabs r <= bpow radix2 53)%R) by (rewrite Rabs_right; lra).
    destruct (rnd_bnd 53 r ltac:(lia) Bx) as [B1 B2]. rewrite FIN by assumption.
    assert (N0 : (0 <= rnd64 r)%R) by (rewrite <- (round_0 radix2 fexp64 ZnearestE); apply round_le; [apply fexp64_valid|apply valid_rnd_N|exact Hx0]).
    rewrite Rabs_right in B1 by lra. rewrite Ztrunc_floor by exact N0.
    assert (F1 := Zfloor_lb (rnd64 r)). assert (F2 := Zfloor_ub (rnd64 r)).
    assert (F0 : 0 <= Zfloor (rnd64 r)) by (apply Zfloor_lub; exact N0).
    assert (F3 : Zfloor (rnd64 r) <= 2 ^ 53).
    { apply le_IZR. eapply Rle_trans; [exact F1|]. eapply Rle_trans; [exact B1|]. change (IZR (2 ^ 53)) with (IZR (radix2 ^ 53)). rewrite (IZR_Zpower radix2) by lia. lra. }
    rewrite Z.max_r, Z.min_r by lia.
    destruct (Rle_lt_dec (bpow radix2 (-1000)) (Rabs r)) as [Hn|Hn].
    + assert (E := rnd_relative r Hn). rewrite (Rabs_right r) in E by lra. apply Rabs_le_inv in E. lra.
    + rewrite Rabs_right in Hn by lra. assert (Q : (bpow radix2 (-1000) <= / 4)%R) by (change (/ 4)%R with (bpow radix2 (-2)); apply bpow_le; lia).
      assert (B : (Rabs (rnd64 r) <= / 4)%R) by (change (/ 4)%R with (bpow radix2 (-2)); apply rnd64_abs_le_bpow; [lia|]; change (bpow radix2 (-2)) with (/ 4)%R; rewrite Rabs_right; lra).
      rewrite Rabs_right in B by lra. assert (Zfloor (rnd64 r) = 0) as ->.
      { apply Zfloor_imp. cbn. lra. }
      assert (P := bpow_gt_0 radix2 (-53)). split; nra.
  - intros k Fx Hk E. assert (R : rnd64 (R64 x * y) = IZR k) by (rewrite E; apply rnd64_int; lia).
    rewrite FIN; [rewrite R, Ztrunc_IZR; lia|exact Fx|]. rewrite R. rewrite Rabs_right by (apply Rle_ge, (IZR_le 0); lia).
    rewrite <- (IZR_Zpower radix2) by lia. apply IZR_lt. apply Z.le_lt_trans with (2 ^ 53); [lia|]. change (radix2 ^ 1024) with (2 ^ 1024). apply Z.pow_lt_mono_r; lia.
Qed.
Print Assumptions C61_to_integer.

(** ** Examples *)
(** 3.123452312 to three decimals is 3.123; 1.5 with six digits is 1500000, with seven digits a panic. *)
Example C61_example :
  (do y <- round_f64_any Dev (from_bits 0x4008FCD490D53EA5) 3; Ok (to_bits y)) = Ok 0x4008FBE76C8B4396 /\
  f64_to_u64 (from_bits 0x3FF8000000000000) 6 = Ok 1500000 /\ f64_to_u64 (from_bits 0x3FF8000000000000) 7 = Panic PExplicit /\
  decimals_at_most 1 (from_bits 0x3FF8000000000000).
Proof.
  split; [vm_compute; reflexivity|]. split; [vm_compute; reflexivity|]. split; [reflexivity|].
  replace (from_bits 0x3FF8000000000000) with (B754_finite 53 1024 false 6755399441055744 (-52) eq_refl) by (apply to_bits_inj; vm_compute; reflexivity).
  split; [reflexivity|]. exists 15. split; [lia|]. unfold R64, nearest_double. cbn [Binary.B2R].
  assert (E : F2R (Float radix2 (SpecFloat.cond_Zopp false 6755399441055744) (-52)) = (3 / 2)%R) by (unfold F2R; cbn; lra).
  rewrite E. replace (15 / IZR (10 ^ 1))%R with (3 / 2)%R by (cbn; lra). rewrite <- E. symmetry. apply round_generic; [apply valid_rnd_N|].
  change (FLT_exp (-1074) 53) with fexp64. apply (Binary.generic_format_B2R 53 1024 (B754_finite 53 1024 false 6755399441055744 (-52) eq_refl)).
Qed.
