(** round_f64 and round_and_limit_f64 as functions of real numbers. *)
From Coq Require Import List ZArith Bool Lia Reals Lra.
From Flocq Require Import Core IEEE754.BinarySingleNaN IEEE754.Binary IEEE754.Bits Relative.
From Verif Require Import Base Model_Float Spec FloatFacts ArithFacts Model_Utils.
Import ListNotations.
Open Scope Z_scope.

Lemma rnd_err k r : -900 <= k -> (Rabs r <= bpow radix2 k)%R -> (Rabs (rnd64 r - r) <= bpow radix2 (k - 54))%R.
Proof.
  intros Hk Hr. assert (Hp := bpow_gt_0 radix2 (k - 54)).
  destruct (Req_dec r 0) as [->|Hnz].
  { rewrite round_0 by apply valid_rnd_N. rewrite Rminus_0_r, Rabs_R0. lra. }
  destruct (Rle_lt_or_eq_dec _ _ Hr) as [Hlt|Heq].
  - eapply Rle_trans; [apply (error_le_half_ulp radix2 fexp64)|].
    rewrite ulp_neq_0 by exact Hnz. replace (k - 54) with (-1 + (k - 53)) by lia. rewrite bpow_plus.
    change (bpow radix2 (-1)) with (/ 2)%R. apply Rmult_le_compat_l; [lra|]. apply bpow_le.
    unfold cexp, SpecFloat.fexp, SpecFloat.emin. assert (mag radix2 r <= k); [|lia].
    apply mag_le_bpow; assumption.
  - rewrite round_generic; [|apply valid_rnd_N|].
    + rewrite Rminus_diag_eq by reflexivity. rewrite Rabs_R0. lra.
    + destruct (Rcase_abs r) as [Hn|Hn].
      * rewrite Rabs_left in Heq by exact Hn. replace r with (- bpow radix2 k)%R by lra.
        apply generic_format_opp, generic_format_bpow. unfold SpecFloat.fexp, SpecFloat.emin. lia.
      * rewrite Rabs_right in Heq by exact Hn. rewrite Heq. apply generic_format_bpow.
        unfold SpecFloat.fexp, SpecFloat.emin. lia.
Qed.

(** What round_f64 computes, on real numbers. *)
Definition rd (d : Z) (r : R) : R := rnd64 (IZR (ZnearestA (rnd64 (r * IZR (10 ^ d)))) / IZR (10 ^ d)).

Lemma rd_le d r s : 0 <= d -> (r <= s)%R -> (rd d r <= rd d s)%R.
Proof.
  intros Hd H. assert (Hp : (0 < IZR (10 ^ d))%R) by (apply (IZR_lt 0); apply Z.pow_pos_nonneg; lia).
  unfold rd. apply round_le; [apply fexp64_valid|apply valid_rnd_N|].
  unfold Rdiv. apply Rmult_le_compat_r; [left; now apply Rinv_0_lt_compat|].
  apply IZR_le. apply Zrnd_le; [apply valid_rnd_N|].
  apply round_le; [apply fexp64_valid|apply valid_rnd_N|]. apply Rmult_le_compat_r; lra.
Qed.

Lemma pow10_cases d : 3 <= d <= 5 -> 2 ^ 9 <= 10 ^ d <= 2 ^ 17.
Proof. intros H. assert (d = 3 \/ d = 4 \/ d = 5) as [->|[->| ->]] by lia; vm_compute; split; discriminate. Qed.

Lemma round_f64_R k x d : 0 <= k <= 900 -> 3 <= d <= 5 -> bnd k x ->
  finite (round_f64 x d) /\ R64 (round_f64 x d) = rd d (R64 x) /\ bnd (k + 8) (round_f64 x d).
Proof.
  intros Hk Hd Hx. unfold round_f64. pose proof (pow10_cases d Hd) as Hy.
  destruct (int_as_f64_exact (10 ^ d)) as [Ry Fy]; [lia|].
  assert (By : bnd 17 (int_as_f64 (10 ^ d))) by (apply bnd_int; lia).
  assert (Bm := bnd_mul k 17 _ _ Hx By ltac:(lia)).
  assert (Bf := fround_bnd (k + 17) _ ltac:(lia) Bm).
  assert (Hlow : (bpow radix2 9 <= Rabs (R64 (int_as_f64 (10 ^ d))))%R).
  { rewrite Ry, Rabs_right by (apply Rle_ge, IZR_le; lia). rewrite <- (IZR_Zpower radix2) by lia. apply IZR_le. exact (proj1 Hy). }
  assert (Bq := bnd_div (k + 17) 9 _ _ Bf Hlow ltac:(lia)).
  replace (k + 17 - 9) with (k + 8) in Bq by lia.
  split; [apply Bq|split; [|exact Bq]].
  assert (Rm : R64 (fmul x (int_as_f64 (10 ^ d))) = rnd64 (R64 x * IZR (10 ^ d))).
  { destruct (fmul_R x (int_as_f64 (10 ^ d))) as [E _]; [apply Hx|exact Fy| |rewrite E, Ry; reflexivity].
    apply (rnd_bnd (k + 17)); [lia|]. rewrite Rabs_mult, bpow_plus. apply Rmult_le_compat; try apply Rabs_pos; [apply Hx|apply By]. }
  destruct (fdiv_R (fround (fmul x (int_as_f64 (10 ^ d)))) (int_as_f64 (10 ^ d))) as [E _].
  - apply Bf.
  - rewrite Ry. apply IZR_neq. lia.
  - apply (rnd_bnd (k + 8)); [lia|].
    unfold Rdiv. rewrite Rabs_mult, Rabs_inv. replace (k + 8) with (k + 17 + - (9)) by lia. rewrite bpow_plus, bpow_opp.
    apply Rmult_le_compat; try apply Rabs_pos; [left; apply Rinv_0_lt_compat; eapply Rlt_le_trans; [apply (bpow_gt_0 radix2 9)|exact Hlow]|apply Bf|].
    apply Rinv_le_contravar; [apply bpow_gt_0|exact Hlow].
  - rewrite E, fround_R, Rm, Ry. reflexivity.
Qed.

Lemma ZnearestA_near r z : (Rabs (r - IZR z) < / 2)%R -> ZnearestA r = z.
Proof. intros H. apply Znearest_imp. exact H. Qed.

(** Rounding to d decimals moves a value below 2^30 by little more than half a unit. *)
Lemma rd_near d r : 3 <= d <= 5 -> (Rabs r <= bpow radix2 30)%R ->
  (Rabs (rd d r - r) <= (/ 2 + / 128) / IZR (10 ^ d) + bpow radix2 (-23))%R.
Proof.
  intros Hd Hr. pose proof (pow10_cases d Hd) as Hy. unfold rd. set (y := IZR (10 ^ d)).
  assert (Hy9 : (bpow radix2 9 <= y)%R) by (unfold y; rewrite <- (IZR_Zpower radix2) by lia; apply IZR_le; exact (proj1 Hy)).
  assert (Hy17 : (y <= bpow radix2 17)%R) by (unfold y; rewrite <- (IZR_Zpower radix2) by lia; apply IZR_le; exact (proj2 Hy)).
  assert (Hyp : (0 < y)%R) by (pose proof (bpow_gt_0 radix2 9); lra).
  assert (E1 : (Rabs (rnd64 (r * y) - r * y) <= / 128)%R).
  { change (/ 128)%R with (bpow radix2 (47 - 54)). apply rnd_err; [lia|].
    rewrite Rabs_mult, (Rabs_right y) by lra. change 47 with (30 + 17). rewrite bpow_plus.
    apply Rmult_le_compat; lra || apply Rabs_pos. }
  set (N := ZnearestA (rnd64 (r * y))).
  assert (E2 : (Rabs (IZR N - rnd64 (r * y)) <= / 2)%R) by (rewrite Rabs_minus_sym; apply Znearest_half).
  assert (E3 : (Rabs (IZR N / y - r) <= (/ 2 + / 128) / y)%R).
  { replace (IZR N / y - r)%R with ((IZR N - r * y) / y)%R by (field; lra).
    unfold Rdiv. rewrite Rabs_mult, (Rabs_right (/ y)) by (apply Rle_ge; left; now apply Rinv_0_lt_compat).
    apply Rmult_le_compat_r; [left; now apply Rinv_0_lt_compat|].
    replace (IZR N - r * y)%R with ((IZR N - rnd64 (r * y)) + (rnd64 (r * y) - r * y))%R by ring.
    eapply Rle_trans; [apply Rabs_triang|]. lra. }
  assert (Hsmall : ((/ 2 + / 128) / y <= 1)%R).
  { apply Rmult_le_reg_r with y; [exact Hyp|]. unfold Rdiv. rewrite Rmult_assoc, Rinv_l by lra.
    change (bpow radix2 9) with 512%R in Hy9. lra. }
  assert (E4 : (Rabs (rnd64 (IZR N / y) - IZR N / y) <= bpow radix2 (-23))%R).
  { change (-23) with (31 - 54). apply rnd_err; [lia|].
    replace (IZR N / y)%R with ((IZR N / y - r) + r)%R by ring. eapply Rle_trans; [apply Rabs_triang|].
    change (bpow radix2 31) with 2147483648%R. change (bpow radix2 30) with 1073741824%R in Hr. lra. }
  replace (rnd64 (IZR N / y) - r)%R with ((rnd64 (IZR N / y) - IZR N / y) + (IZR N / y - r))%R by ring.
  eapply Rle_trans; [apply Rabs_triang|]. lra.
Qed.

(** Numbers with at most five decimals are fixed by rounding to five decimals. *)
Lemma rd_five_decimals r k : Z.abs k <= 2 ^ 50 -> r = rnd64 (IZR k / 100000) -> rd 5 r = r.
Proof.
  intros Hk ->. unfold rd. change (IZR (10 ^ 5)) with 100000%R. set (q := (IZR k / 100000)%R).
  assert (Hkr : (Rabs (IZR k) <= bpow radix2 50)%R).
  { rewrite <- abs_IZR. rewrite <- (IZR_Zpower radix2) by lia. apply IZR_le. exact Hk. }
  assert (Hq : (Rabs q <= bpow radix2 34)%R).
  { unfold q, Rdiv. rewrite Rabs_mult, (Rabs_right (/ 100000)) by lra.
    change (bpow radix2 34) with 17179869184%R. change (bpow radix2 50) with 1125899906842624%R in Hkr. lra. }
  assert (E1 : (Rabs (rnd64 q - q) <= bpow radix2 (-20))%R) by (change (-20) with (34 - 54); now apply rnd_err).
  assert (Hx : (Rabs (rnd64 q) <= bpow radix2 34)%R) by (apply rnd64_abs_le_bpow; [lia|exact Hq]).
  assert (E2 : (Rabs (rnd64 (rnd64 q * 100000) - rnd64 q * 100000) <= / 8)%R).
  { change (/ 8)%R with (bpow radix2 (51 - 54)). apply rnd_err; [lia|].
    rewrite Rabs_mult, (Rabs_right 100000) by lra.
    change (bpow radix2 34) with 17179869184%R in Hx. change (bpow radix2 51) with 2251799813685248%R. lra. }
  rewrite (ZnearestA_near _ k); [reflexivity|].
  replace (rnd64 (rnd64 q * 100000) - IZR k)%R
    with ((rnd64 (rnd64 q * 100000) - rnd64 q * 100000) + (rnd64 q - q) * 100000)%R by (unfold q; field).
  eapply Rle_lt_trans; [apply Rabs_triang|]. rewrite Rabs_mult, (Rabs_right 100000) by lra.
  change (bpow radix2 (-20)) with (/ 1048576)%R in E1. lra.
Qed.

Lemma int_five_decimals x z : is_int x z -> Z.abs z <= 2 ^ 33 -> five_decimals x.
Proof.
  intros [F R] Hz. split; [exact F|]. exists (z * 100000). split; [lia|].
  replace (IZR (z * 100000) / 100000)%R with (IZR z) by (rewrite mult_IZR; field).
  change (FLT_exp (-1074) 53) with fexp64. rewrite rnd64_int; [exact R|]. lia.
Qed.

(** round_and_limit_f64 on bounded arguments: round, then clamp. *)
Lemma round_and_limit_R k x mn mx : 0 <= k <= 900 -> bnd k x -> finite mn -> finite mx -> (R64 mn <= R64 mx)%R ->
  finite (round_and_limit_f64 x mn mx 5) /\
  R64 (round_and_limit_f64 x mn mx 5) = Rmin (Rmax (rd 5 (R64 x)) (R64 mn)) (R64 mx).
Proof.
  intros Hk Hx Fn Fx Hm. destruct (round_f64_R k x 5 Hk ltac:(lia) Hx) as (F & E & _).
  unfold round_and_limit_f64. unfold round_f64 in *. set (out := fdiv _ _) in *.
  destruct (flt out mn) eqn:E1.
  - apply flt_R in E1; [|assumption..]. split; [assumption|]. rewrite Rmax_right by lra. rewrite Rmin_left; lra.
  - assert (H1 : (R64 mn <= R64 out)%R).
    { apply Rnot_lt_le. intros H. apply flt_R in H; [congruence|assumption..]. }
    rewrite <- E. rewrite Rmax_left by exact H1.
    destruct (fgt out mx) eqn:E2.
    + apply fgt_R in E2; [|assumption..]. split; [assumption|]. rewrite Rmin_right; lra.
    + assert (H2 : (R64 out <= R64 mx)%R).
      { apply Rnot_lt_le. intros H. apply fgt_R in H; [congruence|assumption..]. }
      split; [assumption|]. rewrite Rmin_left; lra.
Qed.
