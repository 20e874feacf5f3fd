(** Values of decoded Fourier frames, in real numbers. *)
From Coq Require Import List ZArith Bool Lia Reals Lra Permutation ZifyBool.
From Flocq Require Import Core Relative IEEE754.BinarySingleNaN IEEE754.Binary IEEE754.Bits.
From Verif Require Import Base Model_Float Model_Bincode BincodeFacts Spec FloatFacts Float32Facts ArithFacts Model_Utils UtilsFacts RoundFacts AccuracyFacts Model_Stats
  Model_Compressors Model_Polynomial Model_Fft Model_Stream FftFacts Props_Fft.
Import ListNotations.
Open Scope Z_scope.

(** [x] moved into the range from [lo] to [hi]. *)
Definition limited (lo hi x : R) : R := Rmax lo (Rmin hi x).

Lemma limited_near lo hi x y : (Rabs (limited lo hi x - limited lo hi y) <= Rabs (x - y))%R.
Proof.
  unfold limited, Rmin. destruct (Rle_dec hi x), (Rle_dec hi y); unfold Rmax;
  repeat match goal with |- context [Rle_dec ?a ?b] => destruct (Rle_dec a b) end;
  unfold Rabs; repeat match goal with |- context [Rcase_abs ?a] => destruct (Rcase_abs a) end; lra.
Qed.
Lemma limited_dist lo hi x d : (lo <= hi)%R -> (lo - d <= x <= hi + d)%R -> (0 <= d)%R -> (Rabs (limited lo hi x - x) <= d)%R.
Proof.
  intros H1 H2 H3. unfold limited, Rmin. destruct (Rle_dec hi x); unfold Rmax; repeat match goal with |- context [Rle_dec ?a ?b] => destruct (Rle_dec a b) end;
  unfold Rabs; repeat match goal with |- context [Rcase_abs ?a] => destruct (Rcase_abs a) end; lra.
Qed.

(** Rounding to single precision. *)
Lemma rnd32_rel r : exists d h, (Rabs d <= bpow radix2 (-24))%R /\ (Rabs h <= bpow radix2 (-150))%R /\ rnd32 r = (r * (1 + d) + h)%R.
Proof.
  destruct (error_N_FLT radix2 (-149) 24 eq_refl (fun x => negb (Z.even x)) r) as (d & h & Hd & Hh & _ & E).
  exists d, h. split; [|split; [|exact E]].
  - eapply Rle_trans; [exact Hd|]. change (/ 2)%R with (bpow radix2 (-1)). rewrite <- bpow_plus. apply bpow_le. lia.
  - eapply Rle_trans; [exact Hh|]. change (/ 2)%R with (bpow radix2 (-1)). rewrite <- bpow_plus. apply bpow_le. lia.
Qed.
Lemma rnd32_err r : (Rabs (rnd32 r - r) <= bpow radix2 (-24) * Rabs r + bpow radix2 (-150))%R.
Proof.
  destruct (rnd32_rel r) as (d & h & Hd & Hh & ->). replace (r * (1 + d) + h - r)%R with (d * r + h)%R by ring.
  eapply Rle_trans; [apply Rabs_triang|]. rewrite Rabs_mult. apply Rplus_le_compat; [|exact Hh].
  apply Rmult_le_compat_r; [apply Rabs_pos|exact Hd].
Qed.

Lemma int_as_f32_R z : Z.abs z <= 2 ^ 24 -> fin32 (int_as_f32 z) = true /\ R32 (int_as_f32 z) = IZR z.
Proof.
  intros H. pose proof (Binary.binary_normalize_correct 24 128 prec24_gt_0 prec24_lt_emax mode_NE z 0 false) as Hn.
  assert (E : F2R (Float radix2 z 0) = IZR z) by (unfold F2R; cbn; ring).
  rewrite E in Hn. cbn [round_mode] in Hn.
  assert (G : generic_format radix2 fexp32 (IZR z)).
  { destruct (Z.eq_dec (Z.abs z) (2 ^ 24)) as [X|X].
    - apply generic_format_abs_inv. rewrite <- abs_IZR, X. change (2 ^ 24) with (Zpower radix2 24). rewrite IZR_Zpower by lia.
      apply generic_format_bpow. vm_compute. discriminate.
    - apply generic_format_FLT. exists (Float radix2 z 0); [symmetry; exact E|cbn; lia|cbn; lia]. }
  rewrite round_generic in Hn; [|apply valid_rnd_N|exact G].
  rewrite Rlt_bool_true in Hn.
  - destruct Hn as (H1 & H2 & _). split; [exact H2|exact H1].
  - rewrite <- abs_IZR. eapply Rle_lt_trans; [apply IZR_le; exact H|]. change (2 ^ 24) with (Zpower radix2 24). rewrite IZR_Zpower by lia. apply bpow_lt. lia.
Qed.

(** Division of a finite number by a whole number of samples. *)
Lemma f32_div_R re N : fin32 re = true -> (1 <= N)%nat -> Z.of_nat N <= 2 ^ 24 ->
  fin32 (f32_div re (int_as_f32 (Z.of_nat N))) = true /\
  R32 (f32_div re (int_as_f32 (Z.of_nat N))) = rnd32 (R32 re / INR N).
Proof.
  intros Hf H1 H2. destruct (int_as_f32_R (Z.of_nat N) ltac:(lia)) as [FN RN]. rewrite <- INR_IZR_INZ in RN.
  assert (P : (1 <= INR N)%R) by (change 1%R with (INR 1); apply le_INR; lia).
  pose proof (Binary.Bdiv_correct 24 128 eq_refl eq_refl binop_nan_pl32 mode_NE re (int_as_f32 (Z.of_nat N))) as Hd.
  fold (R32 (int_as_f32 (Z.of_nat N))) in Hd. fold (R32 re) in Hd. rewrite RN in Hd. specialize (Hd ltac:(lra)). cbn [round_mode] in Hd.
  rewrite Rlt_bool_true in Hd.
  - destruct Hd as (D1 & D2 & _). split; [unfold fin32 in *; change (f32_div re (int_as_f32 (Z.of_nat N))) with (Binary.Bdiv 24 128 eq_refl eq_refl binop_nan_pl32 mode_NE re (int_as_f32 (Z.of_nat N))); rewrite D2; exact Hf|exact D1].
  - assert (B : (Rabs (R32 re / INR N) <= Rabs (R32 re))%R).
    { unfold Rdiv. rewrite Rabs_mult, (Rabs_pos_eq (/ INR N)) by (left; apply Rinv_0_lt_compat; lra).
      rewrite <- (Rmult_1_r (Rabs (R32 re))) at 2. apply Rmult_le_compat_l; [apply Rabs_pos|]. rewrite <- Rinv_1. apply Rinv_le; lra. }
    apply Rle_lt_trans with (Rabs (R32 re)); [|apply abs_B2R_lt_emax].
    apply abs_round_le_generic; [apply (fexp_correct 24 128 prec24_gt_0)|apply valid_rnd_N|apply generic_format_abs, generic_format_B2R|exact B].
Qed.

(** Rounding to five decimals, without a bound on the magnitude. *)
Lemma rd5_err r : (Rabs (rd 5 r - r) <= 5 / 1000000 + bpow radix2 (-51) * Rabs r + bpow radix2 (-60))%R.
Proof.
  unfold rd. change (IZR (10 ^ 5)) with 100000%R. set (m := rnd64 (r * 100000)).
  destruct (rnd_rel (r * 100000)) as (d1 & h1 & D1 & H1 & E1). fold m in E1.
  set (z := IZR (ZnearestA m)). assert (Z1 : (Rabs (z - m) <= / 2)%R).
  { rewrite Rabs_minus_sym. unfold z. apply (Znearest_half (Z.leb 0) m). }
  destruct (rnd_rel (z / 100000)) as (d2 & h2 & D2 & H2 & E2). fold z. rewrite E2.
  set (k := (z - m)%R) in *. assert (Ez : z = (m + k)%R) by (unfold k; ring). rewrite Ez, E1.
  replace ((r * 100000 * (1 + d1) + h1 + k) / 100000 * (1 + d2) + h2 - r)%R
    with ((k / 100000) * (1 + d2) + (h1 / 100000 * (1 + d2) + h2) + r * (d1 + d2 + d1 * d2))%R by field.
  assert (U : (bpow radix2 (-53) = / 9007199254740992)%R) by (unfold bpow; cbn; lra).
  assert (V : (bpow radix2 (-51) = 4 * / 9007199254740992)%R) by (unfold bpow; cbn; lra).
  assert (W : (bpow radix2 (-60) = / 1152921504606846976)%R) by (unfold bpow; cbn; lra).
  assert (N0 : (bpow radix2 (-1075) <= bpow radix2 (-63))%R) by (apply bpow_le; lia).
  assert (X : (bpow radix2 (-63) = / 9223372036854775808)%R) by (unfold bpow; cbn; lra).
  assert (P0 := bpow_gt_0 radix2 (-1075)).
  apply Rabs_le_inv in D1, H1, D2, H2, Z1.
  set (q := bpow radix2 (-1075)) in *. rewrite U in D1, D2. rewrite V, W.
  assert (B1 : (Rabs (d1 + d2 + d1 * d2) <= 3 * / 9007199254740992)%R).
  { apply Rabs_le. assert (Rabs (d1 * d2) <= / 9007199254740992 * / 9007199254740992)%R.
    { rewrite Rabs_mult. apply Rmult_le_compat; try apply Rabs_pos; apply Rabs_le; lra. }
    apply Rabs_le_inv in H. lra. }
  eapply Rle_trans; [apply Rabs_triang|]. rewrite (Rabs_mult r).
  assert (B2 : (Rabs r * Rabs (d1 + d2 + d1 * d2) <= 4 * / 9007199254740992 * Rabs r)%R).
  { rewrite Rmult_comm. apply Rmult_le_compat_r; [apply Rabs_pos|]. lra. }
  assert (B3 : (Rabs (k / 100000 * (1 + d2) + (h1 / 100000 * (1 + d2) + h2)) <= 5 / 1000000 + / 1152921504606846976)%R).
  { assert (K : (Rabs (k / 100000 * d2) <= / 200000 * / 9007199254740992)%R).
    { rewrite Rabs_mult. apply Rmult_le_compat; try apply Rabs_pos; apply Rabs_le; lra. }
    assert (L : (Rabs (h1 / 100000 * d2) <= q / 100000 * / 9007199254740992)%R).
    { rewrite Rabs_mult. apply Rmult_le_compat; try apply Rabs_pos; apply Rabs_le; lra. }
    apply Rabs_le_inv in K, L. apply Rabs_le. lra. }
  lra.
Qed.

(** One decoded value. *)
Lemma fft_round_value c v : fin32 v = true -> fin32 (ff_min c) = true -> fin32 (ff_max c) = true -> (R32 (ff_min c) <= R32 (ff_max c))%R ->
  finite (fft_round c v) /\ R64 (fft_round c v) = limited (R32 (ff_min c)) (R32 (ff_max c)) (rd 5 (R32 v)).
Proof.
  intros Fv Fn Fx Hm. destruct (f32_as_f64_R v Fv) as [F1 R1]. destruct (f32_as_f64_R _ Fn) as [F2 R2]. destruct (f32_as_f64_R _ Fx) as [F3 R3].
  assert (B : bnd 128 (f32_as_f64 v)). { split; [exact F1|]. rewrite R1. left. apply abs_B2R_lt_emax. }
  destruct (round_f64_R 128 (f32_as_f64 v) 5 ltac:(lia) ltac:(lia) B) as (F & E & _).
  unfold fft_round. unfold round_f64 in F, E. cbv zeta in *. set (out := fdiv _ _) in *. rewrite R1 in E.
  destruct (fgt out (f32_as_f64 (ff_max c))) eqn:G1.
  - split; [exact F3|]. rewrite fgt_flt in G1. apply flt_R in G1; auto. rewrite R3 in *. rewrite <- E. unfold limited.
    rewrite Rmin_left by lra. rewrite Rmax_right by lra. reflexivity.
  - rewrite fgt_flt in G1. assert (G1' : ~ (R64 (f32_as_f64 (ff_max c)) < R64 out)%R) by (intros X; apply flt_R in X; auto; congruence). rewrite R3 in G1'.
    destruct (flt out (f32_as_f64 (ff_min c))) eqn:G2.
    + split; [exact F2|]. apply flt_R in G2; auto. rewrite R2 in *. rewrite <- E. unfold limited. rewrite Rmin_right by lra. rewrite Rmax_left by lra. reflexivity.
    + assert (G2' : ~ (R64 out < R64 (f32_as_f64 (ff_min c)))%R) by (intros X; apply flt_R in X; auto; congruence). rewrite R2 in G2'.
      split; [exact F|]. rewrite <- E. unfold limited. rewrite Rmin_right by lra. rewrite Rmax_right by lra. reflexivity.
Qed.

(** A rebuilt sample against the exact quotient. *)
Lemma fft_scaled_value c re N : fin32 re = true -> (1 <= N)%nat -> Z.of_nat N <= 2 ^ 24 ->
  fin32 (ff_min c) = true -> fin32 (ff_max c) = true -> (R32 (ff_min c) <= R32 (ff_max c))%R ->
  let y := fft_round c (f32_div re (int_as_f32 (Z.of_nat N))) in
  finite y /\ (Rabs (R64 y - limited (R32 (ff_min c)) (R32 (ff_max c)) (R32 re / INR N)) <= 6 / 1000000 + bpow radix2 (-23) * Rabs (R32 re / INR N))%R.
Proof.
  intros Fr H1 H2 Fn Fx Hm y. destruct (f32_div_R re N Fr H1 H2) as [Fd Rd].
  destruct (fft_round_value c _ Fd Fn Fx Hm) as [Fy Ry]. fold y in Fy, Ry. split; [exact Fy|]. rewrite Ry, Rd.
  set (q := (R32 re / INR N)%R). eapply Rle_trans; [apply limited_near|].
  assert (A := rnd32_err q). assert (B := rd5_err (rnd32 q)). set (s := rnd32 q) in *.
  assert (As : (Rabs s <= Rabs q + (bpow radix2 (-24) * Rabs q + bpow radix2 (-150)))%R).
  { replace s with (q + (s - q))%R by ring. eapply Rle_trans; [apply Rabs_triang|]. lra. }
  replace (rd 5 s - q)%R with ((rd 5 s - s) + (s - q))%R by ring. eapply Rle_trans; [apply Rabs_triang|].
  assert (E1 : (bpow radix2 (-150) <= bpow radix2 (-60))%R) by (apply bpow_le; lia).
  assert (E2 : (bpow radix2 (-51) = / 2251799813685248)%R) by (unfold bpow; cbn; lra).
  assert (E3 : (bpow radix2 (-60) = / 1152921504606846976)%R) by (unfold bpow; cbn; lra).
  assert (E4 : (bpow radix2 (-24) = / 16777216)%R) by (unfold bpow; cbn; lra).
  assert (E5 : (bpow radix2 (-23) = / 8388608)%R) by (unfold bpow; cbn; lra).
  assert (Pq := Rabs_pos q). set (t := bpow radix2 (-150)) in *. rewrite ?E2, ?E3, ?E4, ?E5 in *. lra.
Qed.
