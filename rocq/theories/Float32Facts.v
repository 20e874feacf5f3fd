(** Facts about single-precision conversions. *)
From Coq Require Import List ZArith Bool Lia Reals Lra.
From Flocq Require Import Core IEEE754.BinarySingleNaN IEEE754.Binary IEEE754.Bits.
From Verif Require Import Base Model_Float Spec FloatFacts ArithFacts.
Import ListNotations.
Open Scope Z_scope.

Notation fexp32 := (SpecFloat.fexp 24 128).
Notation rnd32 := (round radix2 fexp32 ZnearestE).

Global Instance fexp32_valid : Valid_exp fexp32.
Proof. exact (fexp_correct 24 128 prec24_gt_0). Qed.

Definition fin32 (x : f32) : bool := Binary.is_finite 24 128 x.

Lemma fexp_32_64 e : fexp64 e <= fexp32 e.
Proof. unfold SpecFloat.fexp, SpecFloat.emin. lia. Qed.

Lemma format_32_64 r : generic_format radix2 fexp32 r -> generic_format radix2 fexp64 r.
Proof.
  intros H. destruct (Req_dec r 0) as [->|Hn]; [apply generic_format_0|].
  apply (generic_inclusion_mag radix2 fexp32 fexp64); auto. intros _. apply fexp_32_64.
Qed.

(** [as f64] is exact. *)
Lemma f32_as_f64_R x : fin32 x = true -> finite (f32_as_f64 x) /\ R64 (f32_as_f64 x) = R32 x.
Proof.
  intros H. destruct x as [s|s|s pl Hp|s m e Hb]; try discriminate; [split; reflexivity|].
  assert (Hx : R32 (B754_finite 24 128 s m e Hb) = F2R (Float radix2 (SpecFloat.cond_Zopp s (Zpos m)) e)) by reflexivity.
  pose proof (Binary.binary_normalize_correct 53 1024 prec53_gt_0 prec53_lt_emax mode_NE (SpecFloat.cond_Zopp s (Zpos m)) e s) as Hn.
  rewrite <- Hx in Hn. cbn [round_mode] in Hn.
  rewrite round_generic in Hn; [|apply valid_rnd_N|apply format_32_64, generic_format_B2R].
  rewrite Rlt_bool_true in Hn.
  - destruct Hn as (H1 & H2 & _). split; [exact H2|exact H1].
  - eapply Rlt_trans; [apply abs_B2R_lt_emax|]. apply bpow_lt. lia.
Qed.

Lemma f32_as_f64_inf s : f32_as_f64 (B754_infinity 24 128 s) = B754_infinity 53 1024 s.
Proof. reflexivity. Qed.

(** [as f32] rounds to nearest, or overflows to the infinity of the same sign. *)
Lemma f64_as_f32_R x : finite x ->
  ((Rabs (rnd32 (R64 x)) < bpow radix2 128)%R /\ fin32 (f64_as_f32 x) = true /\ R32 (f64_as_f32 x) = rnd32 (R64 x)) \/
  ((bpow radix2 128 <= Rabs (rnd32 (R64 x)))%R /\ f64_as_f32 x = B754_infinity 24 128 (Rlt_bool (R64 x) 0)).
Proof.
  intros H. destruct x as [s|s|s pl Hp|s m e Hb]; try discriminate.
  - left. unfold R64. cbn [Binary.B2R]. rewrite round_0 by apply valid_rnd_N. rewrite Rabs_R0.
    split; [apply bpow_gt_0|]. split; reflexivity.
  - assert (Hx : R64 (B754_finite 53 1024 s m e Hb) = F2R (Float radix2 (SpecFloat.cond_Zopp s (Zpos m)) e)) by reflexivity.
    pose proof (Binary.binary_normalize_correct 24 128 prec24_gt_0 prec24_lt_emax mode_NE (SpecFloat.cond_Zopp s (Zpos m)) e s) as Hn.
    rewrite <- Hx in Hn. cbn [round_mode] in Hn.
    destruct (Rlt_bool_spec (Rabs (rnd32 (R64 (B754_finite 53 1024 s m e Hb)))) (bpow radix2 128)) as [Hlt|Hge].
    + left. destruct Hn as (H1 & H2 & _). split; [exact Hlt|]. split; [exact H2|exact H1].
    + right. split; [exact Hge|]. unfold binary_overflow in Hn. cbn [overflow_to_inf] in Hn.
      unfold f64_as_f32. destruct (binary_normalize 24 128 prec24_gt_0 prec24_lt_emax mode_NE (SpecFloat.cond_Zopp s (Z.pos m)) e s); cbn in Hn; try discriminate.
      injection Hn as ->. reflexivity.
Qed.

Lemma f32_as_f64_nan x : fis_nan (f32_as_f64 x) = Binary.is_nan 24 128 x.
Proof.
  destruct x as [s|s|s pl Hp|s m e Hb]; try reflexivity.
  destruct (f32_as_f64_R (B754_finite 24 128 s m e Hb) eq_refl) as [H _]. cbn [Binary.is_nan]. now apply fis_finite_not_nan.
Qed.

Lemma fle_inf_r x : fis_nan x = false -> fle x (B754_infinity 53 1024 false) = true.
Proof. destruct x as [[]|[]|s pl Hp|[] m e Hb]; intros H; try discriminate; reflexivity. Qed.
Lemma fle_inf_l x : fis_nan x = false -> fle (B754_infinity 53 1024 true) x = true.
Proof. destruct x as [[]|[]|s pl Hp|[] m e Hb]; intros H; try discriminate; reflexivity. Qed.

(** Conversion to single precision and back is monotone (overflow included). *)
Lemma f32_mono x y : finite x -> finite y -> (R64 x <= R64 y)%R ->
  fle (f32_as_f64 (f64_as_f32 x)) (f32_as_f64 (f64_as_f32 y)) = true.
Proof.
  intros Fx Fy Hle. assert (Hr : (rnd32 (R64 x) <= rnd32 (R64 y))%R) by (apply round_le; [apply fexp32_valid|apply valid_rnd_N|exact Hle]).
  destruct (f64_as_f32_R x Fx) as [(Hx & Fx' & Rx)|(Hx & Ex)], (f64_as_f32_R y Fy) as [(Hy & Fy' & Ry)|(Hy & Ey)].
  - destruct (f32_as_f64_R _ Fx') as [G1 G2]. destruct (f32_as_f64_R _ Fy') as [G3 G4]. apply fle_R; auto. rewrite G2, G4, Rx, Ry. exact Hr.
  - rewrite Ey. destruct (Rlt_bool_spec (R64 y) 0) as [Hn|Hn].
    + exfalso. assert (Hy0 : (rnd32 (R64 y) <= 0)%R).
      { rewrite <- (round_0 radix2 fexp32 ZnearestE). apply round_le; [apply fexp32_valid|apply valid_rnd_N|lra]. }
      rewrite Rabs_left1 in Hy by exact Hy0. apply Rabs_def2 in Hx. lra.
    + rewrite f32_as_f64_inf. apply fle_inf_r. rewrite f32_as_f64_nan. destruct (f64_as_f32 x); try discriminate; reflexivity.
  - rewrite Ex. destruct (Rlt_bool_spec (R64 x) 0) as [Hn|Hn].
    + rewrite f32_as_f64_inf. apply fle_inf_l. rewrite f32_as_f64_nan. destruct (f64_as_f32 y); try discriminate; reflexivity.
    + exfalso. assert (Hx0 : (0 <= rnd32 (R64 x))%R).
      { rewrite <- (round_0 radix2 fexp32 ZnearestE). apply round_le; [apply fexp32_valid|apply valid_rnd_N|lra]. }
      rewrite Rabs_pos_eq in Hx by exact Hx0. apply Rabs_def2 in Hy. lra.
  - rewrite Ex, Ey, !f32_as_f64_inf. destruct (Rlt_bool_spec (R64 x) 0) as [Hn|Hn]; [apply fle_inf_l; reflexivity|].
    rewrite Rlt_bool_false by lra. reflexivity.
Qed.

Lemma rnd32_bnd r k : -149 < k <= 127 -> (Rabs r <= bpow radix2 k)%R -> (Rabs (rnd32 r) <= bpow radix2 k)%R.
Proof.
  intros Hk Hr. apply abs_round_le_generic; auto; [apply fexp32_valid|apply valid_rnd_N|].
  apply generic_format_bpow. unfold SpecFloat.fexp, SpecFloat.emin. lia.
Qed.

Lemma f64_as_f32_fin x : finite x -> (Rabs (R64 x) <= bpow radix2 127)%R ->
  fin32 (f64_as_f32 x) = true /\ R32 (f64_as_f32 x) = rnd32 (R64 x).
Proof.
  intros Fx Hb. destruct (f64_as_f32_R x Fx) as [(_ & H)|(H & _)]; [exact H|].
  pose proof (rnd32_bnd (R64 x) 127 ltac:(lia) Hb). pose proof (bpow_lt radix2 127 128 ltac:(lia)). lra.
Qed.

(** Comparison. *)
Lemma f32_cmp_R x y : fin32 x = true -> fin32 y = true -> f32_cmp x y = Some (Rcompare (R32 x) (R32 y)).
Proof. exact (Binary.Bcompare_correct 24 128 x y). Qed.
Lemma f32_eq_R x y : fin32 x = true -> fin32 y = true -> f32_eq x y = true <-> R32 x = R32 y.
Proof.
  intros Hx Hy. unfold f32_eq. rewrite f32_cmp_R by assumption.
  destruct (Rcompare_spec (R32 x) (R32 y)); split; intros H0; try discriminate; try lra; reflexivity.
Qed.

(** Multiplying by -1 is negation. *)
Lemma f32_minus_one : B2FF 24 128 (int_as_f32 (-1)) = F754_finite true 8388608 (-23).
Proof. vm_compute. reflexivity. Qed.
Lemma f32_minus_one_sign : Binary.Bsign 24 128 (int_as_f32 (-1)) = true.
Proof. vm_compute. reflexivity. Qed.
Lemma f32_neg x : Binary.is_nan 24 128 x = false -> f32_mul x (int_as_f32 (-1)) = Binary.Bopp 24 128 unop_nan_pl32 x.
Proof.
  intros Hn. destruct x as [s|s|s pl Hp|s m e Hb]; try discriminate.
  - destruct s; vm_compute; reflexivity.
  - destruct s; vm_compute; reflexivity.
  - set (x := B754_finite 24 128 s m e Hb).
    assert (H1 : R32 (int_as_f32 (-1)) = (-1)%R).
    { unfold R32. rewrite <- FF2R_B2FF, f32_minus_one. unfold FF2R, F2R. cbn. lra. }
    pose proof (Binary.Bmult_correct 24 128 eq_refl eq_refl binop_nan_pl32 mode_NE x (int_as_f32 (-1))) as Hm.
    change (B2R 24 128 (int_as_f32 (-1))) with (R32 (int_as_f32 (-1))) in Hm. rewrite H1 in Hm. cbn [round_mode] in Hm.
    replace (B2R 24 128 x * -1)%R with (- B2R 24 128 x)%R in Hm by ring.
    rewrite round_generic in Hm; [|apply valid_rnd_N|apply generic_format_opp, generic_format_B2R].
    rewrite Rabs_Ropp, Rlt_bool_true in Hm by apply abs_B2R_lt_emax.
    destruct Hm as (M1 & M2 & M3).
    assert (F1 : Binary.is_finite 24 128 (int_as_f32 (-1)) = true) by (vm_compute; reflexivity).
    rewrite F1 in M2. change (Binary.is_finite 24 128 x) with true in M2. cbn [andb] in M2. apply B2R_Bsign_inj.
    + exact M2.
    + reflexivity.
    + rewrite Binary.B2R_Bopp. exact M1.
    + rewrite Binary.Bsign_Bopp by reflexivity. unfold f32_mul, b32_mult. rewrite M3.
      * rewrite f32_minus_one_sign. subst x. cbn. destruct s; reflexivity.
      * assert (Hf : Binary.is_finite 24 128 (f32_mul x (int_as_f32 (-1))) = true) by exact M2.
        unfold f32_mul, b32_mult in Hf. destruct (Binary.Bmult _ _ _ _ _ _ _ _); try discriminate; reflexivity.
Qed.
