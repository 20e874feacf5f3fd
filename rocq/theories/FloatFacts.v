(** Facts tying the float model to real numbers (Flocq's correctness theorems). *)
From Coq Require Import List ZArith Bool Lia Reals Lra.
From Flocq Require Import Core IEEE754.BinarySingleNaN IEEE754.Binary IEEE754.Bits.
From Verif Require Import Base Model_Float Spec.
Import ListNotations.
Open Scope Z_scope.

Notation fexp64 := (SpecFloat.fexp 53 1024).
Notation rnd64 := (round radix2 fexp64 ZnearestE).

Global Instance fexp64_valid : Valid_exp fexp64.
Proof. exact (fexp_correct 53 1024 prec53_gt_0). Qed.

Lemma fcmp_R x y : fis_finite x = true -> fis_finite y = true ->
  fcmp x y = Some (Rcompare (R64 x) (R64 y)).
Proof. exact (Binary.Bcompare_correct 53 1024 x y). Qed.

Lemma flt_R x y : fis_finite x = true -> fis_finite y = true -> flt x y = true <-> (R64 x < R64 y)%R.
Proof.
  intros Hx Hy. unfold flt. rewrite fcmp_R by assumption.
  destruct (Rcompare_spec (R64 x) (R64 y)); split; intros H0; try discriminate; try lra; reflexivity.
Qed.
Lemma fgt_R x y : fis_finite x = true -> fis_finite y = true -> fgt x y = true <-> (R64 y < R64 x)%R.
Proof.
  intros Hx Hy. unfold fgt. rewrite fcmp_R by assumption.
  destruct (Rcompare_spec (R64 x) (R64 y)); split; intros H0; try discriminate; try lra; reflexivity.
Qed.
Lemma feq_R x y : fis_finite x = true -> fis_finite y = true -> feq x y = true <-> R64 x = R64 y.
Proof.
  intros Hx Hy. unfold feq. rewrite fcmp_R by assumption.
  destruct (Rcompare_spec (R64 x) (R64 y)); split; intros H0; try discriminate; try lra; reflexivity.
Qed.
Lemma fle_R x y : fis_finite x = true -> fis_finite y = true -> fle x y = true <-> (R64 x <= R64 y)%R.
Proof.
  intros Hx Hy. unfold fle. rewrite fcmp_R by assumption.
  destruct (Rcompare_spec (R64 x) (R64 y)); split; intros H0; try discriminate; try lra; reflexivity.
Qed.

Lemma feq_refl_finite x : fis_finite x = true -> feq x x = true.
Proof. intros H. now apply feq_R. Qed.

Lemma feq_refl x : fis_nan x = false -> feq x x = true.
Proof.
  destruct x as [s|s|s pl H|s m e H]; intros Hn; try discriminate.
  - destruct s; reflexivity.
  - destruct s; reflexivity.
  - apply feq_refl_finite. reflexivity.
Qed.

Lemma fcmp_nan_l x y : fis_nan x = true -> fcmp x y = None.
Proof. destruct x; intros H; try discriminate. destruct y; reflexivity. Qed.
Lemma fcmp_nan_r x y : fis_nan y = true -> fcmp x y = None.
Proof. destruct y; intros H; try discriminate. destruct x; reflexivity. Qed.

Lemma fcmp_swap x y : fcmp y x = match fcmp x y with Some c => Some (CompOpp c) | None => None end.
Proof. exact (Binary.Bcompare_swap 53 1024 x y). Qed.

Lemma feq_sym x y : feq x y = feq y x.
Proof. unfold feq. rewrite (fcmp_swap x y). now destruct (fcmp x y) as [[]|]. Qed.
Lemma fgt_flt x y : fgt x y = flt y x.
Proof. unfold fgt, flt. rewrite (fcmp_swap y x). now destruct (fcmp y x) as [[]|]. Qed.

Lemma fis_finite_not_nan x : fis_finite x = true -> fis_nan x = false.
Proof. destruct x; try discriminate; reflexivity. Qed.
Lemma fis_finite_class x : fis_finite x = negb (fis_nan x || fis_infinite x).
Proof. destruct x; reflexivity. Qed.

(** Equality is transitive when the middle value is anything. *)
Lemma feq_finite_l x y : feq x y = true -> fis_finite x = true -> fis_finite y = true.
Proof.
  destruct x as [s|s|s pl H|s m e H], y as [s'|s'|s' pl' H'|s' m' e' H']; intros He Hf;
    try discriminate; try reflexivity; try (destruct s; discriminate); try (destruct s'; discriminate).
  all: destruct s, s'; discriminate.
Qed.
Lemma feq_trans x y z : feq x y = true -> feq y z = true -> feq x z = true.
Proof.
  intros H1 H2.
  destruct (fis_finite x) eqn:Fx.
  - assert (Fy := feq_finite_l x y H1 Fx). assert (Fz := feq_finite_l y z H2 Fy).
    apply feq_R in H1; auto. apply feq_R in H2; auto. apply feq_R; auto. congruence.
  - destruct x as [s|s|s pl H|s m e H]; try discriminate.
    destruct y as [s'|s'|s' pl' H'|s' m' e' H']; try (destruct s; discriminate);
      try (destruct s; destruct s'; discriminate).
    destruct s, s'; try discriminate; exact H2.
Qed.

(** Integer rounding: the FIX format with exponent 0. *)
Lemma round_FIX0 (rnd : R -> Z) x : round radix2 (FIX_exp 0) rnd x = IZR (rnd x).
Proof.
  unfold round, scaled_mantissa, cexp, FIX_exp, F2R. cbn [Fnum Fexp].
  change (bpow radix2 (- 0)) with 1%R. change (bpow radix2 0) with 1%R.
  now rewrite !Rmult_1_r.
Qed.

Lemma fround_R x : R64 (fround x) = IZR (ZnearestA (R64 x)).
Proof.
  pose proof (Binary.Bnearbyint_correct 53 1024 prec53_lt_emax unop_nan_pl64 mode_NA x) as (H & _ & _).
  unfold R64, fround. rewrite H. apply round_FIX0.
Qed.
Lemma fround_finite x : fis_finite (fround x) = fis_finite x.
Proof.
  pose proof (Binary.Bnearbyint_correct 53 1024 prec53_lt_emax unop_nan_pl64 mode_NA x) as (_ & H & _).
  exact H.
Qed.

Lemma Btrunc_R x : Binary.Btrunc 53 1024 x = Ztrunc (R64 x).
Proof.
  apply eq_IZR. rewrite (Binary.Btrunc_correct 53 1024 prec53_lt_emax x). apply round_FIX0.
Qed.

Lemma f64_as_int_R lo hi x : lo <= 0 <= hi -> fis_finite x = true ->
  f64_as_int lo hi x = Z.max lo (Z.min hi (Ztrunc (R64 x))).
Proof.
  intros Hl Hx. destruct x as [s|s|s pl H|s m e H]; try discriminate; unfold f64_as_int.
  - change (R64 (B754_zero 53 1024 s)) with 0%R. change 0%R with (IZR 0) at 1. rewrite Ztrunc_IZR. lia.
  - now rewrite Btrunc_R.
Qed.

Lemma f64_as_int_exact lo hi x z : lo <= 0 <= hi -> fis_finite x = true ->
  R64 x = IZR z -> lo <= z <= hi -> f64_as_int lo hi x = z.
Proof. intros. rewrite f64_as_int_R by assumption. rewrite H1, Ztrunc_IZR. lia. Qed.

Lemma f64_as_int_range lo hi x : lo <= 0 <= hi -> lo <= f64_as_int lo hi x <= hi.
Proof.
  intros H. destruct x as [s|s|s pl Hp|s m e He]; unfold f64_as_int; try lia. destruct s; lia.
Qed.

(** Integers up to 2^53 are representable. *)
Lemma int_format z : (Z.abs z <= 2 ^ 53) -> generic_format radix2 fexp64 (IZR z).
Proof.
  intros Hz. change fexp64 with (FLT_exp (-1074) 53).
  destruct (Z.eq_dec (Z.abs z) (2 ^ 53)) as [He|Hne].
  - assert (z = 2 ^ 53 \/ z = - 2 ^ 53) as [->| ->] by lia.
    + apply generic_format_FLT. exists (Float radix2 1 53); [|reflexivity|cbn; lia].
      unfold F2R. cbn [Fnum Fexp]. rewrite <- IZR_Zpower by lia. rewrite <- mult_IZR. reflexivity.
    + apply generic_format_FLT. exists (Float radix2 (-1) 53); [|reflexivity|cbn; lia].
      unfold F2R. cbn [Fnum Fexp]. rewrite <- IZR_Zpower by lia. rewrite <- mult_IZR. reflexivity.
  - apply generic_format_FLT. exists (Float radix2 z 0); [|change (Z.abs z < 2 ^ 53); lia|cbn; lia].
    unfold F2R. cbn [Fnum Fexp]. change (bpow radix2 0) with 1%R. now rewrite Rmult_1_r.
Qed.

Lemma rnd64_int z : Z.abs z <= 2 ^ 53 -> rnd64 (IZR z) = IZR z.
Proof. intros. apply round_generic; [apply valid_rnd_N|now apply int_format]. Qed.

Lemma rnd64_R64 x : rnd64 (R64 x) = R64 x.
Proof. apply round_generic; [apply valid_rnd_N|apply Binary.generic_format_B2R]. Qed.

Lemma F2R_int z : F2R (Float radix2 z 0) = IZR z.
Proof. unfold F2R. cbn [Fnum Fexp]. change (bpow radix2 0) with 1%R. now rewrite Rmult_1_r. Qed.

(** Bound: rounding does not go past a representable value. *)
Lemma rnd64_abs_le x z : Z.abs z <= 2 ^ 53 -> (Rabs x <= IZR z)%R -> (Rabs (rnd64 x) <= IZR z)%R.
Proof.
  intros Hz Hx. apply abs_round_le_generic; [apply fexp64_valid|apply valid_rnd_N|now apply int_format|exact Hx].
Qed.
Lemma rnd64_abs_le_bpow x e : -1074 < e <= 1023 -> (Rabs x <= bpow radix2 e)%R -> (Rabs (rnd64 x) <= bpow radix2 e)%R.
Proof.
  intros He Hx. apply abs_round_le_generic; [apply fexp64_valid|apply valid_rnd_N| |exact Hx].
  apply generic_format_bpow. unfold SpecFloat.fexp, SpecFloat.emin. lia.
Qed.

Lemma bpow_lt_1024 e : e <= 1023 -> (bpow radix2 e < bpow radix2 1024)%R.
Proof. intros. apply bpow_lt. lia. Qed.

Lemma int_as_f64_correct z : Z.abs z <= 2 ^ 1000 ->
  R64 (int_as_f64 z) = rnd64 (IZR z) /\ fis_finite (int_as_f64 z) = true
  /\ Binary.Bsign 53 1024 (int_as_f64 z) = (z <? 0).
Proof.
  intros Hz. unfold R64, fis_finite, int_as_f64.
  pose proof (Binary.binary_normalize_correct 53 1024 prec53_gt_0 prec53_lt_emax mode_NE z 0 false) as H.
  rewrite F2R_int in H. cbn [round_mode] in H.
  assert (Hb : (Rabs (rnd64 (IZR z)) < bpow radix2 1024)%R).
  { apply Rle_lt_trans with (bpow radix2 1000); [|apply bpow_lt; lia].
    apply rnd64_abs_le_bpow; [lia|]. rewrite <- abs_IZR. rewrite <- IZR_Zpower by lia.
    apply IZR_le. exact Hz. }
  rewrite Rlt_bool_true in H by exact Hb.
  destruct H as (H1 & H2 & H3). split; [exact H1|split; [exact H2|]].
  rewrite H3. destruct (Rcompare_spec (IZR z) 0) as [Hc|Hc|Hc].
  - apply (lt_IZR z 0) in Hc. symmetry. apply Z.ltb_lt. exact Hc.
  - apply (eq_IZR z 0) in Hc. subst. reflexivity.
  - apply (lt_IZR 0 z) in Hc. symmetry. apply Z.ltb_ge. lia.
Qed.

Lemma int_as_f64_exact z : Z.abs z <= 2 ^ 53 ->
  R64 (int_as_f64 z) = IZR z /\ fis_finite (int_as_f64 z) = true.
Proof.
  intros Hz. destruct (int_as_f64_correct z) as (H1 & H2 & _).
  - eapply Z.le_trans; [exact Hz|]. apply Z.pow_le_mono_r; lia.
  - split; [|exact H2]. rewrite H1. now apply rnd64_int.
Qed.

Lemma int_as_f64_finite z : Z.abs z <= 2 ^ 1000 -> fis_finite (int_as_f64 z) = true.
Proof. intros. now apply int_as_f64_correct. Qed.

(** Reading back an integral double through an integer type that holds it. *)
Lemma int_roundtrip lo hi x z : lo <= 0 <= hi -> fis_finite x = true -> R64 x = IZR z ->
  lo <= z <= hi -> feq (int_as_f64 (f64_as_int lo hi x)) x = true.
Proof.
  intros Hl Hx HR Hz. rewrite (f64_as_int_exact lo hi x z) by assumption.
  assert (Hb : Z.abs z <= 2 ^ 1000 \/ 2 ^ 1000 < Z.abs z) by lia.
  assert (Hmax : Z.abs z <= 2 ^ 1000 -> feq (int_as_f64 z) x = true).
  { intros Hz1. destruct (int_as_f64_correct z Hz1) as (H1 & H2 & _).
    apply feq_R; [exact H2|exact Hx|]. rewrite H1, HR.
    rewrite <- HR at 1. rewrite rnd64_R64. congruence. }
  destruct Hb as [Hb|Hb]; [now apply Hmax|].
  (* also holds beyond 2^1000 *)
  unfold int_as_f64.
  pose proof (Binary.binary_normalize_correct 53 1024 prec53_gt_0 prec53_lt_emax mode_NE z 0 false) as H.
  rewrite F2R_int in H. cbn [round_mode] in H.
  assert (Hr : rnd64 (IZR z) = IZR z) by (rewrite <- HR; apply rnd64_R64).
  rewrite Hr in H. rewrite Rlt_bool_true in H.
  - destruct H as (H1 & H2 & _). apply feq_R; [exact H2|exact Hx|]. unfold R64. rewrite H1. symmetry; exact HR.
  - rewrite <- HR. apply Binary.abs_B2R_lt_emax.
Qed.

(** Arithmetic on finite arguments without overflow. *)
Lemma fadd_R x y : fis_finite x = true -> fis_finite y = true ->
  (Rabs (rnd64 (R64 x + R64 y)) < bpow radix2 1024)%R ->
  R64 (fadd x y) = rnd64 (R64 x + R64 y) /\ fis_finite (fadd x y) = true.
Proof.
  intros Hx Hy Hb.
  pose proof (Binary.Bplus_correct 53 1024 eq_refl eq_refl binop_nan_pl64 mode_NE x y Hx Hy) as H.
  cbn [round_mode] in H. rewrite Rlt_bool_true in H by exact Hb.
  destruct H as (H1 & H2 & _). split; assumption.
Qed.
Lemma fsub_R x y : fis_finite x = true -> fis_finite y = true ->
  (Rabs (rnd64 (R64 x - R64 y)) < bpow radix2 1024)%R ->
  R64 (fsub x y) = rnd64 (R64 x - R64 y) /\ fis_finite (fsub x y) = true.
Proof.
  intros Hx Hy Hb.
  pose proof (Binary.Bminus_correct 53 1024 eq_refl eq_refl binop_nan_pl64 mode_NE x y Hx Hy) as H.
  cbn [round_mode] in H. rewrite Rlt_bool_true in H by exact Hb.
  destruct H as (H1 & H2 & _). split; assumption.
Qed.
Lemma fmul_R x y : fis_finite x = true -> fis_finite y = true ->
  (Rabs (rnd64 (R64 x * R64 y)) < bpow radix2 1024)%R ->
  R64 (fmul x y) = rnd64 (R64 x * R64 y) /\ fis_finite (fmul x y) = true.
Proof.
  intros Hx Hy Hb.
  pose proof (Binary.Bmult_correct 53 1024 eq_refl eq_refl binop_nan_pl64 mode_NE x y) as H.
  cbn [round_mode] in H. rewrite Rlt_bool_true in H by exact Hb.
  destruct H as (H1 & H2 & _). split; [exact H1|].
  unfold fis_finite, fmul, b64_mult in *. rewrite H2. now rewrite Hx, Hy.
Qed.
Lemma fdiv_R x y : fis_finite x = true -> R64 y <> 0%R ->
  (Rabs (rnd64 (R64 x / R64 y)) < bpow radix2 1024)%R ->
  R64 (fdiv x y) = rnd64 (R64 x / R64 y) /\ fis_finite (fdiv x y) = true.
Proof.
  intros Hx Hy Hb.
  pose proof (Binary.Bdiv_correct 53 1024 eq_refl eq_refl binop_nan_pl64 mode_NE x y Hy) as H.
  cbn [round_mode] in H. rewrite Rlt_bool_true in H by exact Hb.
  destruct H as (H1 & H2 & _). split; [exact H1|].
  unfold fis_finite, fdiv, b64_div in *. rewrite H2. exact Hx.
Qed.

Lemma f0_R : R64 f0 = 0%R. Proof. apply int_as_f64_exact. reflexivity || lia. Qed.
Lemma f0_finite : fis_finite f0 = true. Proof. reflexivity. Qed.
Lemma f1_R : R64 f1 = 1%R. Proof. apply (int_as_f64_exact 1). lia. Qed.
Lemma f1_finite : fis_finite f1 = true. Proof. reflexivity. Qed.
