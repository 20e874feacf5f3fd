(** Error metrics: sign, self-comparison, bounds. *)
From Coq Require Import List ZArith Bool Lia Reals Lra ZifyBool.
From Flocq Require Import Core IEEE754.BinarySingleNaN IEEE754.Binary IEEE754.Bits.
From Verif Require Import Base Model_Float Spec FloatFacts ArithFacts Model_Utils.
Import ListNotations.
Open Scope Z_scope.

(** NaN, or sign bit clear: never negative. *)
Definition nneg (x : f64) : Prop := fis_nan x = true \/ Binary.Bsign 53 1024 x = false.

Lemma sign_R x : finite x -> Binary.Bsign 53 1024 x = false -> (0 <= R64 x)%R.
Proof.
  destruct x as [s|s|s pl H|s m e H]; intros F S; try discriminate; cbn in S; subst; unfold R64; cbn; [lra|].
  apply F2R_ge_0. cbn. lia.
Qed.

Lemma nneg_fadd x y : nneg x -> nneg y -> nneg (fadd x y).
Proof.
  intros Hx Hy.
  destruct (fis_finite x) eqn:Fx; [destruct (fis_finite y) eqn:Fy|].
  - assert (Sx : Binary.Bsign 53 1024 x = false) by (destruct Hx as [Hx|Hx]; [apply fis_finite_not_nan in Fx; congruence|exact Hx]).
    assert (Sy : Binary.Bsign 53 1024 y = false) by (destruct Hy as [Hy|Hy]; [apply fis_finite_not_nan in Fy; congruence|exact Hy]).
    pose proof (Binary.Bplus_correct 53 1024 eq_refl eq_refl binop_nan_pl64 mode_NE x y Fx Fy) as H.
    destruct (Rlt_bool _ _).
    + destruct H as (_ & _ & H). right. unfold fadd, b64_plus. rewrite H.
      assert (Rx := sign_R x Fx Sx). assert (Ry := sign_R y Fy Sy). unfold R64 in *.
      destruct (Rcompare_spec (Binary.B2R 53 1024 x + Binary.B2R 53 1024 y) 0); [lra|rewrite Sx, Sy; reflexivity|reflexivity].
    + destruct H as (H & _). rewrite Sx in H. right. unfold fadd, b64_plus.
      destruct (Binary.Bplus 53 1024 _ _ _ _ x y) as [s|s|s pl He|s m e He]; try discriminate; cbn in *;
        unfold BinarySingleNaN.binary_overflow in H; cbn in H; congruence.
  - destruct y as [s|s|s pl H|s m e H]; try discriminate.
    + destruct Hy as [Hy|Hy]; [discriminate|]. cbn in Hy. subst s.
      destruct x as [s|s|s pl H|s m e H]; try discriminate; right; reflexivity.
    + destruct x as [s'|s'|s' pl' H'|s' m' e' H']; left; reflexivity.
  - destruct x as [s|s|s pl H|s m e H]; try discriminate.
    + destruct Hx as [Hx|Hx]; [discriminate|]. cbn in Hx. subst s.
      destruct y as [s|s|s pl H|s m e H]; try (right; reflexivity); [|left; reflexivity].
      destruct Hy as [Hy|Hy]; [discriminate|]. cbn in Hy. subst s. right. reflexivity.
    + left. destruct y as [s'|s'|s' pl' H'|s' m' e' H']; reflexivity.
Qed.

Lemma nneg_fabs x : nneg (fabs x).
Proof. destruct x as [s|s|s pl H|s m e H]; [right|right|left|right]; reflexivity. Qed.

Lemma mul_sign x y : fis_nan (fmul x y) = true \/ Binary.Bsign 53 1024 (fmul x y) = xorb (Binary.Bsign 53 1024 x) (Binary.Bsign 53 1024 y).
Proof.
  pose proof (Binary.Bmult_correct 53 1024 eq_refl eq_refl binop_nan_pl64 mode_NE x y) as H.
  destruct (Rlt_bool _ _).
  - destruct H as (_ & _ & H). destruct (fis_nan (fmul x y)) eqn:E; [now left|right]. apply H. exact E.
  - right. unfold fmul, b64_mult. destruct (Binary.Bmult 53 1024 _ _ _ _ x y) as [s|s|s pl He|s m e He];
      unfold BinarySingleNaN.binary_overflow in H; cbn in H; try discriminate; cbn; congruence.
Qed.

Lemma nneg_square x : nneg (fsquare x).
Proof. unfold fsquare. destruct (mul_sign x x) as [H|H]; [now left|right]. rewrite H. apply xorb_nilpotent. Qed.

Lemma nneg_fdiv x y : nneg x -> nneg y -> nneg (fdiv x y).
Proof.
  intros Hx Hy.
  destruct x as [sx|sx|sx plx Hxx|sx mx ex Hxx], y as [sy|sy|sy ply Hyy|sy my ey Hyy];
    try (left; reflexivity);
    (destruct Hx as [Hx|Hx]; [discriminate|]); (destruct Hy as [Hy|Hy]; [discriminate|]); cbn in Hx, Hy; subst;
    try (right; reflexivity).
  set (y := B754_finite 53 1024 false my ey Hyy) in *. set (x := B754_finite 53 1024 false mx ex Hxx) in *.
  assert (Hy0 : Binary.B2R 53 1024 y <> 0%R).
  { unfold y. cbn. intros E. apply eq_0_F2R in E. discriminate. }
  pose proof (Binary.Bdiv_correct 53 1024 eq_refl eq_refl binop_nan_pl64 mode_NE x y Hy0) as H.
  destruct (Rlt_bool _ _).
  - destruct H as (_ & _ & H). destruct (fis_nan (fdiv x y)) eqn:E; [now left|right]. unfold fdiv, b64_div. rewrite (H E). reflexivity.
  - right. unfold fdiv, b64_div. destruct (Binary.Bdiv 53 1024 _ _ _ _ x y) as [s|s|s pl He|s m e He];
      unfold BinarySingleNaN.binary_overflow in H; cbn in H; try discriminate; cbn; congruence.
Qed.

Lemma nneg_fold l acc : nneg acc -> Forall nneg l -> nneg (fold_left fadd l acc).
Proof.
  intros Ha Hl. revert acc Ha. induction Hl as [|x l Hx Hl IH]; intros acc Ha; [exact Ha|]. cbn [fold_left].
  apply IH. now apply nneg_fadd.
Qed.
Lemma nneg_f0 : nneg f0. Proof. right. reflexivity. Qed.
Lemma nneg_sum l : Forall nneg l -> nneg (fsum l).
Proof. intros H. apply nneg_fold; [apply nneg_f0|exact H]. Qed.

Lemma nneg_int z : 0 <= z <= 2 ^ 64 -> nneg (int_as_f64 z).
Proof.
  intros Hz. right. destruct (int_as_f64_correct z) as (_ & _ & H).
  - assert (2 ^ 64 <= 2 ^ 1000) by (vm_compute; discriminate). lia.
  - rewrite H. lia.
Qed.

Lemma zip_map_forall {A} (P : A -> Prop) f l1 l2 : (forall a b, P (f a b)) -> Forall P (zip_map f l1 l2).
Proof. intros H. revert l2. induction l1 as [|a l1 IH]; intros [|b l2]; constructor; auto. Qed.

Lemma smape_loop_nneg o g u d : nneg u -> nneg d -> nneg (fst (smape_loop o g u d)) /\ nneg (snd (smape_loop o g u d)).
Proof.
  revert g u d. induction o as [|a o IH]; intros [|b g] u d Hu Hd; cbn [smape_loop fst snd]; auto.
  destruct (feq b f0 && feq a f0); [now apply IH|]. apply IH; apply nneg_fadd; auto using nneg_fabs.
  apply nneg_fadd; apply nneg_fabs.
Qed.

Lemma method_error_nneg m o g e : Z.of_nat (length o) <= 2 ^ 64 -> method_error m o g = Ok e -> nneg e.
Proof.
  intros Hl. unfold method_error, error_mse, error_nmsqe, error_mae, error_mape, error_smape.
  assert (Hn : nneg (len_f64 o)) by (apply nneg_int; lia).
  destruct (negb (length o =? length g)%nat); [destruct m; discriminate|].
  destruct m; intros H; try (apply ok_inj in H; subst e).
  - apply nneg_fdiv; [|exact Hn]. apply nneg_sum, zip_map_forall. intros; apply nneg_square.
  - apply nneg_fdiv; apply nneg_sum; [apply zip_map_forall; intros; apply nneg_square|].
    apply Forall_map. apply Forall_forall. intros; apply nneg_square.
  - apply nneg_fdiv; [|exact Hn]. apply nneg_sum, zip_map_forall. intros; apply nneg_fabs.
  - apply nneg_fdiv; [|exact Hn]. apply nneg_sum, zip_map_forall. intros; apply nneg_fabs.
  - destruct (smape_loop o g f0 f0) as [u d] eqn:E. apply ok_inj in H. subst e.
    pose proof (smape_loop_nneg o g f0 f0 nneg_f0 nneg_f0) as [Hu Hd]. rewrite E in Hu, Hd. cbn in Hu, Hd.
    apply nneg_fdiv; [|exact Hn]. now apply nneg_fdiv.
Qed.

(** Zero-valued sums. *)
Definition zero (x : f64) : Prop := finite x /\ R64 x = 0%R.

Lemma zero_f0 : zero f0. Proof. split; [reflexivity|apply f0_R]. Qed.
Lemma zero_fold l acc : zero acc -> Forall zero l -> zero (fold_left fadd l acc).
Proof.
  intros Ha Hl. revert acc Ha. induction Hl as [|x l [Fx Rx] Hl IH]; intros acc [Fa Ra]; [now split|]. cbn [fold_left].
  apply IH. destruct (fadd_zero_r acc x Fa Fx Rx) as [F R]. split; congruence.
Qed.
Lemma zero_sum l : Forall zero l -> zero (fsum l).
Proof. apply zero_fold, zero_f0. Qed.

Lemma zip_map_self {A} (P : A -> Prop) f l : Forall (fun a => P (f a a)) l -> Forall P (zip_map f l l).
Proof. induction 1; cbn [zip_map]; constructor; auto. Qed.

Lemma zero_fabs x : zero x -> zero (fabs x).
Proof. intros [F R]. split; [unfold finite; now rewrite fabs_finite|]. rewrite fabs_R, R, Rabs_R0. reflexivity. Qed.
Lemma zero_square x : zero x -> zero (fsquare x).
Proof. intros [F R]. now apply fmul_zero_r. Qed.
Lemma zero_self x : finite x -> zero (fsub x x).
Proof. intros F. now apply fsub_same. Qed.

Lemma len_pos {A} (l : list A) : l <> [] -> Z.of_nat (length l) <= 2 ^ 53 -> finite (len_f64 l) /\ (1 <= R64 (len_f64 l))%R.
Proof.
  intros Hn Hl. unfold len_f64. destruct (int_as_f64_exact (Z.of_nat (length l))) as [R F]; [lia|].
  split; [exact F|]. rewrite R. apply IZR_le. destruct l; [congruence|]. cbn [length]. lia.
Qed.

Lemma zero_div x y : zero x -> R64 y <> 0%R -> zero (fdiv x y).
Proof. intros [F R] Hy. now apply fdiv_zero_l. Qed.

(** NaN is absorbing for addition and division. *)
Lemma nan_fadd_l x y : fis_nan x = true -> fis_nan (fadd x y) = true.
Proof. destruct x as [s|s|s pl H|s m e H]; try discriminate. destruct y; reflexivity. Qed.
Lemma nan_fadd_r x y : fis_nan y = true -> fis_nan (fadd x y) = true.
Proof. destruct y as [s|s|s pl H|s m e H]; try discriminate. destruct x; reflexivity. Qed.
Lemma nan_fdiv_l x y : fis_nan x = true -> fis_nan (fdiv x y) = true.
Proof. destruct x as [s|s|s pl H|s m e H]; try discriminate. destruct y; reflexivity. Qed.
Lemma nan_fabs x : fis_nan x = true -> fis_nan (fabs x) = true.
Proof. destruct x; cbn; congruence. Qed.
Lemma nan_fold l acc : fis_nan acc = true \/ Exists (fun x => fis_nan x = true) l -> fis_nan (fold_left fadd l acc) = true.
Proof.
  revert acc. induction l as [|x l IH]; intros acc [H|H]; cbn [fold_left].
  - exact H.
  - inversion H.
  - apply IH. left. now apply nan_fadd_l.
  - apply IH. inversion H; subst; [left; now apply nan_fadd_r|now right].
Qed.
Lemma zero_zero_nan x y : zero x -> zero y -> fis_nan (fdiv x y) = true.
Proof.
  intros [Fx Rx] [Fy Ry].
  destruct x as [s|s|s pl H|s m e H]; try discriminate; [|unfold R64 in Rx; cbn in Rx; apply eq_0_F2R in Rx; destruct s; discriminate].
  destruct y as [s'|s'|s' pl' H'|s' m' e' H']; try discriminate; [|unfold R64 in Ry; cbn in Ry; apply eq_0_F2R in Ry; destruct s'; discriminate].
  reflexivity.
Qed.

(** Bounded sums of non-negative bounded terms. *)
Lemma sum_bnd k l acc i : 0 <= k <= 200 -> 0 <= i -> i + Z.of_nat (length l) <= 2 ^ 53 ->
  finite acc -> (Rabs (R64 acc) <= IZR i * bpow radix2 k)%R -> Forall (bnd k) l ->
  finite (fold_left fadd l acc) /\ (Rabs (R64 (fold_left fadd l acc)) <= IZR (i + Z.of_nat (length l)) * bpow radix2 k)%R.
Proof.
  intros Hk. revert acc i. induction l as [|x l IH]; intros acc i Hi Hl Fa Ba HF; cbn [fold_left length].
  - rewrite Z.add_0_r. auto.
  - inversion HF as [|? ? [Fx Bx] HF']; subst. cbn [length] in Hl.
    assert (Hb : (Rabs (R64 acc + R64 x) <= IZR (i + 1) * bpow radix2 k)%R).
    { eapply Rle_trans; [apply Rabs_triang|]. rewrite plus_IZR, Rmult_plus_distr_r, Rmult_1_l. lra. }
    assert (Hg : generic_format radix2 fexp64 (IZR (i + 1) * bpow radix2 k)).
    { change (IZR (i + 1) * bpow radix2 k)%R with (F2R (Float radix2 (i + 1) k)).
      destruct (Z.eq_dec (i + 1) (2 ^ 53)) as [->|Hne].
      - unfold F2R. cbn [Fnum Fexp]. change (IZR (2 ^ 53)) with (IZR (radix2 ^ 53)). rewrite (IZR_Zpower radix2 53) by lia. rewrite <- bpow_plus. apply generic_format_bpow.
        unfold SpecFloat.fexp, SpecFloat.emin. lia.
      - change fexp64 with (FLT_exp (-1074) 53). apply generic_format_FLT. exists (Float radix2 (i + 1) k); cbn; [reflexivity|lia|lia]. }
    assert (Hr : (Rabs (rnd64 (R64 acc + R64 x)) <= IZR (i + 1) * bpow radix2 k)%R).
    { apply abs_round_le_generic; [apply fexp64_valid|apply valid_rnd_N|exact Hg|exact Hb]. }
    assert (Hlt : (Rabs (rnd64 (R64 acc + R64 x)) < bpow radix2 1024)%R).
    { eapply Rle_lt_trans; [exact Hr|]. apply Rle_lt_trans with (bpow radix2 53 * bpow radix2 k)%R.
      - apply Rmult_le_compat_r; [apply bpow_ge_0|]. rewrite <- (IZR_Zpower radix2) by lia. apply IZR_le. change (radix2 ^ 53)%Z with (2 ^ 53). lia.
      - rewrite <- bpow_plus. apply bpow_lt. lia. }
    destruct (fadd_R acc x Fa Fx Hlt) as [R F].
    replace (i + Z.of_nat (S (length l))) with (i + 1 + Z.of_nat (length l)) by lia.
    apply IH; try assumption; try lia. now rewrite R.
Qed.

Lemma fsum_bnd k l : 0 <= k <= 200 -> Z.of_nat (length l) <= 2 ^ 53 -> Forall (bnd k) l -> bnd (k + 53) (fsum l).
Proof.
  intros Hk Hl HF.
  assert (H0 : (Rabs (R64 f0) <= IZR 0 * bpow radix2 k)%R) by (rewrite f0_R, Rabs_R0; lra).
  destruct (sum_bnd k l f0 0 Hk ltac:(lia) ltac:(lia) f0_finite H0 HF) as [F B].
  - split; [exact F|]. eapply Rle_trans; [exact B|]. rewrite Z.add_0_l. rewrite bpow_plus, Rmult_comm.
    apply Rmult_le_compat_l; [apply bpow_ge_0|]. rewrite <- (IZR_Zpower radix2) by lia. apply IZR_le. exact Hl.
Qed.
