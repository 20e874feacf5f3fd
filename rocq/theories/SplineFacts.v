(** Spline sampling: exact at the keys, always finite on bounded values. *)
From Coq Require Import List ZArith Bool Lia Reals Lra Sorted ZifyBool.
From Flocq Require Import Core IEEE754.BinarySingleNaN IEEE754.Binary IEEE754.Bits.
From Verif Require Import Base Model_Float Model_Bincode Spec FloatFacts ArithFacts RoundFacts Model_Utils Model_Stats
  Model_Compressors Model_Polynomial StatsFacts CompressorFacts PolyFacts.
Import ListNotations.
Open Scope Z_scope.

Lemma f1_bnd : bnd 0 f1.
Proof. apply (bnd_int 0 1); lia. Qed.

(** Interpolation at local parameter 0 returns the left key's value. *)
Lemma lerp_at_zero t a b : finite t -> R64 t = 0%R -> finite a -> finite b -> same_value (spline_lerp t a b) a.
Proof.
  intros Ft Ht Fa Fb. unfold spline_lerp.
  destruct (fsub_zero_r f1 t f1_finite Ft Ht) as [F1 R1]. rewrite f1_R in R1.
  destruct (fmul_one_r a _ Fa F1 R1) as [F2 R2].
  destruct (fmul_zero_r b t Fb Ft Ht) as [F3 R3].
  destruct (fadd_zero_r _ _ F2 F3 R3) as [F4 R4].
  repeat split; try assumption. congruence.
Qed.

Lemma lerp_bnd kt k t a b : 0 <= kt <= 100 -> 0 <= k <= 300 -> bnd kt t -> bnd k a -> bnd k b ->
  bnd (k + kt + 3) (spline_lerp t a b).
Proof.
  intros Hkt Hk Bt Ba Bb. unfold spline_lerp.
  assert (B1 : bnd (kt + 1) (fsub f1 t)).
  { eapply bnd_weaken; [|apply (bnd_sub 0 kt); [apply f1_bnd|exact Bt|lia]]. lia. }
  assert (B2 := bnd_mul k (kt + 1) _ _ Ba B1 ltac:(lia)).
  assert (B3 := bnd_mul k kt _ _ Bb Bt ltac:(lia)).
  eapply bnd_weaken; [|apply (bnd_add _ _ _ _ B2 B3 ltac:(lia))]. lia.
Qed.

Lemma hermite_at_zero t x a b y :
  finite t -> R64 t = 0%R -> finite (k_v a) -> finite (k_v b) ->
  finite (fmul (fdiv (fsub (k_v b) (k_v x)) (fsub (k_t b) (k_t x))) (fsub (k_t b) (k_t a))) ->
  finite (fmul (fdiv (fsub (k_v y) (k_v a)) (fsub (k_t y) (k_t a))) (fsub (k_t b) (k_t a))) ->
  same_value (cubic_hermite t x a b y) (k_v a).
Proof.
  intros Ft Ht Fa Fb Fm0 Fm1. unfold cubic_hermite.
  set (m0 := fmul (fdiv (fsub (k_v b) _) _) _) in *. set (m1 := fmul (fdiv (fsub (k_v y) _) _) _) in *.
  assert (F2 : finite (int_as_f64 2)) by reflexivity. assert (F3 : finite (int_as_f64 3)) by reflexivity.
  destruct (fmul_zero_l t _ Ft F2 Ht) as [Fa1 Ra1].
  destruct (fmul_zero_l t _ Ft F3 Ht) as [Fa2 Ra2].
  destruct (fmul_zero_l t t Ft Ft Ht) as [Fa3 Ra3].
  destruct (fmul_zero_l (fmul t t) t Fa3 Ft Ra3) as [Fa4 Ra4].
  destruct (fmul_zero_l (fmul t (int_as_f64 2)) (fmul t t) Fa1 Fa3 Ra1) as [Fa5 Ra5].
  destruct (fmul_zero_l (fmul t (int_as_f64 2)) t Fa1 Ft Ra1) as [Fa6 Ra6].
  destruct (fmul_zero_l (fmul t (int_as_f64 3)) t Fa2 Ft Ra2) as [Fa7 Ra7].
  cbv zeta.
  set (two_t3 := fmul (fmul t (int_as_f64 2)) (fmul t t)) in *. set (three_t2 := fmul (fmul t (int_as_f64 3)) t) in *.
  set (two_t2 := fmul (fmul t (int_as_f64 2)) t) in *. set (t3 := fmul (fmul t t) t) in *. set (t2 := fmul t t) in *.
  destruct (fsub_same two_t3 three_t2 Fa5 Fa7 ltac:(congruence)) as [G1 S1].
  destruct (fadd_zero_l _ f1 G1 f1_finite S1) as [G2 S2]. rewrite f1_R in S2.
  destruct (fmul_one_r (k_v a) _ Fa G2 S2) as [G3 S3].
  destruct (fsub_same t3 two_t2 Fa4 Fa6 ltac:(congruence)) as [G4 S4].
  destruct (fadd_zero_l _ t G4 Ft S4) as [G5 S5]. rewrite Ht in S5.
  destruct (fmul_zero_r m0 _ Fm0 G5 S5) as [G6 S6].
  destruct (fsub_same three_t2 two_t3 Fa7 Fa5 ltac:(congruence)) as [G7 S7].
  destruct (fmul_zero_r (k_v b) _ Fb G7 S7) as [G8 S8].
  destruct (fsub_same t3 t2 Fa4 Fa3 ltac:(congruence)) as [G9 S9].
  destruct (fmul_zero_r m1 _ Fm1 G9 S9) as [G10 S10].
  destruct (fadd_zero_r _ _ G3 G6 S6) as [G11 S11].
  destruct (fadd_zero_r _ _ G11 G8 S8) as [G12 S12].
  destruct (fadd_zero_r _ _ G12 G10 S10) as [G13 S13].
  repeat split; try assumption. congruence.
Qed.

Lemma hermite_bnd t x a b y :
  bnd 54 t -> bnd 64 (k_v a) -> bnd 64 (k_v b) ->
  bnd 130 (fmul (fdiv (fsub (k_v b) (k_v x)) (fsub (k_t b) (k_t x))) (fsub (k_t b) (k_t a))) ->
  bnd 130 (fmul (fdiv (fsub (k_v y) (k_v a)) (fsub (k_t y) (k_t a))) (fsub (k_t b) (k_t a))) ->
  bnd 400 (cubic_hermite t x a b y).
Proof.
  intros Bt Ba Bb Bm0 Bm1. unfold cubic_hermite.
  set (m0 := fmul (fdiv (fsub (k_v b) _) _) _) in *. set (m1 := fmul (fdiv (fsub (k_v y) _) _) _) in *.
  assert (B2 : bnd 2 (int_as_f64 2)) by (apply bnd_int; lia). assert (B3 : bnd 2 (int_as_f64 3)) by (apply bnd_int; lia).
  cbv zeta.
  assert (C1 := bnd_mul 54 2 _ _ Bt B2 ltac:(lia)).
  assert (C2 := bnd_mul 54 2 _ _ Bt B3 ltac:(lia)).
  assert (C3 := bnd_mul 54 54 _ _ Bt Bt ltac:(lia)).
  assert (C4 := bnd_mul _ _ _ _ C3 Bt ltac:(lia)).
  assert (C5 := bnd_mul _ _ _ _ C1 C3 ltac:(lia)).
  assert (C6 := bnd_mul _ _ _ _ C1 Bt ltac:(lia)).
  assert (C7 := bnd_mul _ _ _ _ C2 Bt ltac:(lia)).
  assert (D1 := bnd_sub _ _ _ _ C5 C7 ltac:(lia)).
  assert (D2 := bnd_add _ _ _ _ D1 f1_bnd ltac:(lia)).
  assert (D3 := bnd_mul _ _ _ _ Ba D2 ltac:(lia)).
  assert (D4 := bnd_sub _ _ _ _ C4 C6 ltac:(lia)).
  assert (D5 := bnd_add _ _ _ _ D4 Bt ltac:(lia)).
  assert (D6 := bnd_mul _ _ _ _ Bm0 D5 ltac:(lia)).
  assert (D7 := bnd_sub _ _ _ _ C7 C5 ltac:(lia)).
  assert (D8 := bnd_mul _ _ _ _ Bb D7 ltac:(lia)).
  assert (D9 := bnd_sub _ _ _ _ C4 C3 ltac:(lia)).
  assert (D10 := bnd_mul _ _ _ _ Bm1 D9 ltac:(lia)).
  assert (E1 := bnd_add _ _ _ _ D3 D6 ltac:(lia)).
  assert (E2 := bnd_add _ _ _ _ E1 D8 ltac:(lia)).
  assert (E3 := bnd_add _ _ _ _ E2 D10 ltac:(lia)).
  eapply bnd_weaken; [|exact E3]. lia.
Qed.

(** Keys built from increasing integer positions and bounded values. *)
Definition positions_ok (ps : list Z) : Prop := StronglySorted Z.lt ps /\ Forall (fun z => 0 <= z <= 2 ^ 53) ps.
Definition values_ok (vs : list f64) : Prop := Forall (bnd 63) vs.

Lemma build_keys_nth total i ps vs j k : nth_error (build_keys total i ps vs) j = Some k ->
  exists z v, nth_error ps j = Some z /\ nth_error vs j = Some v /\ k_t k = int_as_f64 z /\ k_v k = v /\
    k_i k = if (0 <? i + j)%nat && (2 <? total - (i + j))%nat then ICatmullRom else ILinear.
Proof.
  revert i vs j. induction ps as [|z ps IH]; intros i vs j H; [destruct j; discriminate|].
  destruct vs as [|v vs]; [destruct j; discriminate|]. cbn [build_keys] in H. destruct j as [|j].
  - cbn [nth_error] in *. injection H as <-. exists z, v. cbn [k_t k_v k_i]. rewrite Nat.add_0_r. auto.
  - cbn [nth_error] in H. apply IH in H. replace (S i + j)%nat with (i + S j)%nat in H by lia. exact H.
Qed.

Lemma build_keys_length total i ps vs : length ps = length vs -> length (build_keys total i ps vs) = length ps.
Proof.
  revert i vs. induction ps as [|z ps IH]; intros i [|v vs] H; try discriminate; [reflexivity|].
  cbn [build_keys length]. f_equal. apply IH. now injection H.
Qed.

Lemma sorted_nth_lt ps i j a b : StronglySorted Z.lt ps -> (i < j)%nat ->
  nth_error ps i = Some a -> nth_error ps j = Some b -> a < b.
Proof.
  intros H. revert i j. induction H as [|z ps Hs IH Hf]; intros i j Hij Ha Hb; [destruct i; discriminate|].
  destruct j as [|j]; [lia|]. cbn in Hb. destruct i as [|i].
  - cbn in Ha. injection Ha as <-. rewrite Forall_forall in Hf. apply Hf. eapply nth_error_In; eauto.
  - cbn in Ha. eapply (IH i j); eauto. lia.
Qed.

Lemma search_at_key total ps vs z : positions_ok ps -> forall i i0 j,
  nth_error ps j = Some z -> (j < length vs)%nat ->
  search_keys (build_keys total i ps vs) (int_as_f64 z) i0 = Found (i0 + j).
Proof.
  intros [Hs Hr]. revert vs. induction ps as [|a ps IH]; intros vs i i0 j Hj Hl; [destruct j; discriminate|].
  destruct vs as [|v vs]; [cbn in Hl; lia|]. cbn [build_keys search_keys k_t].
  assert (Hz : 0 <= z <= 2 ^ 53) by (rewrite Forall_forall in Hr; apply Hr; eapply nth_error_In; eauto).
  assert (Ha : 0 <= a <= 2 ^ 53) by (inversion Hr; assumption).
  rewrite int_as_f64_inj by lia. destruct j as [|j].
  - cbn in Hj. injection Hj as ->. rewrite Z.eqb_refl. f_equal. lia.
  - assert (a < z) by (eapply (sorted_nth_lt (a :: ps) 0 (S j)); eauto; lia || reflexivity).
    replace (a =? z) with false by lia.
    assert (Hlt : flt (int_as_f64 a) (int_as_f64 z) = true).
    { destruct (int_as_f64_exact a) as [R1 F1]; [lia|]. destruct (int_as_f64_exact z) as [R2 F2]; [lia|].
      apply flt_R; try assumption. rewrite R1, R2. now apply IZR_lt. }
    rewrite Hlt. inversion Hs; inversion Hr; subst. rewrite (IH H2 H7 vs (S i) (S i0) j); [f_equal; lia|exact Hj|cbn in Hl; lia].
Qed.

Section Keys.
  Variables (ps : list Z) (vs : list f64).
  Hypothesis Hps : positions_ok ps.
  Hypothesis Hvs : values_ok vs.
  Hypothesis Hlen : length ps = length vs.
  Let keys := build_keys (length ps) 0 ps vs.

  Lemma keys_length : length keys = length ps.
  Proof. now apply build_keys_length. Qed.

  Lemma key_props j k : nth_error keys j = Some k -> exists z,
    nth_error ps j = Some z /\ nth_error vs j = Some (k_v k) /\ k_t k = int_as_f64 z /\ 0 <= z <= 2 ^ 53 /\ bnd 63 (k_v k) /\
    k_i k = if (0 <? j)%nat && (2 <? length ps - j)%nat then ICatmullRom else ILinear.
  Proof.
    intros H. destruct (build_keys_nth _ _ _ _ _ _ H) as (z & v & Hz & Hv & Ht & Hk & Hi). exists z. subst v.
    destruct Hps as [_ Hr]. rewrite Forall_forall in Hr. unfold values_ok in Hvs. pose proof Hvs as Hvs'. rewrite Forall_forall in Hvs'.
    repeat split; auto; try (apply Hr; eapply nth_error_In; eauto); try (apply Hvs'; eapply nth_error_In; eauto).
  Qed.

  Lemma key_time_diff i j a b : (i < j)%nat -> nth_error keys i = Some a -> nth_error keys j = Some b ->
    bnd 54 (fsub (k_t b) (k_t a)) /\ (1 <= R64 (fsub (k_t b) (k_t a)))%R.
  Proof.
    intros Hij Ha Hb. destruct (key_props _ _ Ha) as (za & Hza & _ & Hta & Hra & _).
    destruct (key_props _ _ Hb) as (zb & Hzb & _ & Htb & Hrb & _).
    assert (za < zb) by (destruct Hps; eapply sorted_nth_lt; eauto).
    rewrite Hta, Htb. destruct (fsub_int zb za) as [F R]; try lia. split.
    - split; [exact F|]. rewrite R. rewrite <- abs_IZR, <- (IZR_Zpower radix2) by lia. apply IZR_le. change (radix2 ^ 54)%Z with (2 ^ 54). lia.
    - rewrite R. apply IZR_le. lia.
  Qed.

  Lemma slope_bnd i j a b k c d : (i < j)%nat -> nth_error keys i = Some a -> nth_error keys j = Some b ->
    (k < c)%nat -> forall kk kc, nth_error keys k = Some kk -> nth_error keys c = Some kc ->
    d = fmul (fdiv (fsub (k_v b) (k_v a)) (fsub (k_t b) (k_t a))) (fsub (k_t kc) (k_t kk)) -> bnd 130 d.
  Proof.
    intros Hij Ha Hb Hkc kk kc Hk Hc ->.
    destruct (key_time_diff _ _ _ _ Hij Ha Hb) as [_ H1].
    destruct (key_time_diff _ _ _ _ Hkc Hk Hc) as [H2 _].
    destruct (key_props _ _ Ha) as (za & _ & _ & _ & _ & Ba & _).
    destruct (key_props _ _ Hb) as (zb & _ & _ & _ & _ & Bb & _).
    assert (B1 := bnd_sub _ _ _ _ Bb Ba ltac:(lia)).
        assert (Hd : (bpow radix2 0 <= Rabs (R64 (fsub (k_t b) (k_t a))))%R).
    { change (bpow radix2 0) with 1%R. rewrite Rabs_right; lra. }
    assert (B2 := bnd_div _ 0 _ _ B1 Hd ltac:(lia)). assert (B3 := bnd_mul _ _ _ _ B2 H2 ltac:(lia)). eapply bnd_weaken; [|exact B3]. lia.
  Qed.

  (** Local parameter. *)
  Lemma param_bnd i a b t : nth_error keys i = Some a -> nth_error keys (S i) = Some b -> bnd 53 t ->
    bnd 54 (fdiv (fsub t (k_t a)) (fsub (k_t b) (k_t a))).
  Proof.
    intros Ha Hb Ht. destruct (key_time_diff i (S i) a b ltac:(lia) Ha Hb) as [_ H1].
    destruct (key_props _ _ Ha) as (za & _ & _ & Hta & Hza & _ & _).
    assert (Ba : bnd 53 (k_t a)) by (rewrite Hta; apply bnd_int; lia).
    assert (B1 := bnd_sub _ _ _ _ Ht Ba ltac:(lia)).
    assert (Hd : (bpow radix2 0 <= Rabs (R64 (fsub (k_t b) (k_t a))))%R).
    { change (bpow radix2 0) with 1%R. rewrite Rabs_right; lra. }
    assert (B2 := bnd_div _ 0 _ _ B1 Hd ltac:(lia)). eapply bnd_weaken; [|exact B2]. lia.
  Qed.

  Lemma spline_sample_bnd t v : bnd 53 t -> spline_sample keys t = Some v -> bnd 400 v.
  Proof.
    intros Ht. unfold spline_sample. destruct (search_lower_cp keys t) as [i|]; [|discriminate].
    destruct (nth_error keys i) as [a|] eqn:Ha; [|discriminate].
    destruct (nth_error keys (S i)) as [b|] eqn:Hb; [|discriminate].
    assert (Bp := param_bnd i a b t Ha Hb Ht).
    destruct (key_props _ _ Ha) as (za & _ & _ & _ & _ & Ba & _).
    destruct (key_props _ _ Hb) as (zb & _ & _ & _ & _ & Bb & _).
    destruct (k_i a).
    - intros [= <-]. eapply bnd_weaken; [|apply (lerp_bnd 54 63); [lia|lia|exact Bp|exact Ba|exact Bb]]. lia.
    - destruct ((i =? 0)%nat || (length keys - 2 <=? i)%nat) eqn:E; [discriminate|].
      destruct (nth_error keys (i - 1)) as [x|] eqn:Hx; [|discriminate].
      destruct (nth_error keys (S (S i))) as [y|] eqn:Hy; [|discriminate].
      intros [= <-]. apply hermite_bnd; [exact Bp|now apply (bnd_weaken 63); [lia|]|now apply (bnd_weaken 63); [lia|]| |].
      + eapply (slope_bnd (i - 1) (S i) x b i (S i)); eauto; lia.
      + eapply (slope_bnd i (S (S i)) a y i (S i)); eauto; lia.
  Qed.

  Lemma last_opt_nth {A} (l : list A) x : last_opt l = Some x -> nth_error l (length l - 1) = Some x /\ (0 < length l)%nat.
  Proof.
    unfold last_opt. destruct (rev l) as [|a r] eqn:E; [discriminate|]. intros [= <-].
    assert (l = rev r ++ [a]) as -> by (rewrite <- (rev_involutive l), E; reflexivity).
    rewrite app_length. cbn [length]. rewrite nth_error_app2 by lia.
    replace (length (rev r) + 1 - 1 - length (rev r))%nat with 0%nat by lia. split; [reflexivity|lia].
  Qed.

  Lemma clamped_bnd t v : bnd 53 t -> clamped_sample keys t = Some v -> bnd 400 v.
  Proof.
    intros Ht. unfold clamped_sample. destruct keys as [|first rest] eqn:Ek; [discriminate|]. rewrite <- Ek.
    destruct (spline_sample keys t) as [w|] eqn:Es; [intros [= <-]; eapply spline_sample_bnd; eauto|].
    destruct (fle t (k_t first)).
    - intros [= <-]. assert (H0 : nth_error keys 0 = Some first) by now rewrite Ek.
      destruct (key_props _ _ H0) as (z & _ & _ & _ & _ & B & _). now apply (bnd_weaken 63); [lia|].
    - destruct (last_opt keys) as [l|] eqn:El; [|discriminate]. destruct (fle (k_t l) t); [|discriminate].
      intros [= <-]. destruct (last_opt_nth _ _ El) as [H0 _].
      destruct (key_props _ _ H0) as (z & _ & _ & _ & _ & B & _). now apply (bnd_weaken 63); [lia|].
  Qed.

  Lemma key_exists j : (j < length ps)%nat -> exists k, nth_error keys j = Some k.
  Proof.
    intros H. destruct (nth_error keys j) eqn:E; [eauto|]. apply nth_error_None in E. rewrite keys_length in E. lia.
  Qed.

  (** Sampling at a key returns its value. *)
  Lemma clamped_at_key j z v : nth_error ps j = Some z -> nth_error vs j = Some v ->
    exists w, clamped_sample keys (int_as_f64 z) = Some w /\ same_value w v.
  Proof.
    intros Hz Hv.
    assert (Hj : (j < length ps)%nat) by (apply nth_error_Some; congruence).
    destruct (key_exists j Hj) as [a Ha]. destruct (key_props _ _ Ha) as (z' & Hz' & Hv' & Hta & Hza & Ba & Hia).
    assert (z' = z) by congruence. subst z'. assert (v = k_v a) by congruence. subst v.
    destruct (int_as_f64_exact z) as [Rz Fz]; [lia|].
    assert (Hself : same_value (k_v a) (k_v a)) by (repeat split; apply Ba).
    unfold clamped_sample. destruct keys as [|first rest] eqn:Ek; [destruct j; discriminate|]. rewrite <- Ek in *.
    assert (Hsearch : search_keys keys (int_as_f64 z) 0 = Found j).
    { unfold keys. rewrite (search_at_key _ ps vs z Hps 0 0 j Hz) by lia. reflexivity. }
    assert (Hfirst : nth_error keys 0 = Some first) by now rewrite Ek.
    assert (Hlenk := keys_length).
    unfold spline_sample, search_lower_cp. rewrite Hsearch, Hlenk.
    destruct (length ps <? 2)%nat eqn:E2.
    - assert (j = 0)%nat by lia. subst j. assert (first = a) by congruence. subst first.
      rewrite Hta. exists (k_v a). split; [|exact Hself].
      replace (fle (int_as_f64 z) (int_as_f64 z)) with true; [reflexivity|]. symmetry. apply fle_refl. now apply fis_finite_not_nan.
    - destruct (j =? length ps - 1)%nat eqn:E3.
      + assert (Hjl : j = (length ps - 1)%nat) by lia.
        destruct (key_props _ _ Hfirst) as (z0 & Hz0 & _ & Ht0 & Hz0r & _ & _).
        assert (z0 < z) by (destruct Hps; eapply (sorted_nth_lt ps 0 j); eauto; lia).
        rewrite Ht0. destruct (int_as_f64_exact z0) as [R0 F0]; [lia|].
        destruct (fle (int_as_f64 z) (int_as_f64 z0)) eqn:E4.
        { apply fle_R in E4; try assumption. rewrite Rz, R0 in E4. apply le_IZR in E4. lia. }
        destruct (last_opt keys) as [l|] eqn:El.
        * destruct (last_opt_nth _ _ El) as [Hl _]. rewrite Hlenk, <- Hjl in Hl. assert (l = a) by congruence. subst l.
          rewrite Hta. exists (k_v a). split; [|exact Hself].
          replace (fle (int_as_f64 z) (int_as_f64 z)) with true; [reflexivity|]. symmetry. apply fle_refl. now apply fis_finite_not_nan.
        * exfalso. unfold last_opt in El. destruct (rev keys) eqn:Er; [|discriminate].
          apply (f_equal (@length key)) in Er. rewrite rev_length, Hlenk in Er. cbn in Er. lia.
      + destruct (key_exists (S j) ltac:(lia)) as [b Hb]. rewrite Ha, Hb.
        destruct (key_props _ _ Hb) as (zb & _ & _ & Htb & Hzb & Bb & _).
        destruct (key_time_diff j (S j) a b ltac:(lia) Ha Hb) as [_ Hdiff].
        set (nt := fdiv _ _).
        assert (Hnt : finite nt /\ R64 nt = 0%R).
        { unfold nt. rewrite Hta in *. destruct (fsub_same (int_as_f64 z) (int_as_f64 z) Fz Fz eq_refl) as [Fs Rs].
          apply fdiv_zero_l; [exact Fs|lra|exact Rs]. }
        destruct Hnt as [Fnt Rnt]. rewrite Hia.
        destruct ((0 <? j)%nat && (2 <? length ps - j)%nat) eqn:E5.
        * replace ((j =? 0)%nat || (length ps - 2 <=? j)%nat) with false by lia.
          destruct (key_exists (j - 1) ltac:(lia)) as [x Hx]. destruct (key_exists (S (S j)) ltac:(lia)) as [y Hy].
          rewrite Hx, Hy. eexists. split; [reflexivity|].
          apply hermite_at_zero; try assumption; try apply Ba; try apply Bb.
          -- eapply bnd_finite. eapply (slope_bnd (j - 1) (S j) x b j (S j)); eauto; lia.
          -- eapply bnd_finite. eapply (slope_bnd j (S (S j)) a y j (S j)); eauto; lia.
        * eexists. split; [reflexivity|]. apply lerp_at_zero; try assumption; try apply Ba; try apply Bb.
  Qed.
End Keys.

(** The sampling loop: every output is finite and in range, and at the keys it is the stored
    value rounded to five decimals and clamped. *)
Lemma sample_loop_length samp mn mx prev zs : length (sample_loop samp mn mx prev zs) = length zs.
Proof. revert prev. induction zs as [|z zs IH]; intros prev; [reflexivity|]. cbn [sample_loop length]. now rewrite IH. Qed.

Lemma sample_loop_forall (P : f64 -> Prop) (Q : f64 -> Prop) samp mn mx prev zs :
  (forall x, Q x -> P (round_and_limit_f64 x mn mx DECIMAL_PRECISION)) ->
  (forall z x, In z zs -> samp z = Some x -> Q x) -> Q prev ->
  Forall P (sample_loop samp mn mx prev zs).
Proof.
  intros HP. revert prev. induction zs as [|z zs IH]; intros prev HQ Hprev; cbn [sample_loop]; constructor.
  - apply HP. destruct (samp z) eqn:E; [|exact Hprev]. eapply HQ; eauto. now left.
  - apply IH; [intros; eapply HQ; eauto; now right|]. destruct (samp z) eqn:E; [|exact Hprev]. eapply HQ; eauto. now left.
Qed.

Lemma sample_loop_nth samp mn mx prev zs j z x : nth_error zs j = Some z -> samp z = Some x ->
  nth_error (sample_loop samp mn mx prev zs) j = Some (round_and_limit_f64 x mn mx DECIMAL_PRECISION).
Proof.
  revert prev j. induction zs as [|a zs IH]; intros prev j Hz Hx; [destruct j; discriminate|].
  cbn [sample_loop]. destruct j as [|j]; cbn [nth_error] in *.
  - injection Hz as ->. now rewrite Hx.
  - now apply IH.
Qed.

Lemma range_nth n j : (j < n)%nat -> nth_error (range n) j = Some (Z.of_nat j).
Proof.
  intros H. unfold range. rewrite nth_error_map.
  rewrite (nth_error_nth' _ 0%nat) by (rewrite seq_length; exact H). rewrite seq_nth by exact H. reflexivity.
Qed.
Lemma range_length n : length (range n) = n.
Proof. unfold range. now rewrite map_length, seq_length. Qed.
Lemma range_in n z : In z (range n) -> 0 <= z < Z.of_nat n.
Proof. unfold range. rewrite in_map_iff. intros (k & <- & Hk). apply in_seq in Hk. lia. Qed.
