(** Rounding errors of the interpolation formulas. *)
From Coq Require Import List ZArith Bool Lia Reals Lra Sorted ZifyBool.
From Flocq Require Import Core IEEE754.BinarySingleNaN IEEE754.Binary IEEE754.Bits.
From Verif Require Import Base Model_Float Spec FloatFacts ArithFacts RoundFacts AccuracyFacts Model_Utils Model_Polynomial SplineFacts PolyFacts PolyApiFacts Spec_Spline.
Import ListNotations.
Open Scope Z_scope.

(** [x] is a finite number within [e] of [r], which is at most [b] in magnitude. *)
Definition near (x : f64) (r e b : R) : Prop := finite x /\ (Rabs (R64 x - r) <= e)%R /\ (Rabs r <= b)%R.

Definition ee : R := bpow radix2 (-52).
Lemma ee_small : (0 < ee <= / 1000000)%R.
Proof. unfold ee. split; [apply bpow_gt_0|]. change (bpow radix2 (-52)) with (/ 4503599627370496)%R. lra. Qed.

Lemma rnd_small r B : (/ 1000000000 <= B <= bpow radix2 1000)%R -> (Rabs r <= B)%R ->
  (Rabs (rnd64 r - r) <= ee * B)%R /\ (Rabs (rnd64 r) < bpow radix2 1024)%R.
Proof.
  intros HB Hr. split.
  - destruct (rnd_rel r) as (d & h & Hd & Hh & E). rewrite E. replace (r * (1 + d) + h - r)%R with (d * r + h)%R by ring.
    eapply Rle_trans; [apply Rabs_triang|]. rewrite Rabs_mult.
    assert (Rabs d * Rabs r <= u * B)%R by (apply Rmult_le_compat; auto using Rabs_pos).
    assert (eta <= u * B)%R.
    { apply Rle_trans with (u * bpow radix2 (-100))%R; [rewrite <- bpow_plus; apply bpow_le; lia|].
      apply Rmult_le_compat_l; [apply bpow_ge_0|]. eapply Rle_trans; [|apply HB]. apply Rle_trans with (bpow radix2 (-30)); [apply bpow_le; lia|].
      change (bpow radix2 (-30)) with (/ 1073741824)%R. lra. }
    assert (Ee : ee = (u + u)%R) by (unfold ee; change (bpow radix2 (-52)) with (bpow radix2 (1 + -53)); rewrite bpow_plus; change (bpow radix2 1) with 2%R; ring).
    rewrite Ee. lra.
  - eapply Rle_lt_trans; [apply (rnd64_abs_le_bpow r 1000); [lia|lra]|]. apply bpow_lt. lia.
Qed.

Lemma near_mono x r e b e' b' : near x r e b -> (e <= e')%R -> (b <= b')%R -> near x r e' b'.
Proof. intros (F & A & B) He Hb. split; [exact F|]. split; lra. Qed.

Lemma near_exact x b : finite x -> (Rabs (R64 x) <= b)%R -> near x (R64 x) 0 b.
Proof. intros F B. split; [exact F|]. split; [rewrite Rminus_diag_eq, Rabs_R0 by reflexivity; lra|exact B]. Qed.

Lemma near_abs x r e b : near x r e b -> (Rabs (R64 x) <= b + e)%R.
Proof. intros (_ & A & B). replace (R64 x) with (r + (R64 x - r))%R by ring. eapply Rle_trans; [apply Rabs_triang|]. lra. Qed.

Lemma near_add x y r s e f b c K E B : near x r e b -> near y s f c -> (/ 1000000000 <= K <= bpow radix2 1000)%R ->
  (b + c + e + f <= K)%R -> (e + f + ee * K <= E)%R -> (b + c <= B)%R -> near (fadd x y) (r + s) E B.
Proof.
  intros Nx Ny HK H1 H2 H3. assert (Ax := near_abs _ _ _ _ Nx). assert (Ay := near_abs _ _ _ _ Ny). destruct Nx as (Fx & Ex & Bx), Ny as (Fy & Ey & By).
  assert (Hs : (Rabs (R64 x + R64 y) <= K)%R) by (eapply Rle_trans; [apply Rabs_triang|lra]).
  destruct (rnd_small _ _ HK Hs) as [R1 R2]. destruct (fadd_R x y Fx Fy R2) as [R F]. split; [exact F|]. split.
  - rewrite R. replace (rnd64 (R64 x + R64 y) - (r + s))%R with ((rnd64 (R64 x + R64 y) - (R64 x + R64 y)) + ((R64 x - r) + (R64 y - s)))%R by ring.
    eapply Rle_trans; [apply Rabs_triang|]. assert (T := Rabs_triang (R64 x - r) (R64 y - s)). lra.
  - eapply Rle_trans; [apply Rabs_triang|lra].
Qed.

Lemma near_sub x y r s e f b c K E B : near x r e b -> near y s f c -> (/ 1000000000 <= K <= bpow radix2 1000)%R ->
  (b + c + e + f <= K)%R -> (e + f + ee * K <= E)%R -> (b + c <= B)%R -> near (fsub x y) (r - s) E B.
Proof.
  intros Nx Ny HK H1 H2 H3. assert (Ax := near_abs _ _ _ _ Nx). assert (Ay := near_abs _ _ _ _ Ny). destruct Nx as (Fx & Ex & Bx), Ny as (Fy & Ey & By).
  assert (Tm : forall p q, (Rabs (p - q) <= Rabs p + Rabs q)%R) by (intros p q; unfold Rminus; eapply Rle_trans; [apply Rabs_triang|]; rewrite Rabs_Ropp; lra).
  assert (Hs : (Rabs (R64 x - R64 y) <= K)%R) by (eapply Rle_trans; [apply Tm|lra]).
  destruct (rnd_small _ _ HK Hs) as [R1 R2]. destruct (fsub_R x y Fx Fy R2) as [R F]. split; [exact F|]. split.
  - rewrite R. replace (rnd64 (R64 x - R64 y) - (r - s))%R with ((rnd64 (R64 x - R64 y) - (R64 x - R64 y)) + ((R64 x - r) - (R64 y - s)))%R by ring.
    eapply Rle_trans; [apply Rabs_triang|]. assert (T := Tm (R64 x - r)%R (R64 y - s)%R). lra.
  - eapply Rle_trans; [apply Tm|lra].
Qed.

Lemma near_mul x y r s e f b c K E B : near x r e b -> near y s f c -> (/ 1000000000 <= K <= bpow radix2 1000)%R ->
  ((b + e) * (c + f) <= K)%R -> (e * c + f * b + e * f + ee * K <= E)%R -> (b * c <= B)%R -> near (fmul x y) (r * s) E B.
Proof.
  intros Nx Ny HK H1 H2 H3. assert (Ax := near_abs _ _ _ _ Nx). assert (Ay := near_abs _ _ _ _ Ny). destruct Nx as (Fx & Ex & Bx), Ny as (Fy & Ey & By).
  assert (Hs : (Rabs (R64 x * R64 y) <= K)%R).
  { rewrite Rabs_mult. eapply Rle_trans; [|exact H1]. apply Rmult_le_compat; auto using Rabs_pos. }
  destruct (rnd_small _ _ HK Hs) as [R1 R2]. destruct (fmul_R x y Fx Fy R2) as [R F]. split; [exact F|]. split.
  - rewrite R. replace (rnd64 (R64 x * R64 y) - r * s)%R
      with ((rnd64 (R64 x * R64 y) - R64 x * R64 y) + ((R64 x - r) * s + (R64 y - s) * r + (R64 x - r) * (R64 y - s)))%R by ring.
    eapply Rle_trans; [apply Rabs_triang|]. assert (T := Rabs_triang ((R64 x - r) * s + (R64 y - s) * r) ((R64 x - r) * (R64 y - s))).
    assert (T2 := Rabs_triang ((R64 x - r) * s) ((R64 y - s) * r)). rewrite !Rabs_mult in *.
    assert (Rabs (R64 x - r) * Rabs s <= e * c)%R by (apply Rmult_le_compat; auto using Rabs_pos).
    assert (Rabs (R64 y - s) * Rabs r <= f * b)%R by (apply Rmult_le_compat; auto using Rabs_pos).
    assert (Rabs (R64 x - r) * Rabs (R64 y - s) <= e * f)%R by (apply Rmult_le_compat; auto using Rabs_pos). lra.
  - rewrite Rabs_mult. eapply Rle_trans; [|exact H3]. apply Rmult_le_compat; auto using Rabs_pos.
Qed.

(** Division by an exact number of at least one. *)
Lemma near_div x y r D e b K E B : near x r e b -> R64 y = D -> (1 <= D)%R -> (/ 1000000000 <= K <= bpow radix2 1000)%R ->
  ((b + e) / D <= K)%R -> (e / D + ee * K <= E)%R -> (b / D <= B)%R -> near (fdiv x y) (r / D) E B.
Proof.
  intros Nx Ry HD HK H1 H2 H3. assert (Ax := near_abs _ _ _ _ Nx). destruct Nx as (Fx & Ex & Bx). assert (Ip : (0 < / D)%R) by (apply Rinv_0_lt_compat; lra).
  assert (Hs : (Rabs (R64 x / D) <= K)%R).
  { unfold Rdiv. rewrite Rabs_mult, (Rabs_right (/ D)) by lra. eapply Rle_trans; [|exact H1]. apply Rmult_le_compat_r; lra. }
  destruct (rnd_small _ _ HK Hs) as [R1 R2]. rewrite <- Ry in R2. destruct (fdiv_R x y Fx ltac:(rewrite Ry; lra) R2) as [R F]. split; [exact F|]. split.
  - rewrite R, Ry. replace (rnd64 (R64 x / D) - r / D)%R with ((rnd64 (R64 x / D) - R64 x / D) + (R64 x - r) * / D)%R by (unfold Rdiv; ring).
    eapply Rle_trans; [apply Rabs_triang|]. rewrite Rabs_mult, (Rabs_right (/ D)) by lra.
    assert (Rabs (R64 x - r) * / D <= e * / D)%R by (apply Rmult_le_compat_r; lra). unfold Rdiv in *. lra.
  - unfold Rdiv. rewrite Rabs_mult, (Rabs_right (/ D)) by lra. eapply Rle_trans; [|exact H3]. apply Rmult_le_compat_r; lra.
Qed.

(** The cubic in the local parameter. *)
Definition hermite_value (t va vb m0 m1 : R) : R :=
  (va * (2 * t ^ 3 - 3 * t ^ 2 + 1) + m0 * (t ^ 3 - 2 * t ^ 2 + t) + vb * (3 * t ^ 2 - 2 * t ^ 3) + m1 * (t ^ 3 - t ^ 2))%R.

Section Values.
  Variable M : R.
  Hypothesis HM : (1 <= M <= bpow radix2 100)%R.

  Lemma scale : (M * 100 <= bpow radix2 1000)%R /\ (100 <= bpow radix2 1000)%R.
  Proof.
    assert (bpow radix2 100 * 128 <= bpow radix2 1000)%R.
    { change 128%R with (bpow radix2 7). rewrite <- bpow_plus. apply bpow_le. lia. }
    assert (bpow radix2 0 <= bpow radix2 100)%R by (apply bpow_le; lia). change (bpow radix2 0) with 1%R in *. lra.
  Qed.

  Ltac small := pose proof ee_small; pose proof scale; 
    assert (0 < ee * M <= M / 1000000)%R by (split; [apply Rmult_lt_0_compat; lra|apply Rle_trans with (/ 1000000 * M)%R; [apply Rmult_le_compat_r; lra|lra]]);
    assert (0 < ee * ee <= ee / 1000000)%R by (split; [apply Rmult_lt_0_compat; lra|apply Rle_trans with (ee * / 1000000)%R; [apply Rmult_le_compat_l; lra|lra]]);
    assert (0 < ee * ee * M <= ee * M / 1000000)%R by (split; [apply Rmult_lt_0_compat; lra|apply Rle_trans with (ee / 1000000 * M)%R; [apply Rmult_le_compat_r; lra|lra]]).

  Lemma lerp_near t a b tau : near t tau ee 1 -> near a (R64 a) 0 M -> near b (R64 b) 0 M ->
    near (spline_lerp t a b) (R64 a * (1 - tau) + R64 b * tau)%R (320 * (ee * M)) (23 * M).
  Proof.
    intros Nt Na Nb. unfold spline_lerp. small.
    assert (N1 : near f1 1 0 1) by (rewrite <- f1_R; apply near_exact; [apply f1_finite|rewrite f1_R, Rabs_R1; lra]).
    assert (A1 : near (fsub f1 t) (1 - tau)%R (4 * ee) 2) by (apply (near_sub _ _ _ _ _ _ _ _ 3 _ _ N1 Nt); lra).
    assert (A2 : near (fmul a (fsub f1 t)) (R64 a * (1 - tau))%R (7 * (ee * M)) (2 * M)) by (apply (near_mul _ _ _ _ _ _ _ _ (3 * M) _ _ Na A1); lra).
    assert (A3 : near (fmul b t) (R64 b * tau)%R (3 * (ee * M)) M) by (apply (near_mul _ _ _ _ _ _ _ _ (2 * M) _ _ Nb Nt); lra).
    apply (near_add _ _ _ _ _ _ _ _ (4 * M) _ _ A2 A3); lra.
  Qed.

  Lemma tangent_near va vb D H : near va (R64 va) 0 M -> near vb (R64 vb) 0 M -> finite H -> (1 <= R64 H <= R64 D)%R -> (R64 D <= 1000)%R ->
    near (fmul (fdiv (fsub vb va) D) H) ((R64 vb - R64 va) / R64 D * R64 H)%R (8 * (ee * M)) (2 * M).
  Proof.
    intros Na Nb FH HD HD2. small. set (d := R64 D) in *. set (h := R64 H) in *. assert (Ip : (0 < / d)%R) by (apply Rinv_0_lt_compat; lra).
    assert (Hq : (/ d * h <= 1)%R). { apply Rmult_le_reg_l with d; [lra|]. rewrite <- Rmult_assoc, Rinv_r by lra. lra. }
    assert (Id1 : (/ 1000 <= / d <= 1)%R) by (split; [apply Rinv_le_contravar; lra|rewrite <- Rinv_1; apply Rinv_le_contravar; lra]).
    assert (A1 : near (fsub vb va) (R64 vb - R64 va)%R (2 * (ee * M)) (2 * M)) by (apply (near_sub _ _ _ _ _ _ _ _ (2 * M) _ _ Nb Na); lra).
    set (m := (M * / d)%R). assert (Hm : (/ 1000 <= m <= M)%R).
    { unfold m. split; [apply Rle_trans with (1 * / 1000)%R; [lra|apply Rmult_le_compat; lra]|apply Rle_trans with (M * 1)%R; [apply Rmult_le_compat_l; lra|lra]]. }
    assert (Em : (0 < ee * m)%R) by (apply Rmult_lt_0_compat; lra). assert (Em2 : (ee * ee * m <= ee * m / 1000000)%R) by (apply Rle_trans with (ee / 1000000 * m)%R; [apply Rmult_le_compat_r; lra|lra]).
    assert (Em3 : (ee * m <= m / 1000000)%R) by (apply Rle_trans with (/ 1000000 * m)%R; [apply Rmult_le_compat_r; lra|lra]).
    assert (A2 : near (fdiv (fsub vb va) D) ((R64 vb - R64 va) / d)%R (5 * (ee * m)) (2 * m)).
    { apply (near_div _ _ _ _ _ _ (5 / 2 * m) _ _ A1 eq_refl); unfold Rdiv; change (R64 D) with d; fold m; try lra.
      - replace ((2 * M + 2 * (ee * M)) * / d)%R with (2 * m + 2 * (ee * m))%R by (unfold m; ring). lra.
      - replace (2 * (ee * M) * / d)%R with (2 * (ee * m))%R by (unfold m; ring). lra.
      - replace (2 * M * / d)%R with (2 * m)%R by (unfold m; ring). lra. }
    assert (Hmh : (0 < m * h <= M)%R).
    { split; [apply Rmult_lt_0_compat; lra|]. unfold m. rewrite Rmult_assoc. apply Rle_trans with (M * 1)%R; [apply Rmult_le_compat_l; lra|lra]. }
    assert (Emh : (0 < ee * m * h <= ee * M)%R).
    { rewrite Rmult_assoc. split; [apply Rmult_lt_0_compat; lra|apply Rmult_le_compat_l; lra]. }
    assert (NH : near H h 0 h) by (apply near_exact; [exact FH|change (Rabs h <= h)%R; rewrite Rabs_right; lra]).
    apply (near_mul _ _ _ _ _ _ _ _ (5 / 2 * M) _ _ A2 NH); lra.
  Qed.

  Lemma hermite_near t x a b y tau : near t tau ee 1 -> near (k_v x) (R64 (k_v x)) 0 M -> near (k_v a) (R64 (k_v a)) 0 M ->
    near (k_v b) (R64 (k_v b)) 0 M -> near (k_v y) (R64 (k_v y)) 0 M -> finite (fsub (k_t b) (k_t a)) ->
    (1 <= R64 (fsub (k_t b) (k_t a)))%R ->
    (R64 (fsub (k_t b) (k_t a)) <= R64 (fsub (k_t b) (k_t x)) <= 1000)%R -> (R64 (fsub (k_t b) (k_t a)) <= R64 (fsub (k_t y) (k_t a)) <= 1000)%R ->
    near (cubic_hermite t x a b y)
      (hermite_value tau (R64 (k_v a)) (R64 (k_v b))
         ((R64 (k_v b) - R64 (k_v x)) / R64 (fsub (k_t b) (k_t x)) * R64 (fsub (k_t b) (k_t a)))
         ((R64 (k_v y) - R64 (k_v a)) / R64 (fsub (k_t y) (k_t a)) * R64 (fsub (k_t b) (k_t a)))) (320 * (ee * M)) (23 * M).
  Proof.
    intros Nt Nx Na Nb Ny FH H1 H2 H3. unfold cubic_hermite, hermite_value. small.
    set (m0 := fmul (fdiv (fsub (k_v b) (k_v x)) _) _). set (m1 := fmul (fdiv (fsub (k_v y) (k_v a)) _) _).
    assert (M0 := tangent_near _ _ (fsub (k_t b) (k_t x)) _ Nx Nb FH ltac:(lra) ltac:(lra)).
    assert (M1 := tangent_near _ _ (fsub (k_t y) (k_t a)) _ Na Ny FH ltac:(lra) ltac:(lra)). fold m0 in M0. fold m1 in M1.
    set (s0 := ((R64 (k_v b) - R64 (k_v x)) / _ * _)%R) in *. set (s1 := ((R64 (k_v y) - R64 (k_v a)) / _ * _)%R) in *.
    assert (N1 : near f1 1 0 1) by (rewrite <- f1_R; apply near_exact; [apply f1_finite|rewrite f1_R, Rabs_R1; lra]).
    assert (N2 : near (int_as_f64 2) 2 0 2).
    { destruct (int_as_f64_exact 2) as [R F]; [lia|]. change 2%R with (IZR 2) at 1. rewrite <- R. apply near_exact; [exact F|rewrite R, Rabs_right; lra]. }
    assert (N3 : near (int_as_f64 3) 3 0 3).
    { destruct (int_as_f64_exact 3) as [R F]; [lia|]. change 3%R with (IZR 3) at 1. rewrite <- R. apply near_exact; [exact F|rewrite R, Rabs_right; lra]. }
    set (two_t := fmul t (int_as_f64 2)). set (three_t := fmul t (int_as_f64 3)). set (t2 := fmul t t). set (t3 := fmul t2 t).
    set (two_t3 := fmul two_t t2). set (two_t2 := fmul two_t t). set (three_t2 := fmul three_t t).
    assert (A1 : near two_t (tau * 2)%R (5 * ee) 2) by (apply (near_mul _ _ _ _ _ _ _ _ (5 / 2) _ _ Nt N2); lra).
    assert (A2 : near three_t (tau * 3)%R (7 * ee) 3) by (apply (near_mul _ _ _ _ _ _ _ _ (7 / 2) _ _ Nt N3); lra).
    assert (A3 : near t2 (tau * tau)%R (4 * ee) 1) by (apply (near_mul _ _ _ _ _ _ _ _ (3 / 2) _ _ Nt Nt); lra).
    assert (A4 : near t3 (tau * tau * tau)%R (7 * ee) 1) by (apply (near_mul _ _ _ _ _ _ _ _ (3 / 2) _ _ A3 Nt); lra).
    assert (A5 : near two_t3 (tau * 2 * (tau * tau))%R (16 * ee) 2) by (apply (near_mul _ _ _ _ _ _ _ _ (5 / 2) _ _ A1 A3); lra).
    assert (A6 : near two_t2 (tau * 2 * tau)%R (10 * ee) 2) by (apply (near_mul _ _ _ _ _ _ _ _ (5 / 2) _ _ A1 Nt); lra).
    assert (A7 : near three_t2 (tau * 3 * tau)%R (14 * ee) 3) by (apply (near_mul _ _ _ _ _ _ _ _ (7 / 2) _ _ A2 Nt); lra).
    clearbody two_t three_t t2 t3 two_t3 two_t2 three_t2 m0 m1. clear A1 A2 N2 N3 Nx Ny.
    assert (B1 := near_sub _ _ _ _ _ _ _ _ (11 / 2) (36 * ee) 5 A5 A7 ltac:(lra) ltac:(lra) ltac:(lra) ltac:(lra)).
    assert (B2 := near_add _ _ _ _ _ _ _ _ (13 / 2) (43 * ee) 6 B1 N1 ltac:(lra) ltac:(lra) ltac:(lra) ltac:(lra)).
    assert (C1 := near_mul _ _ _ _ _ _ _ _ (13 / 2 * M) (50 * (ee * M)) (6 * M) Na B2 ltac:(lra) ltac:(lra) ltac:(lra) ltac:(lra)).
    assert (B3 := near_sub _ _ _ _ _ _ _ _ (7 / 2) (21 * ee) 3 A4 A6 ltac:(lra) ltac:(lra) ltac:(lra) ltac:(lra)).
    assert (B4 := near_add _ _ _ _ _ _ _ _ (9 / 2) (27 * ee) 4 B3 Nt ltac:(lra) ltac:(lra) ltac:(lra) ltac:(lra)).
    assert (C2 := near_mul _ _ _ _ _ _ _ _ (17 / 2 * M) (96 * (ee * M)) (8 * M) M0 B4 ltac:(lra) ltac:(lra) ltac:(lra) ltac:(lra)).
    assert (B5 := near_sub _ _ _ _ _ _ _ _ (11 / 2) (36 * ee) 5 A7 A5 ltac:(lra) ltac:(lra) ltac:(lra) ltac:(lra)).
    assert (C3 := near_mul _ _ _ _ _ _ _ _ (11 / 2 * M) (43 * (ee * M)) (5 * M) Nb B5 ltac:(lra) ltac:(lra) ltac:(lra) ltac:(lra)).
    assert (B6 := near_sub _ _ _ _ _ _ _ _ (5 / 2) (14 * ee) 2 A4 A3 ltac:(lra) ltac:(lra) ltac:(lra) ltac:(lra)).
    assert (C4 := near_mul _ _ _ _ _ _ _ _ (9 / 2 * M) (50 * (ee * M)) (4 * M) M1 B6 ltac:(lra) ltac:(lra) ltac:(lra) ltac:(lra)).
    assert (D1 := near_add _ _ _ _ _ _ _ _ (29 / 2 * M) (162 * (ee * M)) (14 * M) C1 C2 ltac:(lra) ltac:(lra) ltac:(lra) ltac:(lra)).
    assert (D2 := near_add _ _ _ _ _ _ _ _ (39 / 2 * M) (226 * (ee * M)) (19 * M) D1 C3 ltac:(lra) ltac:(lra) ltac:(lra) ltac:(lra)).
    assert (D3 := near_add _ _ _ _ _ _ _ _ (47 / 2 * M) (320 * (ee * M)) (23 * M) D2 C4 ltac:(lra) ltac:(lra) ltac:(lra) ltac:(lra)).
    replace (R64 (k_v a) * (2 * tau ^ 3 - 3 * tau ^ 2 + 1) + s0 * (tau ^ 3 - 2 * tau ^ 2 + tau) + R64 (k_v b) * (3 * tau ^ 2 - 2 * tau ^ 3) + s1 * (tau ^ 3 - tau ^ 2))%R
      with (R64 (k_v a) * (tau * 2 * (tau * tau) - tau * 3 * tau + 1) + s0 * (tau * tau * tau - tau * 2 * tau + tau) + R64 (k_v b) * (tau * 3 * tau - tau * 2 * (tau * tau)) + s1 * (tau * tau * tau - tau * tau))%R by ring.
    exact D3.
  Qed.
End Values.

(** *** Cubic curves *)
Definition cubic (c0 c1 c2 c3 t : R) : R := (c0 + c1 * t + c2 * t ^ 2 + c3 * t ^ 3)%R.
Lemma cubic_slope c0 c1 c2 c3 q x : (forall t, q t = cubic c0 c1 c2 c3 t) -> derivable_pt_lim q x (c1 + 2 * c2 * x + 3 * c3 * x ^ 2)%R.
Proof.
  intros Hq. assert (E : forall t, q t = ((fct_cte c0 + mult_real_fct c1 id) + mult_real_fct c2 (fun t => (t ^ 2)%R) + mult_real_fct c3 (fun t => (t ^ 3)%R))%F t).
  { intros t. rewrite Hq. unfold cubic, plus_fct, fct_cte, mult_real_fct, id. ring. }
  intros eps He. assert (D : derivable_pt_lim ((fct_cte c0 + mult_real_fct c1 id) + mult_real_fct c2 (fun t => (t ^ 2)%R) + mult_real_fct c3 (fun t => (t ^ 3)%R))%F x
     ((0 + c1 * 1) + c2 * (INR 2 * x ^ Init.Nat.pred 2) + c3 * (INR 3 * x ^ Init.Nat.pred 3))%R).
  { repeat apply derivable_pt_lim_plus; [apply derivable_pt_lim_const|apply derivable_pt_lim_scal, derivable_pt_lim_id|apply derivable_pt_lim_scal, derivable_pt_lim_pow|apply derivable_pt_lim_scal, derivable_pt_lim_pow]. }
  replace (c1 + 2 * c2 * x + 3 * c3 * x ^ 2)%R with ((0 + c1 * 1) + c2 * (INR 2 * x ^ Init.Nat.pred 2) + c3 * (INR 3 * x ^ Init.Nat.pred 3))%R by (cbn [INR Init.Nat.pred]; ring).
  destruct (D eps He) as [delta Hd]. exists delta. intros h Hh Hl. rewrite !E. now apply Hd.
Qed.

Lemma cubic_is_hermite c0 c1 c2 c3 a b t : a <> b ->
  cubic c0 c1 c2 c3 t = hermite_value ((t - a) / (b - a)) (cubic c0 c1 c2 c3 a) (cubic c0 c1 c2 c3 b)
    ((c1 + 2 * c2 * a + 3 * c3 * a ^ 2) * (b - a)) ((c1 + 2 * c2 * b + 3 * c3 * b ^ 2) * (b - a)).
Proof. intros H. unfold cubic, hermite_value. field. lra. Qed.

Lemma hermite_unique a va sa b vb sb q t : a <> b -> hermite_curve a va sa b vb sb q ->
  q t = hermite_value ((t - a) / (b - a)) va vb (sa * (b - a)) (sb * (b - a)).
Proof.
  intros Hab ((c0 & c1 & c2 & c3 & Hq) & Ha & Hb & Da & Db). fold (cubic c0 c1 c2 c3) in Hq.
  assert (Hq' : forall t, q t = cubic c0 c1 c2 c3 t) by exact Hq.
  rewrite <- (uniqueness_limite _ _ _ _ (cubic_slope _ _ _ _ _ a Hq') Da), <- (uniqueness_limite _ _ _ _ (cubic_slope _ _ _ _ _ b Hq') Db).
  rewrite <- Ha, <- Hb, !Hq'. now apply cubic_is_hermite.
Qed.

Lemma hermite_exists a va sa b vb sb : a <> b ->
  hermite_curve a va sa b vb sb (fun t => hermite_value ((t - a) / (b - a)) va vb (sa * (b - a)) (sb * (b - a))).
Proof.
  intros Hab. set (h := (b - a)%R). assert (Hh : h <> 0%R) by (unfold h; lra).
  set (A := ((3 * (vb - va) / h - 2 * sa - sb) / h)%R). set (B := ((2 * (va - vb) / h + sa + sb) / (h * h))%R).
  set (q := fun t => hermite_value ((t - a) / h) va vb (sa * h) (sb * h)).
  assert (Hq : forall t, q t = cubic (va - sa * a + A * a ^ 2 - B * a ^ 3) (sa - 2 * a * A + 3 * a ^ 2 * B) (A - 3 * a * B) B t).
  { intros t. unfold q, hermite_value, cubic, A, B. field. exact Hh. }
  split; [do 4 eexists; exact Hq|]. split; [unfold q, hermite_value; field; exact Hh|]. split; [change (q b = vb); unfold q, hermite_value; replace (b - a)%R with h by reflexivity; replace (h / h)%R with 1%R by (field; exact Hh); ring|].
  assert (Eb : b = (a + h)%R) by (unfold h; ring).
  split.
  - assert (D := cubic_slope _ _ _ _ _ a Hq). match type of D with derivable_pt_lim _ _ ?l => replace l with sa in D by ring end. exact D.
  - assert (D := cubic_slope _ _ _ _ _ b Hq). match type of D with derivable_pt_lim _ _ ?l => replace l with sb in D end; [exact D|].
    rewrite Eb. unfold A, B. field. exact Hh.
Qed.

(** A cubic Hermite curve through points of a line with its slope is the line. *)
Lemma hermite_line a b c d t : a <> b ->
  hermite_value ((t - a) / (b - a)) (c + d * a) (c + d * b) (d * (b - a)) (d * (b - a)) = (c + d * t)%R.
Proof. intros H. unfold hermite_value. field. lra. Qed.

(** *** Sampling between two keys *)
Lemma search_between total ps vs a b z : positions_ok ps -> a < z < b -> b <= 2 ^ 53 -> forall i i0 j,
  nth_error ps j = Some a -> nth_error ps (S j) = Some b -> length ps = length vs ->
  search_keys (build_keys total i ps vs) (int_as_f64 z) i0 = Ins (i0 + S j).
Proof.
  intros [Hs Hr] Hz Hb. revert vs. induction ps as [|c ps IH]; intros vs i i0 j Hj Hj1 Hl; [destruct j; discriminate|].
  destruct vs as [|v vs]; [discriminate|]. cbn [build_keys search_keys k_t].
  assert (Ha : 0 <= a) by (rewrite Forall_forall in Hr; apply Hr; eapply nth_error_In; eauto).
  assert (Hc : 0 <= c <= a).
  { split; [inversion Hr; lia|]. destruct j; [injection Hj as ->; lia|]. assert (c < a); [|lia]. eapply (sorted_nth_lt (c :: ps) 0 (S j)); eauto; lia || reflexivity. }
  rewrite int_as_f64_inj by lia. replace (c =? z) with false by lia.
  assert (Hlt : flt (int_as_f64 c) (int_as_f64 z) = true).
  { destruct (int_as_f64_exact c) as [R1 F1]; [lia|]. destruct (int_as_f64_exact z) as [R2 F2]; [lia|]. apply flt_R; try assumption. rewrite R1, R2. apply IZR_lt. lia. }
  rewrite Hlt. destruct j as [|j].
  - cbn [nth_error] in Hj1. destruct ps as [|b' ps]; [discriminate|]. injection Hj1 as ->. destruct vs as [|v' vs]; [discriminate|]. cbn [build_keys search_keys k_t].
    assert (0 <= b) by lia. rewrite int_as_f64_inj by lia. replace (b =? z) with false by lia.
    assert (Hge : flt (int_as_f64 b) (int_as_f64 z) = false).
    { destruct (flt (int_as_f64 b) (int_as_f64 z)) eqn:E; [|reflexivity]. destruct (int_as_f64_exact b) as [R1 F1]; [lia|]. destruct (int_as_f64_exact z) as [R2 F2]; [lia|].
      apply flt_R in E; try assumption. rewrite R1, R2 in E. apply lt_IZR in E. lia. }
    rewrite Hge. f_equal. lia.
  - inversion Hs; inversion Hr; subst. rewrite (IH H1 H6 vs (S i) (S i0) j); [f_equal; lia|exact Hj|exact Hj1|cbn in Hl; lia].
Qed.

Section Between.
  Variables (ps : list Z) (vs : list f64) (M : R).
  Hypothesis Hps : positions_ok ps.
  Hypothesis Hlen : length ps = length vs.
  Hypothesis HM : (1 <= M <= bpow radix2 60)%R.
  Hypothesis Hvs : Forall (fun v => finite v /\ (Rabs (R64 v) <= M)%R) vs.
  Let keys := build_keys (length ps) 0 ps vs.

  Lemma vs_ok : values_ok vs.
  Proof.
    unfold values_ok. eapply Forall_impl; [|exact Hvs]. intros v (F & B). split; [exact F|]. eapply Rle_trans; [exact B|]. eapply Rle_trans; [apply HM|]. apply bpow_le. lia.
  Qed.

  Lemma key_at j z v : nth_error ps j = Some z -> nth_error vs j = Some v -> exists k, nth_error keys j = Some k /\
    k_t k = int_as_f64 z /\ k_v k = v /\ k_i k = (if (0 <? j)%nat && (2 <? length ps - j)%nat then ICatmullRom else ILinear) /\ near v (R64 v) 0 M /\ 0 <= z <= 2 ^ 53.
  Proof.
    intros Hz Hv. destruct (key_exists ps vs Hlen j) as [k Hk]; [apply nth_error_Some; congruence|]. destruct (key_props ps vs Hps vs_ok j k Hk) as (z' & Hz' & Hv' & Ht & Hr & _ & Hi).
    exists k. split; [exact Hk|]. assert (z' = z) by congruence. subst z'. assert (k_v k = v) by congruence. repeat (split; [assumption|]). split; [|exact Hr].
    rewrite Forall_forall in Hvs. destruct (Hvs v) as [F B]; [eapply nth_error_In; eauto|]. now apply near_exact.
  Qed.

  Lemma sample_between j a b z va vb : nth_error ps j = Some a -> nth_error ps (S j) = Some b -> a < z < b ->
    nth_error vs j = Some va -> nth_error vs (S j) = Some vb ->
    ((j = 0%nat \/ S (S j) = length ps) -> exists w, clamped_sample keys (int_as_f64 z) = Some w /\
       near w (straight (IZR a) (R64 va) (IZR b) (R64 vb) (IZR z)) (320 * (ee * M)) (23 * M)) /\
    ((0 < j)%nat -> forall x y vx vy, nth_error ps (j - 1) = Some x -> nth_error ps (S (S j)) = Some y -> b - x <= 1000 -> y - a <= 1000 ->
       nth_error vs (j - 1) = Some vx -> nth_error vs (S (S j)) = Some vy ->
       exists w, clamped_sample keys (int_as_f64 z) = Some w /\
         near w (hermite_value ((IZR z - IZR a) / (IZR b - IZR a)) (R64 va) (R64 vb)
           ((R64 vb - R64 vx) / (IZR b - IZR x) * (IZR b - IZR a)) ((R64 vy - R64 va) / (IZR y - IZR a) * (IZR b - IZR a))) (320 * (ee * M)) (23 * M)).
  Proof.
    intros Ha Hb Hz Hva Hvb. destruct (key_at _ _ _ Ha Hva) as (ka & Ka & Ta & Va & Ia & Na & Ra). destruct (key_at _ _ _ Hb Hvb) as (kb & Kb & Tb & Vb & Ib & Nb & Rb).
    assert (Lj : (S j < length ps)%nat) by (apply nth_error_Some; congruence).
    assert (HM' : (1 <= M <= bpow radix2 100)%R) by (split; [apply HM|]; eapply Rle_trans; [apply HM|apply bpow_le; lia]).
    assert (Hsp : forall w, spline_sample keys (int_as_f64 z) = Some w -> clamped_sample keys (int_as_f64 z) = Some w).
    { intros w Hw. unfold clamped_sample. rewrite Hw. destruct keys; [destruct j; discriminate|reflexivity]. }
    assert (Hlow : search_lower_cp keys (int_as_f64 z) = Some j).
    { unfold search_lower_cp, keys. rewrite build_keys_length by exact Hlen. replace (length ps <? 2)%nat with false by lia.
      rewrite (search_between _ ps vs a b z Hps Hz (proj2 Rb) 0 0 j Ha Hb Hlen). cbn [Nat.add]. replace (length ps <=? S j)%nat with false by lia. reflexivity. }
    assert (Hnt : near (fdiv (fsub (int_as_f64 z) (k_t ka)) (fsub (k_t kb) (k_t ka))) ((IZR z - IZR a) / (IZR b - IZR a)) ee 1).
    { rewrite Ta, Tb. destruct (fsub_int z a) as [Fz Rz]; try lia. destruct (fsub_int b a) as [Fb Rba]; try lia. rewrite minus_IZR in Rz, Rba.
      assert (G1 : (1 <= IZR b - IZR a)%R) by (rewrite <- minus_IZR; apply IZR_le; lia).
      assert (G2 : (0 <= IZR z - IZR a <= IZR b - IZR a)%R) by (rewrite <- !minus_IZR; split; apply IZR_le; lia).
      assert (Nz : near (fsub (int_as_f64 z) (int_as_f64 a)) (IZR z - IZR a) 0 (IZR b - IZR a)).
      { rewrite <- Rz. apply near_exact; [exact Fz|]. rewrite Rz, Rabs_right; lra. }
      pose proof ee_small. pose proof (scale M HM') as [_ Sc].
      assert (Q : ((IZR b - IZR a) / (IZR b - IZR a) = 1)%R) by (apply Rinv_r; lra).
      apply (near_div _ _ _ _ _ _ 1 _ _ Nz Rba G1); rewrite ?Rplus_0_r, ?Q; unfold Rdiv; lra. }
    split.
    - intros Hj. eexists. split; [apply Hsp; unfold spline_sample; rewrite Hlow, Ka, Kb, Ia; replace ((0 <? j)%nat && (2 <? length ps - j)%nat) with false by lia; reflexivity|].
      rewrite Va, Vb. replace (straight (IZR a) (R64 va) (IZR b) (R64 vb) (IZR z)) with (R64 va * (1 - (IZR z - IZR a) / (IZR b - IZR a)) + R64 vb * ((IZR z - IZR a) / (IZR b - IZR a)))%R by (unfold straight; ring).
      apply lerp_near; assumption.
    - intros Hj x y vx vy Hx Hy Dx Dy Hvx Hvy. destruct (key_at _ _ _ Hx Hvx) as (kx & Kx & Tx & Vx & _ & Nx & Rx). destruct (key_at _ _ _ Hy Hvy) as (ky & Ky & Ty & Vy & _ & Ny & Ry).
      assert (Ly : (S (S j) < length ps)%nat) by (apply nth_error_Some; congruence).
      assert (x < a) by (destruct Hps as [Hs _]; eapply (sorted_nth_lt ps (j - 1) j); eauto; lia). assert (b < y) by (destruct Hps as [Hs _]; eapply (sorted_nth_lt ps (S j) (S (S j))); eauto; lia).
      assert (Kl : length keys = length ps) by (apply build_keys_length; exact Hlen).
      eexists. split.
      { apply Hsp. unfold spline_sample. rewrite Hlow, Ka, Kb, Ia. replace ((0 <? j)%nat && (2 <? length ps - j)%nat) with true by lia. rewrite Kl.
        replace ((j =? 0)%nat || (length ps - 2 <=? j)%nat) with false by lia. rewrite Kx, Ky. reflexivity. }
      subst va vb vx vy. destruct (fsub_int b a) as [Fba Rba]; try lia. destruct (fsub_int b x) as [Fbx Rbx]; try lia. destruct (fsub_int y a) as [Fya Rya]; try lia.
      assert (Hn := hermite_near M HM' _ kx ka kb ky _ Hnt Nx Na Nb Ny). rewrite Ta, Tb, Tx, Ty in *. rewrite Rba, Rbx, Rya, !minus_IZR in Hn. apply Hn; try exact Fba; rewrite <- !minus_IZR; repeat split; apply IZR_le; lia.
  Qed.
End Between.
