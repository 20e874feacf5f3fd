(** C09: the mean of the series statistics; C53: the two normalised metrics. *)
From Coq Require Import List ZArith Bool Lia Reals Lra ZifyBool.
From Flocq Require Import Core Plus_error Relative IEEE754.BinarySingleNaN IEEE754.Binary IEEE754.Bits.
From Verif Require Import Base Model_Float Model_Bincode BincodeFacts Spec Spec_Metric FloatFacts ArithFacts Model_Utils Model_Stats MetricFacts PolyApiFacts ExactFacts AccuracyFacts.
Import ListNotations.
Open Scope Z_scope.

(** The exact sum and mean of a series, and the mean of its absolute values. *)
Definition exact_mean (data : list f64) : R := (fold_right Rplus 0 (map R64 data) / INR (length data))%R.
Definition mean_absolute (data : list f64) : R := (fold_right Rplus 0 (map (fun x => Rabs (R64 x)) data) / INR (length data))%R.

Lemma fadd_fin x y : finite y -> finite (fadd x y) -> finite x /\ R64 (fadd x y) = rnd64 (R64 x + R64 y).
Proof.
  intros Fy F. assert (Fx : finite x).
  { destruct x as [s|s|s pl H|s m e H]; try reflexivity; exfalso; destruct y as [s'|s'|s' pl' H'|s' m' e' H']; discriminate. }
  split; [exact Fx|]. destruct (Rlt_or_le (Rabs (rnd64 (R64 x + R64 y))) (bpow radix2 1024)) as [H|H]; [now apply fadd_R|exfalso].
  pose proof (Binary.Bplus_correct 53 1024 eq_refl eq_refl binop_nan_pl64 mode_NE x y Fx Fy) as C. cbn [round_mode] in C.
  rewrite Rlt_bool_false in C by exact H. destruct C as [C _]. unfold finite, fis_finite, fadd, b64_plus in F.
  destruct (Binary.Bplus 53 1024 _ _ _ mode_NE x y); unfold Binary.B2FF, binary_overflow in C; cbn in C, F; discriminate.
Qed.

Lemma sum_error l acc : Forall finite l -> finite (fold_left fadd l acc) ->
  finite acc /\
  (Rabs (R64 (fold_left fadd l acc) - (R64 acc + sumR (map R64 l))) <= ((1 + u) ^ length l - 1) * (Rabs (R64 acc) + sumR (map (fun x => Rabs (R64 x)) l)))%R.
Proof.
  assert (P := u_pos). intros Hl. revert acc. induction Hl as [|x l Fx Hl IH]; intros acc F; cbn [fold_left length map sumR fold_right] in *.
  - split; [exact F|]. replace (R64 acc - (R64 acc + 0))%R with 0%R by ring. rewrite Rabs_R0. cbn. lra.
  - destruct (IH _ F) as [Fs B]. destruct (fadd_fin _ _ Fx Fs) as [Fa E]. split; [exact Fa|].
    destruct (rnd_plus (R64 acc) (R64 x) (fmt acc) (fmt x)) as (d & Hd & Ed). rewrite E, Ed in B.
    change (fold_right Rplus 0%R) with sumR in *. cbn [pow].
    assert (U1 := up_ge1 (length l)). set (U := ((1 + u) ^ length l)%R) in *. set (a := R64 acc) in *. set (b := R64 x) in *. set (q := sumR (map R64 l)) in *.
    set (Q := sumR (map (fun x => Rabs (R64 x)) l)) in *. set (r := R64 (fold_left fadd l (fadd acc x))) in *.
    assert (Q0 : (0 <= Q)%R).
    { unfold Q. clear. induction l as [|y l IH]; [cbn; lra|]. cbn [map sumR fold_right]. change (fold_right Rplus 0%R) with sumR. assert (A := Rabs_pos (R64 y)). lra. }
    assert (T := Rabs_triang a b). assert (PA := Rabs_pos (a + b)). assert (PA1 := Rabs_pos a). assert (PB := Rabs_pos b).
    assert (D1 : (Rabs ((a + b) * (1 + d)) <= Rabs (a + b) * (1 + u))%R).
    { rewrite Rabs_mult. apply Rmult_le_compat_l; [exact PA|]. apply Rabs_le_inv in Hd. apply Rabs_le. lra. }
    replace (r - (a + (b + q)))%R with ((r - ((a + b) * (1 + d) + q)) + (a + b) * d)%R by ring.
    eapply Rle_trans; [apply Rabs_triang|]. rewrite (Rabs_mult (a + b) d).
    assert (D2 : (Rabs (a + b) * Rabs d <= (Rabs a + Rabs b) * u)%R) by (apply Rmult_le_compat; auto using Rabs_pos).
    assert (D3 : ((U - 1) * (Rabs ((a + b) * (1 + d)) + Q) <= (U - 1) * ((Rabs a + Rabs b) * (1 + u) + Q))%R).
    { apply Rmult_le_compat_l; [lra|]. assert (Rabs (a + b) * (1 + u) <= (Rabs a + Rabs b) * (1 + u))%R by (apply Rmult_le_compat_r; lra). lra. }
    assert (D4 : ((U - 1) * Q <= ((1 + u) * U - 1) * Q)%R) by (apply Rmult_le_compat_r; [exact Q0|nra]).
    nra.
Qed.

Lemma scan_sum l : forall s, sc_sum (fold_left scan_step l s) = fold_left fadd l (sc_sum s).
Proof. induction l as [|x l IH]; intros s; cbn [fold_left]; [reflexivity|]. rewrite IH. reflexivity. Qed.
Lemma mean_is data st : data_stats data = Ok st -> st_mean st = fdiv (fsum data) (int_as_f64 (Z.of_nat (length data))).
Proof.
  destruct data as [|d0 data]; [discriminate|]. unfold data_stats. intros H. apply ok_inj in H. subst st. cbn [st_mean].
  rewrite scan_sum. cbn [sc_sum]. reflexivity.
Qed.
Lemma finite_quotient x N : finite N -> R64 N <> 0%R -> finite (fdiv x N) -> finite x /\ R64 (fdiv x N) = rnd64 (R64 x / R64 N).
Proof.
  intros FN NZ F. assert (Fx := fdiv_finite_l _ _ F FN). split; [exact Fx|]. apply fdiv_R; [exact Fx|exact NZ|].
  destruct (Rlt_or_le (Rabs (rnd64 (R64 x / R64 N))) (bpow radix2 1024)) as [H|H]; [exact H|exfalso].
  pose proof (Binary.Bdiv_correct 53 1024 eq_refl eq_refl binop_nan_pl64 mode_NE x N NZ) as HB.
  cbn [round_mode] in HB. change (round radix2 (SpecFloat.fexp 53 1024) ZnearestE) with rnd64 in HB. change (Binary.B2R 53 1024) with R64 in HB.
  rewrite Rlt_bool_false in HB by exact H. unfold finite, fis_finite, fdiv, b64_div in F. unfold Binary.binary_overflow, binary_overflow in HB. cbn [BinarySingleNaN.overflow_to_inf] in HB.
  destruct (Binary.Bdiv 53 1024 _ _ _ mode_NE x N); cbn in F, HB; discriminate.
Qed.

(** *** C09 *)
(** A finite mean is the exact mean up to [(n+2) 2^-52] of the mean absolute value. *)
Theorem C09_mean_accurate : forall data st,
  data <> [] -> Z.of_nat (length data) <= 2 ^ 50 -> Forall finite data -> data_stats data = Ok st -> finite (st_mean st) ->
  (Rabs (R64 (st_mean st) - exact_mean data) <= INR (length data + 2) * / IZR (2 ^ 52) * mean_absolute data + bpow radix2 (-1075))%R.
Proof.
  intros data st Hne Hn Hf Hst F. rewrite (mean_is _ _ Hst) in *. assert (P := u_pos).
  assert (N1 : (1 <= INR (length data))%R).
  { destruct data as [|x l']; [congruence|]. cbn [length]. rewrite S_INR. assert (0 <= INR (length l'))%R by apply pos_INR. lra. }
  assert (NB : (INR (length data) <= bpow radix2 50)%R) by (rewrite INR_IZR_INZ, <- (IZR_Zpower radix2) by lia; apply IZR_le; exact Hn).
  destruct (int_as_f64_exact (Z.of_nat (length data)) ltac:(lia)) as [RN FN]. rewrite <- INR_IZR_INZ in RN.
  destruct (finite_quotient (fsum data) _ FN ltac:(rewrite RN; lra) F) as [Fs E]. rewrite E, RN.
  destruct (sum_error data f0 Hf Fs) as [_ B]. rewrite f0_R, Rplus_0_l, Rabs_R0, Rplus_0_l in B. fold (fsum data) in B.
  unfold exact_mean, mean_absolute. change (fold_right Rplus 0%R) with sumR. set (n := INR (length data)) in *.
  destruct (rnd_rel (R64 (fsum data) / n)) as (d & h & Hd & Hh & ->). set (s := R64 (fsum data)) in *. set (q := sumR (map R64 data)) in *.
  set (Q := sumR (map (fun x => Rabs (R64 x)) data)) in *.
  assert (QQ : (Rabs q <= Q)%R).
  { unfold q, Q. clear. induction data as [|y l IH]; [cbn; rewrite Rabs_R0; lra|]. cbn [map sumR fold_right]. change (fold_right Rplus 0%R) with sumR.
    eapply Rle_trans; [apply Rabs_triang|]. lra. }
  assert (Up := up_pow (length data + 2)). rewrite plus_INR in Up |- *. fold n in Up |- *. change (INR 2) with 2%R in *.
  assert (NU : ((n + 2) * u <= / 4)%R).
  { apply Rle_trans with (bpow radix2 51 * u)%R; [|rewrite <- bpow_plus; change (/ 4)%R with (bpow radix2 (-2)); apply bpow_le; lia].
    apply Rmult_le_compat_r; [lra|]. change 51 with (1 + 50). rewrite bpow_plus. change (bpow radix2 1) with 2%R.
    assert (bpow radix2 1 <= bpow radix2 50)%R by (apply bpow_le; lia). change (bpow radix2 1) with 2%R in *. lra. }
  specialize (Up ltac:(lra)). rewrite pow_add in Up. assert (U1 := up_ge1 (length data)). set (U := ((1 + u) ^ length data)%R) in *.
  assert (U2 : (/ IZR (2 ^ 52) = 2 * u)%R).
  { change (IZR (2 ^ 52)) with (IZR (radix2 ^ 52)). rewrite (IZR_Zpower radix2) by lia. rewrite <- bpow_opp. change (- (52)) with (1 + -53). rewrite bpow_plus. reflexivity. }
  rewrite U2. assert (IN : (0 < / n)%R) by (apply Rinv_0_lt_compat; lra).
  assert (Q0 : (0 <= Q)%R) by (eapply Rle_trans; [apply Rabs_pos|exact QQ]).
  assert (SB : (Rabs s <= U * Q)%R).
  { replace s with ((s - q) + q)%R by ring. eapply Rle_trans; [apply Rabs_triang|]. nra. }
  assert (M : (Rabs (s / n * (1 + d) + h - q / n) <= (Rabs (s - q) + u * Rabs s) * / n + eta)%R).
  { replace (s / n * (1 + d) + h - q / n)%R with (((s - q) + s * d) * / n + h)%R by (unfold Rdiv; ring).
    eapply Rle_trans; [apply Rabs_triang|]. apply Rplus_le_compat; [|exact Hh]. rewrite Rabs_mult, (Rabs_right (/ n)) by lra.
    apply Rmult_le_compat_r; [lra|]. eapply Rle_trans; [apply Rabs_triang|]. apply Rplus_le_compat_l. rewrite Rabs_mult, Rmult_comm.
    apply Rmult_le_compat_r; [apply Rabs_pos|exact Hd]. }
  eapply Rle_trans; [exact M|]. apply Rplus_le_compat_r. unfold Rdiv. rewrite <- Rmult_assoc. apply Rmult_le_compat_r; [lra|].
  assert (S1 : (Rabs (s - q) + u * Rabs s <= (U * (1 + u) - 1) * Q)%R) by nra.
  eapply Rle_trans; [exact S1|]. apply Rmult_le_compat_r; [exact Q0|]. cbn [pow] in Up. nra.
Qed.
Print Assumptions C09_mean_accurate.

Lemma scaled_format k : 0 <= k <= 2 ^ 53 -> generic_format radix2 (FLT_exp (-1074) 53) (IZR k * bpow radix2 900).
Proof.
  intros Hk. destruct (Z.eq_dec k 0) as [->|Hnz]; [rewrite Rmult_0_l; apply generic_format_0|].
  destruct (Z.eq_dec k (2 ^ 53)) as [->|Hlt].
  - change (IZR (2 ^ 53)) with (IZR (radix2 ^ 53)). rewrite (IZR_Zpower radix2), <- bpow_plus by lia. apply generic_format_bpow. unfold FLT_exp. lia.
  - apply generic_format_FLT. exists (Float radix2 k 900); [reflexivity| |]; cbn [Fnum Fexp]; [|lia]. change (radix2 ^ 53) with (2 ^ 53). lia.
Qed.
Lemma sum_moderate l : forall acc k, 0 <= k -> k + Z.of_nat (length l) <= 2 ^ 53 -> finite acc -> (Rabs (R64 acc) <= IZR k * bpow radix2 900)%R ->
  Forall (fun x => finite x /\ (Rabs (R64 x) <= bpow radix2 900)%R) l ->
  finite (fold_left fadd l acc) /\ (Rabs (R64 (fold_left fadd l acc)) <= bpow radix2 953)%R.
Proof.
  induction l as [|x l IH]; intros acc k Hk Hn Fa Ba Hl; cbn [fold_left length] in *.
  - split; [exact Fa|]. eapply Rle_trans; [exact Ba|]. change 953 with (53 + 900). rewrite bpow_plus. apply Rmult_le_compat_r; [apply bpow_ge_0|].
    rewrite <- (IZR_Zpower radix2) by lia. apply IZR_le. change (radix2 ^ 53) with (2 ^ 53). lia.
  - inversion Hl as [|? ? [Fx Bx] H2]; subst.
    assert (B : (Rabs (rnd64 (R64 acc + R64 x)) <= IZR (k + 1) * bpow radix2 900)%R).
    { apply abs_round_le_generic; [apply fexp64_valid|apply valid_rnd_N|apply scaled_format; lia|].
      eapply Rle_trans; [apply Rabs_triang|]. rewrite plus_IZR. lra. }
    assert (B' : (IZR (k + 1) * bpow radix2 900 < bpow radix2 1024)%R).
    { apply Rle_lt_trans with (bpow radix2 953); [|apply bpow_lt; lia]. change 953 with (53 + 900). rewrite bpow_plus. apply Rmult_le_compat_r; [apply bpow_ge_0|].
      rewrite <- (IZR_Zpower radix2) by lia. apply IZR_le. change (radix2 ^ 53) with (2 ^ 53). lia. }
    destruct (fadd_R acc x Fa Fx ltac:(lra)) as [E F]. apply (IH (fadd acc x) (k + 1)); auto; try lia. rewrite E. exact B.
Qed.
(** The mean of moderate samples is finite. *)
Theorem C09_mean_finite : forall data st,
  data <> [] -> Z.of_nat (length data) <= 2 ^ 50 -> Forall (fun x => finite x /\ (Rabs (R64 x) <= bpow radix2 900)%R) data ->
  data_stats data = Ok st -> finite (st_mean st).
Proof.
  intros data st Hne Hn Hl Hst. rewrite (mean_is _ _ Hst).
  destruct (sum_moderate data f0 0 ltac:(lia) ltac:(lia) eq_refl) as [F B]; [rewrite f0_R, Rabs_R0; lra|exact Hl|].
  assert (L : 1 <= Z.of_nat (length data)) by (destruct data; [congruence|cbn; lia]).
  destruct (int_as_f64_exact (Z.of_nat (length data)) ltac:(lia)) as [RN FN].
  assert (D : bnd (953 - 0) (fdiv (fsum data) (int_as_f64 (Z.of_nat (length data))))); [|apply D].
  apply bnd_div; [split; [exact F|exact B]| |lia]. rewrite RN. rewrite Rabs_right by (apply Rle_ge, IZR_le; lia). apply (IZR_le 1). lia.
Qed.
Print Assumptions C09_mean_finite.
Example C09_mean_example : exists st, data_stats (map int_as_f64 [1; 2; 4; 5]) = Ok st /\ to_bits (st_mean st) = to_bits (int_as_f64 3).
Proof. eexists. split; [reflexivity|]. vm_compute. reflexivity. Qed.
