(** Facts about the discrete Fourier transform over the reals: inversion, Parseval's identity for partial sums, choice of the largest frequencies. *)
From Coq Require Import Reals Lra Lia Arith Bool.
From Verif Require Import Spec_Fourier.
Open Scope R_scope.

Lemma sum_ext n f g : (forall i, (i < n)%nat -> f i = g i) -> sum_to n f = sum_to n g.
Proof. induction n as [|n IH]; intros H; cbn [sum_to]; [reflexivity|]. rewrite IH, H by (intros; try apply H; lia). reflexivity. Qed.
Lemma sum_zero n : sum_to n (fun _ => 0) = 0.
Proof. induction n as [|n IH]; cbn [sum_to]; [reflexivity|]. rewrite IH. ring. Qed.
Lemma sum_plus n f g : sum_to n (fun i => f i + g i) = sum_to n f + sum_to n g.
Proof. induction n as [|n IH]; cbn [sum_to]; [ring|]. rewrite IH. ring. Qed.
Lemma sum_minus n f g : sum_to n (fun i => f i - g i) = sum_to n f - sum_to n g.
Proof. induction n as [|n IH]; cbn [sum_to]; [ring|]. rewrite IH. ring. Qed.
Lemma sum_scal n c f : sum_to n (fun i => c * f i) = c * sum_to n f.
Proof. induction n as [|n IH]; cbn [sum_to]; [ring|]. rewrite IH. ring. Qed.
Lemma sum_scal_r n c f : sum_to n (fun i => f i * c) = sum_to n f * c.
Proof. induction n as [|n IH]; cbn [sum_to]; [ring|]. rewrite IH. ring. Qed.
Lemma sum_const n c : sum_to n (fun _ => c) = INR n * c.
Proof. induction n as [|n IH]; cbn [sum_to]; [cbn; ring|]. rewrite IH, S_INR. ring. Qed.
Lemma sum_swap n m f : sum_to n (fun i => sum_to m (fun j => f i j)) = sum_to m (fun j => sum_to n (fun i => f i j)).
Proof. induction n as [|n IH]; cbn [sum_to]; [now rewrite sum_zero|]. rewrite IH, sum_plus. reflexivity. Qed.
Lemma sum_le n f g : (forall i, (i < n)%nat -> f i <= g i) -> sum_to n f <= sum_to n g.
Proof. induction n as [|n IH]; intros H; cbn [sum_to]; [lra|]. apply Rplus_le_compat; [apply IH; intros; apply H; lia|apply H; lia]. Qed.
Lemma sum_nonneg n f : (forall i, (i < n)%nat -> 0 <= f i) -> 0 <= sum_to n f.
Proof. intros H. rewrite <- (sum_zero n). apply sum_le. exact H. Qed.
Lemma sum_abs n f : Rabs (sum_to n f) <= sum_to n (fun i => Rabs (f i)).
Proof. induction n as [|n IH]; cbn [sum_to]; [rewrite Rabs_R0; lra|]. eapply Rle_trans; [apply Rabs_triang|]. lra. Qed.
Lemma sum_delta n k f : (k < n)%nat -> sum_to n (fun i => if (i =? k)%nat then f i else 0) = f k.
Proof.
  induction n as [|n IH]; intros H; [lia|]. cbn [sum_to]. destruct (Nat.eqb_spec n k) as [->|D].
  - rewrite (sum_ext k _ (fun _ => 0)); [rewrite sum_zero; ring|]. intros i Hi. destruct (Nat.eqb_spec i k); [lia|reflexivity].
  - rewrite IH by lia. ring.
Qed.

(** Sums of cosines and sines over a full turn. *)
Section Roots.
Variable n : nat.
Hypothesis Hn : (0 < n)%nat.
Lemma n_pos : 0 < INR n. Proof. now apply lt_0_INR. Qed.
Lemma n_nz : INR n <> 0. Proof. assert (H := n_pos). lra. Qed.

Lemma cos_turns q : cos (2 * PI * INR q) = 1.
Proof. replace (2 * PI * INR q) with (0 + 2 * INR q * PI) by ring. now rewrite cos_period, cos_0. Qed.
Lemma sin_turns q : sin (2 * PI * INR q) = 0.
Proof. replace (2 * PI * INR q) with (0 + 2 * INR q * PI) by ring. now rewrite sin_period, sin_0. Qed.

Lemma half_nonzero m : (m mod n <> 0)%nat -> sin (PI * INR m / INR n) <> 0.
Proof.
  intros Hm H. apply sin_eq_0_0 in H. destruct H as [k Hk].
  assert (E : INR m = IZR k * INR n).
  { assert (P := PI_RGT_0). assert (N := n_nz). assert (X : PI * (INR m / INR n) = PI * IZR k) by (rewrite (Rmult_comm PI (IZR k)), <- Hk; field; exact N).
    apply Rmult_eq_reg_l in X; [|lra]. rewrite <- X. field. exact N. }
  rewrite !INR_IZR_INZ, <- mult_IZR in E. apply eq_IZR in E. assert (K : (0 <= k)%Z) by nia.
  apply Hm. replace m with (Z.to_nat k * n)%nat by nia. apply Nat.mod_mul. lia.
Qed.

Lemma cos_sum_partial m k : 2 * sin (PI * INR m / INR n) * sum_to k (fun j => cos (turn n j m)) =
  sin (2 * PI * INR m / INR n * INR k - PI * INR m / INR n) + sin (PI * INR m / INR n).
Proof.
  set (h := PI * INR m / INR n). replace (2 * PI * INR m / INR n) with (2 * h) by (unfold h; field; apply n_nz).
  induction k as [|k IH]; cbn [sum_to].
  - rewrite Rmult_0_r. cbn [INR]. rewrite Rmult_0_r, Rminus_0_l, sin_neg. ring.
  - rewrite Rmult_plus_distr_l, IH. replace (turn n k m) with (2 * h * INR k) by (unfold turn, h; rewrite mult_INR; field; apply n_nz).
    rewrite S_INR. replace (2 * h * (INR k + 1) - h) with (2 * h * INR k + h) by ring. rewrite sin_plus, sin_minus. ring.
Qed.
Lemma sin_sum_partial m k : 2 * sin (PI * INR m / INR n) * sum_to k (fun j => sin (turn n j m)) =
  cos (PI * INR m / INR n) - cos (2 * PI * INR m / INR n * INR k - PI * INR m / INR n).
Proof.
  set (h := PI * INR m / INR n). replace (2 * PI * INR m / INR n) with (2 * h) by (unfold h; field; apply n_nz).
  induction k as [|k IH]; cbn [sum_to].
  - rewrite Rmult_0_r. cbn [INR]. rewrite Rmult_0_r, Rminus_0_l, cos_neg. ring.
  - rewrite Rmult_plus_distr_l, IH. replace (turn n k m) with (2 * h * INR k) by (unfold turn, h; rewrite mult_INR; field; apply n_nz).
    rewrite S_INR. replace (2 * h * (INR k + 1) - h) with (2 * h * INR k + h) by ring. rewrite cos_plus, cos_minus. ring.
Qed.

Definition whole (m : nat) : R := if (m mod n =? 0)%nat then INR n else 0.
Lemma cos_sum m : sum_to n (fun j => cos (turn n j m)) = whole m.
Proof.
  unfold whole. destruct (Nat.eqb_spec (m mod n) 0) as [H|H].
  - rewrite (sum_ext n _ (fun _ => 1)); [rewrite sum_const; ring|]. intros j _. apply Nat.mod_divides in H; [|lia]. destruct H as [q ->].
    replace (turn n j (n * q)) with (2 * PI * INR (j * q)) by (unfold turn; rewrite !mult_INR; field; apply n_nz). apply cos_turns.
  - assert (S := half_nonzero m H). assert (E := cos_sum_partial m n). set (h := PI * INR m / INR n) in *.
    replace (2 * PI * INR m / INR n * INR n - h) with (- h + 2 * INR m * PI) in E by (unfold h; field; apply n_nz).
    rewrite sin_period, sin_neg in E. apply Rmult_eq_reg_l with (2 * sin h); [|lra]. rewrite E. ring.
Qed.
Lemma sin_sum m : sum_to n (fun j => sin (turn n j m)) = 0.
Proof.
  destruct (Nat.eq_dec (m mod n) 0) as [H|H].
  - rewrite (sum_ext n _ (fun _ => 0)); [apply sum_zero|]. intros j _. apply Nat.mod_divides in H; [|lia]. destruct H as [q ->].
    replace (turn n j (n * q)) with (2 * PI * INR (j * q)) by (unfold turn; rewrite !mult_INR; field; apply n_nz). apply sin_turns.
  - assert (S := half_nonzero m H). assert (E := sin_sum_partial m n). set (h := PI * INR m / INR n) in *.
    replace (2 * PI * INR m / INR n * INR n - h) with (- h + 2 * INR m * PI) in E by (unfold h; field; apply n_nz).
    rewrite cos_period, cos_neg in E. apply Rmult_eq_reg_l with (2 * sin h); [|lra]. rewrite E. ring.
Qed.

Lemma turn_add j k l : turn n j (k + l) = turn n j k + turn n j l.
Proof. unfold turn. rewrite Nat.mul_add_distr_l, plus_INR. field. apply n_nz. Qed.
Lemma turn_sym j k : turn n j k = turn n k j.
Proof. unfold turn. now rewrite Nat.mul_comm. Qed.
Definition dist (k l : nat) : nat := (Nat.max k l - Nat.min k l)%nat.
Lemma cos_dist j k l : cos (turn n j k - turn n j l) = cos (turn n j (dist k l)).
Proof.
  unfold dist. destruct (Nat.le_ge_cases k l) as [H|H].
  - rewrite Nat.max_r, Nat.min_l by exact H. assert (E := turn_add j k (l - k)). replace (k + (l - k))%nat with l in E by lia. rewrite E.
    rewrite <- cos_neg. f_equal. ring.
  - rewrite Nat.max_l, Nat.min_r by exact H. assert (E := turn_add j l (k - l)). replace (l + (k - l))%nat with k in E by lia. rewrite E. f_equal. ring.
Qed.
Lemma sin_dist_sum k l : sum_to n (fun j => sin (turn n j k - turn n j l)) = 0.
Proof.
  destruct (Nat.le_ge_cases k l) as [H|H].
  - rewrite (sum_ext n _ (fun j => -1 * sin (turn n j (l - k)))).
    + rewrite sum_scal, sin_sum. ring.
    + intros j _. assert (E := turn_add j k (l - k)). replace (k + (l - k))%nat with l in E by lia. rewrite E.
      replace (turn n j k - (turn n j k + turn n j (l - k))) with (- turn n j (l - k)) by ring. rewrite sin_neg. ring.
  - rewrite (sum_ext n _ (fun j => sin (turn n j (k - l)))); [apply sin_sum|].
    intros j _. assert (E := turn_add j l (k - l)). replace (l + (k - l))%nat with k in E by lia. rewrite E. f_equal. ring.
Qed.

(** The partner of a frequency. *)
Definition partner (k : nat) : nat := if (k =? 0)%nat then 0%nat else (n - k)%nat.
Lemma partner_lt k : (k < n)%nat -> (partner k < n)%nat.
Proof. unfold partner. destruct (Nat.eqb_spec k 0); lia. Qed.
Lemma whole_dist k l : (k < n)%nat -> (l < n)%nat -> whole (dist k l) = if (l =? k)%nat then INR n else 0.
Proof.
  intros Hk Hl. unfold whole. assert (L : (dist k l < n)%nat) by (unfold dist; lia). rewrite Nat.mod_small by exact L.
  unfold dist. destruct (Nat.eqb_spec (Nat.max k l - Nat.min k l) 0), (Nat.eqb_spec l k); try reflexivity; lia.
Qed.
Lemma whole_sum k l : (k < n)%nat -> (l < n)%nat -> whole (k + l) = if (l =? partner k)%nat then INR n else 0.
Proof.
  intros Hk Hl. unfold whole, partner.
  assert (E : ((k + l) mod n = 0)%nat <-> (l = if (k =? 0)%nat then 0 else n - k)%nat).
  { split; intros H.
    - apply Nat.mod_divides in H; [|lia]. destruct H as [q Hq]. destruct (Nat.eqb_spec k 0); assert (q = 0 \/ q = 1)%nat by nia; nia.
    - destruct (Nat.eqb_spec k 0) as [->|D]; [subst l; apply Nat.mod_0_l; lia|]. replace (k + l)%nat with n by lia. apply Nat.mod_same. lia. }
  destruct (Nat.eqb_spec ((k + l) mod n) 0) as [A|A], (Nat.eqb_spec l (if (k =? 0)%nat then 0 else n - k)%nat) as [B|B]; try reflexivity; exfalso; tauto.
Qed.

Lemma orth_cc k l : (k < n)%nat -> (l < n)%nat ->
  sum_to n (fun j => cos (turn n j k) * cos (turn n j l)) = INR n / 2 * ((if (l =? k)%nat then 1 else 0) + (if (l =? partner k)%nat then 1 else 0)).
Proof.
  intros Hk Hl. rewrite (sum_ext n _ (fun j => / 2 * (cos (turn n j (dist k l)) + cos (turn n j (k + l))))).
  - rewrite sum_scal, sum_plus, !cos_sum, whole_dist, whole_sum by assumption. destruct (l =? k)%nat, (l =? partner k)%nat; field.
  - intros j _. rewrite <- cos_dist, turn_add, cos_plus, cos_minus. field.
Qed.
Lemma orth_ss k l : (k < n)%nat -> (l < n)%nat ->
  sum_to n (fun j => sin (turn n j k) * sin (turn n j l)) = INR n / 2 * ((if (l =? k)%nat then 1 else 0) - (if (l =? partner k)%nat then 1 else 0)).
Proof.
  intros Hk Hl. rewrite (sum_ext n _ (fun j => / 2 * (cos (turn n j (dist k l)) - cos (turn n j (k + l))))).
  - rewrite sum_scal, sum_minus, !cos_sum, whole_dist, whole_sum by assumption. destruct (l =? k)%nat, (l =? partner k)%nat; field.
  - intros j _. rewrite <- cos_dist, turn_add, cos_plus, cos_minus. field.
Qed.
Lemma orth_cs k l : sum_to n (fun j => cos (turn n j k) * sin (turn n j l)) = 0.
Proof.
  rewrite (sum_ext n _ (fun j => / 2 * (sin (turn n j (k + l)) - sin (turn n j k - turn n j l)))).
  - rewrite sum_scal, sum_minus, sin_sum, sin_dist_sum. ring.
  - intros j _. rewrite turn_add, sin_plus, sin_minus. field.
Qed.

(** The series with given frequencies. *)
Definition synth (A B : nat -> R) (j : nat) : R := / INR n * sum_to n (fun k => A k * cos (turn n j k) - B k * sin (turn n j k)).

(** Inversion. *)
Lemma inversion x j : (j < n)%nat -> synth (dft_re n x) (dft_im n x) j = x j.
Proof.
  intros Hj. unfold synth, dft_re, dft_im.
  rewrite (sum_ext n _ (fun k => sum_to n (fun l => x l * cos (turn n k (dist l j))))).
  - rewrite sum_swap. rewrite (sum_ext n _ (fun l => if (l =? j)%nat then x l * INR n else 0)).
    + rewrite sum_delta by exact Hj. field. apply n_nz.
    + intros l Hl. rewrite sum_scal, cos_sum, whole_dist by assumption. rewrite Nat.eqb_sym. destruct (l =? j)%nat; ring.
  - intros k _. rewrite <- sum_scal_r, Ropp_mult_distr_l_reverse. unfold Rminus. rewrite Ropp_involutive, <- sum_scal_r, <- sum_plus.
    apply sum_ext. intros l _. rewrite <- cos_dist, cos_minus, (turn_sym l k), (turn_sym j k). ring.
Qed.

(** Parseval's identity for series with partnered frequencies. *)
Lemma sum_square f m : sum_to m f * sum_to m f = sum_to m (fun k => sum_to m (fun l => f k * f l)).
Proof. rewrite <- sum_scal_r. apply sum_ext. intros k _. now rewrite <- sum_scal. Qed.

Lemma parseval A B : (forall k, (k < n)%nat -> A (partner k) = A k /\ B (partner k) = - B k) ->
  sum_to n (fun j => synth A B j * synth A B j) = / INR n * sum_to n (fun k => A k * A k + B k * B k).
Proof.
  intros H. unfold synth.
  rewrite (sum_ext n _ (fun j => / INR n * / INR n * sum_to n (fun k => sum_to n (fun l =>
    A k * A l * (cos (turn n j k) * cos (turn n j l)) + B k * B l * (sin (turn n j k) * sin (turn n j l))
    - A k * B l * (cos (turn n j k) * sin (turn n j l)) - B k * A l * (cos (turn n j l) * sin (turn n j k)))))).
  2: { intros j _. set (f := fun k => A k * cos (turn n j k) - B k * sin (turn n j k)).
       transitivity (/ INR n * / INR n * (sum_to n f * sum_to n f)); [ring|]. rewrite sum_square. f_equal. apply sum_ext. intros k _. apply sum_ext. intros l _. unfold f. ring. }
  rewrite sum_scal, sum_swap.
  rewrite (sum_ext n _ (fun k => INR n * (A k * A k + B k * B k))).
  { rewrite sum_scal. field. apply n_nz. }
  intros k Hk. rewrite sum_swap.
  rewrite (sum_ext n _ (fun l => INR n / 2 * ((if (l =? k)%nat then A k * A l + B k * B l else 0) + (if (l =? partner k)%nat then A k * A l - B k * B l else 0)))).
  - rewrite sum_scal, sum_plus, !sum_delta by (try apply partner_lt; assumption). destruct (H k Hk) as [-> ->]. field.
  - intros l Hl. rewrite !sum_minus, sum_plus, !sum_scal, orth_cc, orth_ss, !orth_cs by assumption.
    destruct (l =? k)%nat, (l =? partner k)%nat; field.
Qed.

Lemma turn_partner j k : (k < n)%nat -> cos (turn n j (partner k)) = cos (turn n j k) /\ sin (turn n j (partner k)) = - sin (turn n j k).
Proof.
  intros Hk. unfold partner. destruct (Nat.eqb_spec k 0) as [->|D].
  - unfold turn. rewrite Nat.mul_0_r. cbn [INR]. unfold Rdiv. rewrite Rmult_0_r, Rmult_0_l, sin_0. split; ring.
  - assert (E : turn n j (n - k) = - turn n j k + 2 * INR j * PI).
    { assert (T := turn_add j (n - k) k). replace (n - k + k)%nat with n in T by lia.
      assert (Tn : turn n j n = 2 * INR j * PI) by (unfold turn; rewrite mult_INR; field; apply n_nz). rewrite Tn in T. lra. }
    rewrite E, cos_period, sin_period, cos_neg, sin_neg. split; reflexivity.
Qed.
Lemma dft_partner x k : (k < n)%nat -> dft_re n x (partner k) = dft_re n x k /\ dft_im n x (partner k) = - dft_im n x k.
Proof.
  intros Hk. unfold dft_re, dft_im. split.
  - apply sum_ext. intros j _. now rewrite (proj1 (turn_partner j k Hk)).
  - f_equal. rewrite (sum_ext n _ (fun j => -1 * (x j * sin (turn n j k)))); [rewrite sum_scal; ring|].
    intros j _. rewrite (proj2 (turn_partner j k Hk)). ring.
Qed.
Lemma folded_partner k : (k < n)%nat -> folded n (partner k) = folded n k.
Proof. intros H. unfold folded, partner. destruct (Nat.eqb_spec k 0); lia. Qed.
Lemma folded_half k : (k < n)%nat -> (2 * folded n k <= n)%nat.
Proof. unfold folded. lia. Qed.

(** The squared distance between a series and a partial sum is the energy of the dropped frequencies. *)
Lemma partial_energy x kept : sum_to n (fun j => (x j - partial_sum n x kept j) * (x j - partial_sum n x kept j)) = dropped_energy n x kept.
Proof.
  set (A := fun k => if kept (folded n k) then 0 else dft_re n x k). set (B := fun k => if kept (folded n k) then 0 else dft_im n x k).
  rewrite (sum_ext n _ (fun j => synth A B j * synth A B j)).
  - rewrite parseval.
    + unfold dropped_energy. f_equal. apply sum_ext. intros k _. unfold A, B, power. destruct (kept (folded n k)); ring.
    + intros k Hk. unfold A, B. rewrite (folded_partner k Hk). destruct (dft_partner x k Hk) as [-> ->]. destruct (kept (folded n k)); split; ring.
  - intros j Hj. assert (E : x j - partial_sum n x kept j = synth A B j); [|rewrite E; reflexivity].
    rewrite <- (inversion x j Hj) at 1. unfold synth, partial_sum. rewrite <- Rmult_minus_distr_l, <- sum_minus. f_equal. apply sum_ext.
    intros k _. unfold A, B. destruct (kept (folded n k)); ring.
Qed.
Lemma partial_all x kept j : (forall k, (2 * k <= n)%nat -> kept k = true) -> (j < n)%nat -> partial_sum n x kept j = x j.
Proof.
  intros H Hj. rewrite <- (inversion x j Hj). unfold partial_sum, synth. f_equal. apply sum_ext. intros k Hk. rewrite H by now apply folded_half. reflexivity.
Qed.
End Roots.

(** *** Sums over both members of every pair, and over the lower half *)
Lemma sum_split a b f : sum_to (a + b) f = sum_to a f + sum_to b (fun i => f (a + i)%nat).
Proof.
  induction b as [|b IH]; cbn [sum_to]; [rewrite Nat.add_0_r; ring|]. replace (a + S b)%nat with (S (a + b)) by lia. cbn [sum_to]. rewrite IH. ring.
Qed.
Lemma sum_reverse n f : sum_to n (fun i => f (n - 1 - i)%nat) = sum_to n f.
Proof.
  induction n as [|n IH]; [reflexivity|]. rewrite <- (Nat.add_1_l n) at 1. rewrite sum_split. cbn [sum_to Nat.add].
  rewrite (sum_ext n _ (fun i => f (n - 1 - i)%nat)); [rewrite IH; replace (S n - 1 - 0)%nat with n by lia; ring|]. intros i Hi. f_equal. lia.
Qed.
Lemma fold_sum n g : (0 < n)%nat -> (forall i, (2 * i <= n)%nat -> 0 <= g i) ->
  sum_to (n / 2 + 1) g <= sum_to n (fun k => g (folded n k)) <= 2 * sum_to (n / 2 + 1) g.
Proof.
  intros Hn Hg. set (h := (n / 2)%nat). assert (H2 : (2 * h <= n < 2 * h + 2)%nat) by (unfold h; assert (X := Nat.div_mod n 2 ltac:(lia)); assert (Y := Nat.mod_upper_bound n 2 ltac:(lia)); lia).
  set (b := (n - h - 1)%nat).
  assert (E : sum_to n (fun k => g (folded n k)) = sum_to (h + 1) g + sum_to b (fun i => g (i + 1)%nat)).
  { set (F := fun k => g (folded n k)). assert (X : sum_to n F = sum_to ((h + 1) + b) F) by (f_equal; lia). rewrite X, sum_split. f_equal.
    - apply sum_ext. intros i Hi. unfold F, folded. f_equal. lia.
    - rewrite <- (sum_reverse b (fun i => g (i + 1)%nat)). apply sum_ext. intros i Hi. unfold F, folded. f_equal. lia. }
  rewrite E. clear E.
  assert (N1 : 0 <= sum_to b (fun i => g (i + 1)%nat)) by (apply sum_nonneg; intros i Hi; apply Hg; lia).
  split; [lra|].
  assert (L : sum_to b (fun i => g (i + 1)%nat) <= sum_to (h + 1) g).
  { replace (h + 1)%nat with ((1 + b) + (h - b))%nat by lia. rewrite sum_split, (sum_split 1 b).
    rewrite (sum_ext b (fun i => g (1 + i)%nat) (fun i => g (i + 1)%nat)) by (intros i _; f_equal; lia).
    assert (A : 0 <= sum_to 1 g) by (apply sum_nonneg; intros i Hi; apply Hg; lia).
    assert (B : 0 <= sum_to (h - b) (fun i => g (1 + b + i)%nat)) by (apply sum_nonneg; intros i Hi; apply Hg; lia). lra. }
  lra.
Qed.
Lemma power_folded n x k : (0 < n)%nat -> (k < n)%nat -> power n x (folded n k) = power n x k.
Proof.
  intros Hn Hk. unfold folded. destruct (Nat.le_ge_cases k (n - k)) as [L|L]; [now rewrite Nat.min_l|]. rewrite Nat.min_r by exact L.
  assert (E : (n - k)%nat = partner n k) by (unfold partner; destruct (Nat.eqb_spec k 0); lia). unfold power. rewrite E.
  destruct (dft_partner n Hn x k Hk) as [-> ->]. ring.
Qed.
Lemma power_nonneg n x k : 0 <= power n x k.
Proof. unfold power. assert (A := Rle_0_sqr (dft_re n x k)). assert (B := Rle_0_sqr (dft_im n x k)). unfold Rsqr in *. lra. Qed.

(** Number of true values below [n]. *)
Lemma count_sum n s : INR (count n s) = sum_to n (fun i => if s i then 1 else 0).
Proof. induction n as [|n IH]; cbn [count sum_to]; [reflexivity|]. rewrite plus_INR, IH. destruct (s n); cbn [INR]; ring. Qed.

Definition unkept (n : nat) (p : nat -> R) (s : nat -> bool) : R := sum_to n (fun i => if s i then 0 else p i).
(** A choice of at least as many entries, none of which is much smaller than an entry left out, leaves out hardly more than any other choice. *)
Lemma greedy n p s o c g : (forall i, (i < n)%nat -> 0 <= p i) -> 1 <= c -> 0 <= g -> (count n o <= count n s)%nat ->
  (forall k l, (k < n)%nat -> (l < n)%nat -> s k = false -> s l = true -> p k <= c * p l + g) ->
  unkept n p s <= c * unkept n p o + g * INR (count n s).
Proof.
  intros Hp Hc Hg Hcnt Hs.
  assert (T : exists tau, 0 <= tau /\ (forall k, (k < n)%nat -> s k = false -> p k <= tau) /\ (forall l, (l < n)%nat -> s l = true -> tau <= c * p l + g)).
  { clear Hcnt. assert (G : forall m, (m <= n)%nat -> exists tau, 0 <= tau /\ (forall k, (k < m)%nat -> s k = false -> p k <= tau) /\ (forall l, (l < n)%nat -> s l = true -> tau <= c * p l + g)).
    { induction m as [|m IH]; intros Hm.
      - exists 0. split; [lra|]. split; [lia|]. intros l Hl _. specialize (Hp l Hl). nra.
      - destruct (IH ltac:(lia)) as (tau & T0 & T1 & T2). destruct (s m) eqn:E.
        + exists tau. split; [exact T0|]. split; [|exact T2]. intros k Hk Sk. destruct (Nat.eq_dec k m) as [->|D]; [congruence|apply T1; [lia|exact Sk]].
        + exists (Rmax tau (p m)). split; [eapply Rle_trans; [exact T0|apply Rmax_l]|]. split.
          * intros k Hk Sk. destruct (Nat.eq_dec k m) as [->|D]; [apply Rmax_r|]. eapply Rle_trans; [apply T1; [lia|exact Sk]|apply Rmax_l].
          * intros l Hl Sl. apply Rmax_lub; [now apply T2|]. apply Hs; [lia|exact Hl|exact E|exact Sl]. }
    exact (G n ltac:(lia)). }
  destruct T as (tau & T0 & T1 & T2).
  assert (L : unkept n p s - c * unkept n p o <= tau * (INR (count n o) - INR (count n s)) + g * INR (count n s)).
  { unfold unkept. rewrite !count_sum, <- !sum_scal, <- !sum_minus, <- sum_scal, <- sum_plus. apply sum_le. intros i Hi.
    assert (Pi := Hp i Hi). destruct (s i) eqn:Es, (o i).
    - lra.
    - specialize (T2 i Hi Es). lra.
    - specialize (T1 i Hi Es). lra.
    - nra. }
  apply le_INR in Hcnt. nra.
Qed.

Lemma dropped_choice n x s o c g : (0 < n)%nat -> 1 <= c -> 0 <= g -> (count (n / 2 + 1) o <= count (n / 2 + 1) s)%nat ->
  (forall k l, (2 * k <= n)%nat -> (2 * l <= n)%nat -> s k = false -> s l = true -> power n x k <= c * power n x l + g) ->
  dropped_energy n x s <= 2 * c * dropped_energy n x o + 2 * g.
Proof.
  intros Hn Hc Hg Hcnt Hs. set (h := (n / 2 + 1)%nat) in *.
  assert (H2 : forall i, (i < h)%nat <-> (2 * i <= n)%nat) by (intros i; unfold h; assert (X := Nat.div_mod n 2 ltac:(lia)); assert (Y := Nat.mod_upper_bound n 2 ltac:(lia)); lia).
  assert (F : forall q, unkept h (power n x) q <= sum_to n (fun k => if q (folded n k) then 0 else power n x k) <= 2 * unkept h (power n x) q).
  { intros q. destruct (fold_sum n (fun i => if q i then 0 else power n x i) Hn) as [A B].
    { intros i _. destruct (q i); [lra|apply power_nonneg]. }
    rewrite (sum_ext n _ (fun k => if q (folded n k) then 0 else power n x k)) in A, B; [split; [exact A|exact B]| |];
    (intros k Hk; cbn beta; rewrite power_folded by assumption; reflexivity). }
  assert (G := greedy h (power n x) s o c g ltac:(intros; apply power_nonneg) Hc Hg Hcnt ltac:(intros k l Hk Hl; apply Hs; now apply H2)).
  destruct (F s) as [_ Fs]. destruct (F o) as [Fo _]. unfold dropped_energy.
  assert (P := lt_0_INR n Hn). assert (I := Rinv_0_lt_compat _ P).
  assert (Cn : INR (count h s) <= INR n).
  { apply le_INR. assert (Y : forall m, (count m s <= m)%nat) by (intros m; induction m as [|m IH]; cbn [count]; [lia|destruct (s m); lia]). specialize (Y h). unfold h in *.
    destruct (Nat.eq_dec n 1) as [->|D]; [exact Y|]. assert (n / 2 + 1 <= n)%nat; [|lia]. assert (n / 2 < n)%nat by (apply Nat.div_lt; lia). lia. }
  set (us := unkept h (power n x) s) in *. set (uo := unkept h (power n x) o) in *.
  set (es := sum_to n _) in *. set (eo := sum_to n (fun k => if o _ then _ else _)) in *.
  assert (E : es <= 2 * c * eo + 2 * g * INR n) by nra.
  apply Rle_trans with (/ INR n * (2 * c * eo + 2 * g * INR n)); [apply Rmult_le_compat_l; lra|]. right. field. lra.
Qed.
