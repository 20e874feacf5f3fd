(** Facts about powers of two and 3-smooth sizes. *)
From Coq Require Import List ZArith Bool Lia Znumtheory Zpow_facts.
From Coq Require Import ZifyBool.
From Verif Require Import Base Model_Float Model_Utils Spec.
Import ListNotations.
Open Scope Z_scope.

Lemma prev_power_of_two_pos n : 1 <= n -> prev_power_of_two n = 2 ^ Z.log2 n.
Proof.
  intros Hn. unfold prev_power_of_two, leading_zeros64.
  assert (Hl : Z.log2 (Z.lor n 1) = Z.log2 n).
  { rewrite Z.log2_lor by lia. change (Z.log2 1) with 0. pose proof (Z.log2_nonneg n). lia. }
  assert (Z.lor n 1 <> 0) as Hne by (intros H; apply Z.lor_eq_0_iff in H; lia).
  apply Z.eqb_neq in Hne. rewrite Hne.
  replace (63 - (63 - Z.log2 (Z.lor n 1))) with (Z.log2 n) by lia.
  pose proof (Z.log2_nonneg n) as H0.
  rewrite Z.shiftl_1_l.
  apply Z.bits_inj'. intros k Hk. rewrite Z.land_spec.
  rewrite Z.pow2_bits_eqb by lia. destruct (Z.eqb_spec (Z.log2 n) k) as [<-|Hk2]; [|reflexivity].
  rewrite Z.bit_log2 by lia. reflexivity.
Qed.
Lemma prev_power_of_two_0 : prev_power_of_two 0 = 0.
Proof. reflexivity. Qed.

(** Generic loop rule. *)
Lemma loop_pow_spec {S R} (step : S -> S + R) (Inv : S -> Prop) (mu : S -> Z) (Q : R -> Prop) :
  (forall s, Inv s -> match step s with inl s' => Inv s' /\ mu s' < mu s | inr r => Q r end) ->
  forall k s, Inv s ->
    match loop_pow step k s with inl s' => Inv s' /\ mu s' + 2 ^ Z.of_nat k <= mu s | inr r => Q r end.
Proof.
  intros Hstep k. induction k as [|k IH]; intros s Hs; cbn [loop_pow].
  - specialize (Hstep s Hs). destruct (step s); [|exact Hstep]. destruct Hstep. cbn. split; [assumption|lia].
  - specialize (IH s Hs) as H1. destruct (loop_pow step k s) as [s'|r]; [|exact H1].
    destruct H1 as [Hs' Hm]. specialize (IH s' Hs') as H2. destruct (loop_pow step k s') as [s''|r]; [|exact H2].
    destruct H2 as [Hs'' Hm2]. split; [exact Hs''|].
    rewrite Nat2Z.inj_succ, Z.pow_succ_r by lia. lia.
Qed.

Lemma strip_factor_spec p n : 2 <= p -> 1 <= n < 2 ^ 127 ->
  exists v r, strip_factor p n = Some r /\ 0 <= v /\ n = r * p ^ v /\ 1 <= r <= n /\ ~ (p | r).
Proof.
  intros Hp Hn. unfold strip_factor.
  pose proof (loop_pow_spec (fun n => if n mod p =? 0 then inl (n / p) else inr n)
    (fun m => 1 <= m <= n /\ exists v, 0 <= v /\ n = m * p ^ v) Z.log2
    (fun r => 1 <= r <= n /\ (exists v, 0 <= v /\ n = r * p ^ v) /\ ~ (p | r))) as H.
  assert (Hstep : forall s, 1 <= s <= n /\ (exists v, 0 <= v /\ n = s * p ^ v) ->
    match (if s mod p =? 0 then inl (s / p) else inr s) with
    | inl s' => (1 <= s' <= n /\ exists v, 0 <= v /\ n = s' * p ^ v) /\ Z.log2 s' < Z.log2 s
    | inr r => 1 <= r <= n /\ (exists v, 0 <= v /\ n = r * p ^ v) /\ ~ (p | r)
    end).
  { intros s (Hs & v & Hv & Hnv). destruct (Z.eqb_spec (s mod p) 0) as [E|E].
    - apply Z.mod_divide in E; [|lia]. destruct E as [q Hq]. subst s. rewrite Z.div_mul by lia.
      assert (1 <= q) by nia. split; [split; [nia|]|].
      + exists (v + 1). split; [lia|]. rewrite Z.pow_add_r, Z.pow_1_r by lia. rewrite Hnv. ring.
      + assert (Z.log2 (q * 2) <= Z.log2 (q * p)) by (apply Z.log2_le_mono; nia).
        replace (q * 2) with (2 * q) in H1 by lia. rewrite Z.log2_double in H1 by lia. lia.
    - split; [exact Hs|]. split; [now exists v|]. intros Hd. apply E. now apply Z.mod_divide; [lia|]. }
  specialize (H Hstep 7%nat n).
  assert (Hi : 1 <= n <= n /\ exists v, 0 <= v /\ n = n * p ^ v).
  { split; [lia|]. exists 0. split; [lia|]. cbn. lia. }
  specialize (H Hi). destruct (loop_pow _ 7 n) as [s'|r].
  - destruct H as [[Hs' _] Hm]. exfalso.
    assert (Z.log2 n < 127) by (apply Z.log2_lt_pow2; lia).
    pose proof (Z.log2_nonneg s'). change (2 ^ Z.of_nat 7) with 128 in Hm. lia.
  - destruct H as (Hr & (v & Hv & Hnv) & Hd). exists v, r. auto.
Qed.

Lemma is_decomposable_0 : is_decomposable 0 = None.
Proof. vm_compute. reflexivity. Qed.

Lemma prime_3' : prime 3. Proof. exact prime_3. Qed.

Lemma is_decomposable_spec n : 1 <= n < 2 ^ 127 ->
  exists b, is_decomposable n = Some b /\ (b = true <-> smooth3 n).
Proof.
  intros Hn. unfold is_decomposable.
  destruct (strip_factor_spec 2 n ltac:(lia) Hn) as (a & m & -> & Ha & Hna & Hm & Hd2).
  destruct (strip_factor_spec 3 m ltac:(lia) ltac:(lia)) as (b & r & -> & Hb & Hmb & Hr & Hd3).
  exists (r =? 1). split; [reflexivity|]. rewrite Z.eqb_eq. split.
  - intros ->. exists a, b. split; [exact Ha|]. split; [exact Hb|]. rewrite Hna, Hmb. ring.
  - intros (a' & b' & Ha' & Hb' & Hn').
    assert (H2 : rel_prime r (2 ^ a')).
    { apply rel_prime_Zpower_r; [exact Ha'|]. apply rel_prime_sym, prime_rel_prime; [exact prime_2|].
      intros [q Hq]. apply Hd2. exists (q * 3 ^ b). rewrite Hmb, Hq. ring. }
    assert (H3 : rel_prime r (3 ^ b')).
    { apply rel_prime_Zpower_r; [exact Hb'|]. apply rel_prime_sym, prime_rel_prime; [exact prime_3|]. exact Hd3. }
    assert (Hdiv : (r | 2 ^ a' * 3 ^ b')).
    { exists (3 ^ b * 2 ^ a). rewrite <- Hn', Hna, Hmb. ring. }
    apply Gauss in Hdiv; [|exact H2].
    replace (3 ^ b') with (3 ^ b' * 1) in Hdiv by lia. apply Gauss in Hdiv; [|exact H3].
    apply Z.divide_1_r_nonneg in Hdiv; lia.
Qed.

(** No number of the form 2^a 3^b in an open-ended range. *)
Definition none_between (lo hi : Z) : Prop := forall k, lo < k < hi -> ~ smooth3 k.

Definition next_size_post (p : profile) (n : Z) (r : next_size_result) : Prop :=
  (exists m, r = NSOk m /\ n < m < 2 ^ 64 /\ smooth3 m /\ none_between n m) \/
  (none_between n (2 ^ 64) /\ r = match p with Dev => NSOverflow | Release => NSHang end).

Lemma next_size_full_spec p n : 0 <= n < 2 ^ 64 -> next_size_post p n (next_size_full p n).
Proof.
  intros Hn. unfold next_size_full.
  set (Inv := fun k => (n < k < 2 ^ 64 /\ none_between n k) \/ (p = Release /\ k = 0 /\ none_between n (2 ^ 64))).
  set (mu := fun k => if k =? 0 then 0 else 2 ^ 64 - k).
  assert (Harith : forall k, n <= k < 2 ^ 64 -> none_between n (k + 1) ->
            match arith_u p 64 (k + 1) with
            | Ok k' => Inv k' /\ (n < k -> mu k' < mu k)
            | Panic _ => next_size_post p n NSOverflow
            end).
  { intros k Hk Hnb. unfold arith_u, in_ub.
    destruct ((0 <=? k + 1) && (k + 1 <? 2 ^ 64)) eqn:E.
    - split; [left; split; [lia|exact Hnb]|]. intros Hk2. unfold mu.
      assert (k + 1 =? 0 = false) as -> by lia. assert (k =? 0 = false) as -> by lia. lia.
    - assert (k = 2 ^ 64 - 1) by lia. subst k. replace (2 ^ 64 - 1 + 1) with (2 ^ 64) in * by lia.
      destruct p.
      + right. split; [exact Hnb|reflexivity].
      + split.
        * right. split; [reflexivity|]. split; [reflexivity|exact Hnb].
        * intros Hk2. unfold mu, wrap_u. cbn. lia. }
  assert (Hstep : forall s, Inv s ->
     match next_size_step p s with inl s' => Inv s' /\ mu s' < mu s | inr r => next_size_post p n r end).
  { intros s [[Hs Hnb]|(Hp & -> & Hnb)].
    - unfold next_size_step. destruct (is_decomposable_spec s ltac:(lia)) as (b & -> & Hb).
      destruct b.
      + left. exists s. split; [reflexivity|]. split; [lia|]. split; [apply Hb; reflexivity|exact Hnb].
      + assert (Hnb' : none_between n (s + 1)).
        { intros k Hk. destruct (Z.eq_dec k s) as [->|Hne]; [|apply Hnb; lia].
          intros Hsm. apply Hb in Hsm. discriminate. }
        specialize (Harith s ltac:(lia) Hnb').
        destruct (arith_u p 64 (s + 1)) as [s'|pc]; [|exact Harith].
        destruct Harith as [H1 H2]. split; [exact H1|]. apply H2. lia.
    - unfold next_size_step. rewrite is_decomposable_0. right. split; [exact Hnb|]. now rewrite Hp. }
  specialize (Harith n ltac:(lia)).
  assert (H0 : none_between n (n + 1)) by (intros k Hk; lia). specialize (Harith H0).
  destruct (arith_u p 64 (n + 1)) as [n'|pc]; [|exact Harith].
  destruct Harith as [Hn' _].
  pose proof (loop_pow_spec (next_size_step p) Inv mu (next_size_post p n) Hstep 65 n' Hn') as H.
  destruct (loop_pow (next_size_step p) 65 n') as [s'|r]; [|exact H].
  exfalso. destruct H as [Hs' Hm]. change (2 ^ Z.of_nat 65) with (2 ^ 65) in Hm.
  assert (0 <= mu s') by (unfold mu; destruct Hs' as [[? _]|(_ & -> & _)]; [destruct (s' =? 0); lia|cbn; lia]).
  assert (mu n' <= 2 ^ 64).
  { unfold mu. destruct Hn' as [[? _]|(_ & -> & _)]; [destruct (n' =? 0); lia|cbn; lia]. }
  lia.
Qed.

(** On sample counts: the least 3-smooth number above n, at most twice as large. *)
Lemma next_size_spec n : 0 <= n < 2 ^ 62 ->
  n < next_size n < 2 ^ 64 /\ smooth3 (next_size n) /\ none_between n (next_size n) /\
  (1 <= n -> next_size n <= 2 * n).
Proof.
  intros Hn. unfold next_size.
  assert (Hex : exists k, 0 <= k /\ n < 2 ^ k /\ (1 <= n -> 2 ^ k <= 2 * n) /\ 2 ^ k < 2 ^ 64).
  { destruct (Z.eq_dec n 0) as [->|Hne]; [exists 0; cbn; lia|].
    exists (Z.log2 n + 1). pose proof (Z.log2_nonneg n). destruct (Z.log2_spec n ltac:(lia)) as [H1 H2].
    rewrite Z.pow_succ_r in H2 by lia. rewrite Z.pow_add_r, Z.pow_1_r by lia.
    repeat split; try lia. }
  destruct Hex as (k & Hk & Hlt & Hle & H64).
  assert (Hsm : smooth3 (2 ^ k)) by (exists k, 0; repeat split; [exact Hk|lia|cbn; lia]).
  destruct (next_size_full_spec Dev n ltac:(lia)) as [(m & -> & Hm & Hs & Hnb)|(Hnb & _)].
  - split; [exact Hm|]. split; [exact Hs|]. split; [exact Hnb|]. intros H1.
    destruct (Z_le_gt_dec m (2 ^ k)) as [|Hgt]; [lia|]. exfalso. apply (Hnb (2 ^ k)); [lia|exact Hsm].
  - exfalso. apply (Hnb (2 ^ k)); [lia|exact Hsm].
Qed.
