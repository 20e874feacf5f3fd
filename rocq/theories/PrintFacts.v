(** Printing numbers: facts. *)
From Coq Require Import List ZArith Bool Reals Lia Lra.
From Flocq Require Import Core IEEE754.BinarySingleNaN IEEE754.Binary IEEE754.Bits.
From Verif Require Import Base Model_Float Model_Vsri Model_Csv Model_Number Spec Spec_Csv Spec_Number BincodeFacts NumberFacts.
Import ListNotations.
Open Scope Z_scope.

(** * The digits of a number. *)
Lemma digits_fuel_ok : forall fuel z, 0 <= z < 10 ^ Z.of_nat fuel -> (1 <= fuel)%nat ->
  let ds := digits_fuel fuel z in
  Forall digit ds /\ whole ds = z /\ (1 <= length ds)%nat /\ (0 < z -> 10 ^ (Z.of_nat (length ds) - 1) <= z).
Proof.
  induction fuel as [|fuel IH]; intros z Hz Hf; [lia|]. cbv zeta. cbn [digits_fuel]. destruct (Z.ltb_spec z 10) as [L|L].
  - cbn [length whole]. split; [constructor; [unfold digit; lia|constructor]|]. rewrite Z.pow_0_r. split; [lia|]. split; [lia|]. intros. cbn. lia.
  - destruct fuel as [|fuel]; [cbn in Hz; lia|].
    assert (Hq : 0 <= z / 10 < 10 ^ Z.of_nat (S fuel)).
    { split; [apply Z.div_pos; lia|]. apply Z.div_lt_upper_bound; [lia|]. rewrite (Nat2Z.inj_succ (S fuel)), Z.pow_succ_r in Hz by lia. lia. }
    destruct (IH (z / 10) Hq ltac:(lia)) as (H1 & H2 & H3 & H4). set (q := digits_fuel (S fuel) (z / 10)) in *. clearbody q.
    pose proof (Z.mod_pos_bound z 10 ltac:(lia)) as B. pose proof (Z.div_mod z 10 ltac:(lia)) as D.
    split; [apply Forall_app; split; [exact H1|constructor; [unfold digit; lia|constructor]]|].
    rewrite whole_app, app_length, H2. cbn [length whole]. change (Z.of_nat 1) with 1. change (Z.of_nat 0) with 0. rewrite Z.pow_1_r, Z.pow_0_r.
    split; [lia|]. split; [lia|]. intros _. rewrite Nat2Z.inj_add. change (Z.of_nat 1) with 1.
    replace (Z.of_nat (length q) + 1 - 1) with (Z.succ (Z.of_nat (length q) - 1)) by lia. rewrite Z.pow_succ_r by lia.
    assert (0 < z / 10) by (apply Z.div_str_pos; lia). specialize (H4 H). lia.
Qed.

Lemma show_int_pos : forall z, 0 < z < 10 ^ 40 ->
  Forall digit (show_int z) /\ whole (show_int z) = z /\ show_int z <> [] /\
  10 ^ (Z.of_nat (length (show_int z)) - 1) <= z < 10 ^ Z.of_nat (length (show_int z)).
Proof.
  intros z H. unfold show_int. rewrite (proj2 (Z.ltb_ge z 0)) by lia.
  destruct (digits_fuel_ok 40 z ltac:(split; [lia|apply H]) ltac:(lia)) as (H1 & H2 & H3 & H4). set (ds := digits_fuel 40 z) in *. clearbody ds.
  split; [exact H1|]. split; [exact H2|]. split; [destruct ds; [cbn in H3; lia|discriminate]|]. split; [apply H4; lia|]. rewrite <- H2. now apply whole_bounds.
Qed.
Lemma show_int_exponent : forall z, - 10 ^ 40 < z < 10 ^ 40 -> exponent_is z (101 :: show_int z).
Proof.
  intros z H. right. unfold show_int. destruct (Z.ltb_spec z 0) as [L|L].
  - destruct (digits_fuel_ok 40 (- z) ltac:(split; [lia|]; change (Z.of_nat 40) with 40; lia) ltac:(lia)) as (H1 & H2 & H3 & _). set (ds := digits_fuel 40 (- z)) in *. clearbody ds.
    exists 101, [45], ds, true. repeat split; auto; [right; right; now split|destruct ds; [cbn in H3; lia|discriminate]|lia].
  - destruct (digits_fuel_ok 40 z ltac:(split; [lia|]; change (Z.of_nat 40) with 40; lia) ltac:(lia)) as (H1 & H2 & H3 & _). set (ds := digits_fuel 40 z) in *. clearbody ds.
    exists 101, [], ds, false. repeat split; auto; [left; now split|destruct ds; [cbn in H3; lia|discriminate]].
Qed.

Lemma zeros_digits : forall n, Forall digit (zeros n) /\ whole (zeros n) = 0.
Proof.
  intros n. unfold zeros. induction (Z.to_nat n) as [|j IH]; [split; [constructor|reflexivity]|]. destruct IH as [H1 H2]. cbn [repeat]. split; [constructor; [unfold digit; lia|exact H1]|].
  cbn [whole]. rewrite H2. lia.
Qed.
Lemma zeros_length : forall n, 0 <= n -> Z.of_nat (length (zeros n)) = n.
Proof. intros n H. unfold zeros. rewrite repeat_length. lia. Qed.

(** * The layout writes the number. *)
Lemma layout_ok : forall m k, 0 < m < 10 ^ 40 -> -500 <= k <= 500 ->
  exists m' k', decimal_is m' k' (layout m k) /\ (IZR m' * ten_to k' = IZR m * ten_to k)%R.
Proof.
  intros m k Hm Hk. destruct (show_int_pos m Hm) as (D1 & D2 & D3 & D4). unfold layout. set (ds := show_int m) in *. clearbody ds.
  set (len := Z.of_nat (length ds)) in *. assert (Hl : 1 <= len) by (subst len; destruct ds; [congruence|cbn; lia]).
  assert (Hl40 : len <= 40).
  { apply Znot_gt_le. intros C. assert (10 ^ 40 <= 10 ^ (len - 1)) by (apply Z.pow_le_mono_r; lia). lia. }
  cbv zeta. destruct ((0 <=? k) && (len + k <=? 16)) eqn:C1.
  - apply andb_true_iff in C1. rewrite !Z.leb_le in C1. exists (whole ((ds ++ zeros k) ++ [48])), (0 - Z.of_nat (length [48])).
    destruct (zeros_digits k) as [Z1 Z2]. split.
    + exists (ds ++ zeros k), [46], [48], [], 0. split; [now rewrite <- app_assoc|]. split; [apply Forall_app; now split|]. split; [constructor; [unfold digit; lia|constructor]|].
      split; [destruct ds; [congruence|discriminate]|]. split; [now left|]. split; [left; now split|]. now split.
    + rewrite whole_app. cbn [whole length]. rewrite whole_app, D2, Z2, zeros_length by lia. change (Z.of_nat 1) with 1. change (Z.of_nat 0) with 0.
      rewrite Z.pow_1_r, Z.pow_0_r. replace ((m * 10 ^ k + 0) * 10 + ((48 - 48) * 1 + 0)) with (m * 10 ^ k * 10) by ring. rewrite !mult_IZR, <- (ten_Z k) by lia.
      change (0 - 1) with (-1). change (ten_to (-1)) with (/ (10 * 1))%R. field.
  - destruct ((0 <? len + k) && (len + k <=? 16)) eqn:C2.
    + apply andb_true_iff in C2. rewrite Z.ltb_lt, Z.leb_le in C2. apply andb_false_iff in C1. rewrite !Z.leb_gt in C1.
      exists m, k. split; [|reflexivity]. exists (firstn (Z.to_nat (len + k)) ds), [46], (skipn (Z.to_nat (len + k)) ds), [], 0.
      rewrite app_nil_r, firstn_skipn. split; [reflexivity|].
      rewrite <- (firstn_skipn (Z.to_nat (len + k)) ds) in D1. apply Forall_app in D1. destruct D1 as [D1 D1'].
      split; [exact D1|]. split; [exact D1'|]. split; [exact D3|]. split; [now left|]. split; [left; now split|]. split; [now rewrite D2|].
      rewrite skipn_length. subst len. lia.
    + destruct ((-5 <? len + k) && (len + k <=? 0)) eqn:C3.
      * apply andb_true_iff in C3. rewrite Z.ltb_lt, Z.leb_le in C3. destruct (zeros_digits (- (len + k))) as [Z1 Z2].
        exists m, k. split; [|reflexivity]. exists [48], [46], (zeros (- (len + k)) ++ ds), [], 0. rewrite app_nil_r. split; [reflexivity|].
        split; [constructor; [unfold digit; lia|constructor]|]. split; [apply Forall_app; now split|]. split; [discriminate|]. split; [now left|]. split; [left; now split|].
        rewrite !whole_app, Z2, D2. cbn [whole]. split; [lia|]. rewrite app_length, Nat2Z.inj_add, zeros_length by lia. fold len. lia.
      * destruct (Z.eqb_spec len 1) as [E1|E1].
        -- exists m, k. split; [|reflexivity]. exists ds, [], [], (101 :: show_int (len + k - 1)), (len + k - 1). split; [reflexivity|].
           split; [exact D1|]. split; [constructor|]. rewrite app_nil_r. split; [exact D3|]. split; [right; now split|]. split; [apply show_int_exponent; assert (1000 < 10 ^ 40) by reflexivity; lia|]. split; [now rewrite D2|]. cbn [length Z.of_nat]. lia.
        -- exists m, k. split; [|reflexivity]. exists (firstn 1 ds), [46], (skipn 1 ds), (101 :: show_int (len + k - 1)), (len + k - 1). rewrite firstn_skipn. split; [reflexivity|].
           rewrite <- (firstn_skipn 1 ds) in D1. apply Forall_app in D1. destruct D1 as [D1 D1'].
           split; [exact D1|]. split; [exact D1'|]. split; [exact D3|]. split; [now left|]. split; [apply show_int_exponent; assert (1000 < 10 ^ 40) by reflexivity; lia|]. split; [now rewrite D2|].
           rewrite skipn_length. subst len. lia.
Qed.

(** The characters of a number need no quotes. *)
Lemma digit_plain : forall ds, Forall digit ds -> plain ds.
Proof. intros ds H. unfold plain. eapply Forall_impl; [|exact H]. unfold digit. cbv beta. intros c Hc. lia. Qed.
Lemma sign_plain : forall neg sg, sign_is neg sg -> plain sg.
Proof. intros neg sg [(-> & _)|[(-> & _)|(-> & _)]]; unfold plain; repeat constructor; lia. Qed.
Lemma plain_app : forall a b, plain a -> plain b -> plain (a ++ b).
Proof. intros a b Ha Hb. unfold plain. apply Forall_app. now split. Qed.
Lemma decimal_plain : forall m k t, decimal_is m k t -> plain t /\ t <> [].
Proof.
  intros m k t H. destruct (decimal_first _ _ _ H) as (_ & c & r & E & _). split; [|congruence]. clear E.
  destruct H as (a & point & b & e & x & -> & Ha & Hb & _ & Hp & He & _ & _).
  apply plain_app; [now apply digit_plain|]. apply plain_app; [destruct Hp as [->|(-> & _)]; unfold plain; repeat constructor; lia|].
  apply plain_app; [now apply digit_plain|]. destruct He as [(-> & _)|(c' & sg & ds & neg & -> & Hc & Hs & Hd & _)]; [constructor|].
  constructor; [destruct Hc; lia|]. apply plain_app; [now apply (sign_plain neg)|now apply digit_plain].
Qed.

(** * Scaling. *)
Lemma scaled_ok : forall n d k lo c, 0 < n -> 0 < d -> scaled n d k = (lo, c) ->
  let v := (IZR n / IZR d)%R in
  0 <= lo /\ (IZR lo * ten_to k <= v < IZR (lo + 1) * ten_to k)%R /\
  match c with Lt => (v < (IZR lo + / 2) * ten_to k)%R | Eq => v = ((IZR lo + / 2) * ten_to k)%R | Gt => ((IZR lo + / 2) * ten_to k < v)%R end.
Proof.
  intros n d k lo c Hn Hd E v. unfold scaled in E.
  set (n' := if 0 <=? k then n else n * 10 ^ (- k)) in *. set (d' := if 0 <=? k then d * 10 ^ k else d) in *.
  assert (Pk : forall j, 0 <= j -> 0 < 10 ^ j) by (intros; apply Z.pow_pos_nonneg; lia).
  assert (Hn' : 0 < n') by (subst n'; destruct (Z.leb_spec 0 k); [lia|specialize (Pk (- k)); nia]).
  assert (Hd' : 0 < d') by (subst d'; destruct (Z.leb_spec 0 k); [specialize (Pk k); nia|lia]).
  assert (Rd : (0 < IZR d)%R) by (now apply IZR_lt). assert (Rd' : (0 < IZR d')%R) by (now apply IZR_lt). pose proof (ten_pow k) as Tk.
  assert (V : v = (IZR n' / IZR d' * ten_to k)%R).
  { subst v n' d'. destruct (Z.leb_spec 0 k) as [L|L].
    - rewrite mult_IZR, <- (ten_Z k L). field. split; [lra|]. pose proof (ten_pow k). lra.
    - rewrite mult_IZR, <- (ten_Z (- k)) by lia. rewrite ten_neg. field. repeat split; lra. }
  pose proof (f_equal fst E) as E1. pose proof (f_equal snd E) as E2. cbn [fst snd] in E1, E2. subst lo c. clear E. pose proof (Z.div_mod n' d' ltac:(lia)) as D. pose proof (Z.mod_pos_bound n' d' Hd') as B.
  set (q := n' / d') in *. set (r := n' mod d') in *.
  assert (Q : (IZR n' / IZR d' = IZR q + IZR r / IZR d')%R) by (rewrite D at 1; rewrite plus_IZR, mult_IZR; field; lra).
  assert (Rr : (0 <= IZR r / IZR d' < 1)%R).
  { split; [apply Rmult_le_pos; [apply IZR_le; lia|left; now apply Rinv_0_lt_compat]|]. apply (Rmult_lt_reg_r (IZR d')); [exact Rd'|]. unfold Rdiv. rewrite Rmult_assoc, Rinv_l by lra. rewrite Rmult_1_l, Rmult_1_r. apply IZR_lt; lia. }
  split; [subst q; apply Z.div_pos; lia|]. rewrite V, Q. split.
  - rewrite plus_IZR. split; [apply Rmult_le_compat_r; lra|]. apply Rmult_lt_compat_r; lra.
  - assert (Hf : forall a b : R, (a < b)%R -> (a * ten_to k < b * ten_to k)%R) by (intros; now apply Rmult_lt_compat_r).
    assert (X : (IZR r / IZR d' * (2 * IZR d') = IZR (2 * r))%R) by (rewrite mult_IZR; field; lra).
    destruct (Z.compare_spec (2 * r) d') as [C|C|C].
    + assert (Y : (IZR r / IZR d' = / 2)%R); [|now rewrite Y]. rewrite C in X. apply (Rmult_eq_reg_r (2 * IZR d')); [rewrite X; field|lra].
    + apply Hf. enough ((IZR r / IZR d' < / 2)%R) by lra. apply (Rmult_lt_reg_r (2 * IZR d')); [lra|]. rewrite X. apply IZR_lt in C. lra.
    + apply Hf. enough ((/ 2 < IZR r / IZR d')%R) by lra. apply (Rmult_lt_reg_r (2 * IZR d')); [lra|]. rewrite X. apply IZR_lt in C. lra.
Qed.

Lemma decimal_exponent_ok : forall n d, 0 < n -> 0 < d -> 1 <= n * 10 ^ 400 / d ->
  (ten_to (decimal_exponent n d - 1) <= IZR n / IZR d < ten_to (decimal_exponent n d))%R /\ -400 < decimal_exponent n d.
Proof.
  intros n d Hn Hd H. unfold decimal_exponent. set (q := n * 10 ^ 400 / d) in *.
  pose proof (Zdigits_correct radix10 q) as Dq. rewrite Z.abs_eq in Dq by lia. pose proof (Zdigits_gt_0 radix10 q ltac:(lia)) as Pq.
  set (D := Zdigits radix10 q) in *. change (Zpower radix10) with (Z.pow 10) in Dq.
  assert (Rd : (0 < IZR d)%R) by (now apply IZR_lt).
  pose proof (Z.div_mod (n * 10 ^ 400) d ltac:(lia)) as E. pose proof (Z.mod_pos_bound (n * 10 ^ 400) d Hd) as B. fold q in E.
  assert (T4 : IZR (10 ^ 400) = ten_to 400) by (rewrite ten_Z by lia; reflexivity).
  split; [|lia]. pose proof (ten_pow 400) as P4.
  assert (L : (IZR q <= IZR n / IZR d * ten_to 400 < IZR (q + 1))%R).
  { rewrite <- T4. replace (IZR n / IZR d * IZR (10 ^ 400))%R with (IZR (n * 10 ^ 400) / IZR d)%R by (rewrite mult_IZR; field; lra).
    split; [apply (Rmult_le_reg_r (IZR d))|apply (Rmult_lt_reg_r (IZR d))]; try exact Rd; unfold Rdiv; rewrite Rmult_assoc, Rinv_l, Rmult_1_r, <- mult_IZR by lra; [apply IZR_le|apply IZR_lt]; nia. }
  replace (D - 400 - 1) with (D - 1 + - (400)) by ring. replace (D - 400) with (D + - (400)) by ring. rewrite !ten_add, ten_neg.
  rewrite !(ten_Z (D - 1)), (ten_Z D) by lia. destruct L as [L1 L2]. destruct Dq as [Dq1 Dq2].
  assert (K1 : (IZR (10 ^ (D - 1)) <= IZR q)%R) by (now apply IZR_le). assert (K2 : (IZR (q + 1) <= IZR (10 ^ D))%R) by (apply IZR_le; lia).
  set (w := (IZR n / IZR d)%R) in *. set (t := ten_to 400) in *. split.
  - apply (Rmult_le_reg_r t); [exact P4|]. rewrite Rmult_assoc, Rinv_l by lra. lra.
  - apply (Rmult_lt_reg_r t); [exact P4|]. rewrite Rmult_assoc, Rinv_l by lra. lra.
Qed.

(** * Reading back. *)
Section OneNumber.
Variables (tie : Z -> bool) (x : f64) (s : bool) (n d : Z) (v : R).
Hypothesis Hn : 0 < n.
Hypothesis Hd : 0 < d.
Hypothesis Hv : v = (IZR n / IZR d)%R.
Hypothesis Fx : finite x.
Hypothesis Sx : Binary.Bsign 53 1024 x = s.
Hypothesis Rx : R64 x = (if s then - v else v)%R.

Lemma v_pos : (0 < v)%R.
Proof. rewrite Hv. apply Rdiv_lt_0_compat; now apply IZR_lt. Qed.
Lemma v_abs : Rabs (R64 x) = v.
Proof. rewrite Rx. pose proof v_pos. destruct s; [rewrite Rabs_Ropp|]; apply Rabs_pos_eq; lra. Qed.
Lemma v_format : generic_format radix2 (FLT_exp (-1074) 53) v.
Proof. rewrite <- v_abs. apply generic_format_abs. apply (generic_format_B2R 53 1024). Qed.
Lemma v_small : (v < bpow radix2 1024)%R.
Proof. rewrite <- v_abs. apply (abs_B2R_lt_emax 53 1024). Qed.
Lemma v_large : (bpow radix2 (-1074) <= v)%R.
Proof.
  pose proof v_pos. pose proof v_format as G. pose proof (ulp_le_id radix2 (FLT_exp (-1074) 53) v ltac:(lra) G) as U.
  apply Rle_trans with (2 := U). rewrite ulp_neq_0 by lra. apply bpow_le. unfold cexp, FLT_exp. lia.
Qed.

(** A decimal reads back exactly if it rounds to the number. *)
Lemma reads_back : forall m k, 0 <= m -> (nearest_decimal s m k = x <-> nearest64 (IZR m * ten_to k) = v).
Proof.
  intros m k Hm. pose proof (ten_pow k) as T. assert (P : (0 <= IZR m * ten_to k)%R) by (apply Rmult_le_pos; [apply IZR_le; lia|lra]).
  pose proof (nearest_decimal_ok s m k Hm) as (S1 & K). pose proof v_pos as Pv. split.
  - intros E. rewrite E in K. destruct K as [(_ & _ & K)|(_ & K)].
    + rewrite Rx in K. destruct s; lra.
    + exfalso. destruct x; try discriminate K. discriminate Fx.
  - intros E. assert (L : (nearest64 (IZR m * ten_to k) < bpow radix2 1024)%R) by (rewrite E; apply v_small). apply overflow_threshold in L; [|exact P].
    destruct K as [(_ & K1 & K2)|(K & _)]; [|lra]. apply Binary.B2R_Bsign_inj; [exact K1|exact Fx| |congruence]. unfold R64 in K2, Rx. rewrite K2, Rx, E. reflexivity.
Qed.

Lemma same_bits_spec : forall y, same_bits y x = true <-> y = x.
Proof. intros y. unfold same_bits. rewrite Z.eqb_eq. split; [apply to_bits_inj|now intros ->]. Qed.

(** What the search finds with [D] digits. *)
Definition reads (m k : Z) : Prop := nearest64 (IZR m * ten_to k) = v.
Lemma reads_bits : forall m k, 0 <= m -> same_bits (nearest_decimal s m k) x = true <-> reads m k.
Proof. intros m k H. rewrite same_bits_spec. now apply reads_back. Qed.

Definition distance (m k : Z) : R := Rabs (IZR m * ten_to k - v).
Lemma shortest_ok : forall fuel expo dg, 
  match shortest tie fuel x s n d expo dg with
  | Some (m, k) => exists D lo c, scaled n d k = (lo, c) /\ k = expo - D /\ dg <= D < dg + Z.of_nat fuel /\ (m = lo \/ m = lo + 1) /\ reads m k /\
      (reads lo k -> (distance m k <= distance lo k)%R) /\ (reads (lo + 1) k -> (distance m k <= distance (lo + 1) k)%R) /\
      (forall D', dg <= D' < D -> forall lo' c', scaled n d (expo - D') = (lo', c') -> ~ reads lo' (expo - D') /\ ~ reads (lo' + 1) (expo - D'))
  | None => forall D', dg <= D' < dg + Z.of_nat fuel -> forall lo' c', scaled n d (expo - D') = (lo', c') -> ~ reads lo' (expo - D') /\ ~ reads (lo' + 1) (expo - D')
  end.
Proof.
  induction fuel as [|fuel IH]; intros expo dg; cbn [shortest]; [intros D' H; lia|].
  destruct (scaled n d (expo - dg)) as [lo c] eqn:E. destruct (scaled_ok n d (expo - dg) lo c Hn Hd E) as (H0 & H1 & H2). rewrite <- Hv in H1, H2.
  set (k := expo - dg) in *. pose proof (ten_pow k) as T.
  assert (Dl : distance lo k = (v - IZR lo * ten_to k)%R) by (unfold distance; rewrite Rabs_left1 by lra; ring).
  assert (Du : distance (lo + 1) k = (IZR lo * ten_to k + ten_to k - v)%R) by (unfold distance; rewrite Rabs_right by lra; rewrite plus_IZR; ring).
  pose proof (reads_bits lo k H0) as Bl. pose proof (reads_bits (lo + 1) k ltac:(lia)) as Bu.
  assert (Last : forall D' lo' c', dg <= D' < dg -> scaled n d (expo - D') = (lo', c') -> ~ reads lo' (expo - D') /\ ~ reads (lo' + 1) (expo - D')) by (intros; lia).
  destruct (same_bits (nearest_decimal s lo k) x) eqn:El, (same_bits (nearest_decimal s (lo + 1) k) x) eqn:Eu; cbn [andb].
  - pose proof (proj1 Bl eq_refl) as Rl. pose proof (proj1 Bu eq_refl) as Ru.
    exists dg, lo, c. split; [exact E|]. split; [reflexivity|]. split; [lia|]. rewrite Dl, Du.
    assert (Up : distance (lo + 1) k = distance (lo + 1) k) by reflexivity.
    destruct c; [destruct (tie lo)| |]; (split; [(now left) || (now right)|]); (split; [assumption|]); (split; [|split]); try (intros _; rewrite ?Dl, ?Du; lra); intros; now apply (Last D' lo' c').
  - pose proof (proj1 Bl eq_refl) as Rl. exists dg, lo, c. split; [exact E|]. split; [reflexivity|]. split; [lia|]. split; [now left|]. split; [exact Rl|]. split; [intros; lra|].
    split; [intros C; apply Bu in C; discriminate C|]. intros D' HD' lo' c'. now apply Last.
  - pose proof (proj1 Bu eq_refl) as Ru. exists dg, lo, c. split; [exact E|]. split; [reflexivity|]. split; [lia|]. split; [now right|]. split; [exact Ru|].
    split; [intros C; apply Bl in C; discriminate C|]. split; [intros; lra|]. intros D' HD' lo' c'. now apply Last.
  - assert (N : ~ reads lo k /\ ~ reads (lo + 1) k) by (split; intros C; [apply Bl in C|apply Bu in C]; discriminate C).
    specialize (IH expo (dg + 1)). destruct (shortest tie fuel x s n d expo (dg + 1)) as [[m k']|].
    + destruct IH as (D & lo' & c' & I1 & I2 & I3 & I4 & I5 & I6 & I7 & I8). exists D, lo', c'. repeat (split; [assumption || lia|]).
      intros D' HD' lo2 c2 E2. destruct (Z.eq_dec D' dg) as [->|ND]; [fold k in E2; assert (lo2 = lo) as -> by congruence; exact N|]. apply (I8 D' ltac:(lia) lo2 c2 E2).
    + intros D' HD' lo2 c2 E2. destruct (Z.eq_dec D' dg) as [->|ND]; [fold k in E2; assert (lo2 = lo) as -> by congruence; exact N|]. apply (IH D' ltac:(lia) lo2 c2 E2).
Qed.

(** Near a double there is only that double. *)
Lemma near_reads : forall w, (Rabs (w - v) <= v * / (2 * 10 ^ 16))%R -> nearest64 w = v.
Proof.
  intros w Hw. pose proof v_pos as Pv. pose proof v_format as G. pose proof (bpow_mag_gt radix2 v) as M1. rewrite Rabs_pos_eq in M1 by lra.
  pose proof (bpow_mag_le radix2 v ltac:(lra)) as M2. rewrite Rabs_pos_eq in M2 by lra.
  assert (U : (v * bpow radix2 (-53) < ulp radix2 (FLT_exp (-1074) 53) v)%R).
  { rewrite ulp_neq_0 by lra. unfold cexp. apply Rlt_le_trans with (bpow radix2 (mag radix2 v - 53)).
    - unfold Z.sub. rewrite bpow_plus. apply Rmult_lt_compat_r; [apply bpow_gt_0|exact M1].
    - apply bpow_le. unfold FLT_exp. lia. }
  assert (P : (pred radix2 (FLT_exp (-1074) 53) v <= v - v * bpow radix2 (-53))%R).
  { rewrite pred_eq_pos by lra. unfold pred_pos. destruct (Req_bool_spec v (bpow radix2 (mag radix2 v - 1))) as [E|N].
    - apply Rplus_le_compat_l, Ropp_le_contravar. rewrite E at 1. rewrite <- bpow_plus. apply bpow_le. unfold FLT_exp. lia.
    - lra. }
  assert (Sc : succ radix2 (FLT_exp (-1074) 53) v = (v + ulp radix2 (FLT_exp (-1074) 53) v)%R) by (apply succ_eq_pos; lra).
  assert (C : (/ (2 * 10 ^ 16) < / 2 * bpow radix2 (-53))%R).
  { change (bpow radix2 (-53)) with (/ 9007199254740992)%R. rewrite <- Rinv_mult. apply Rinv_lt_contravar; lra. }
  assert (V : (v * / (2 * 10 ^ 16) < v * (/ 2 * bpow radix2 (-53)))%R) by (now apply Rmult_lt_compat_l).
  apply Rabs_le_inv in Hw. apply Rle_antisym.
  - apply round_N_le_midp; [apply FLT_exp_valid; exact prec53_gt_0|exact G|]. rewrite Sc. lra.
  - apply round_N_ge_midp; [apply FLT_exp_valid; exact prec53_gt_0|exact G|]. lra.
Qed.

Lemma expo_pre : 1 <= n * 10 ^ 400 / d.
Proof.
  pose proof v_large as L. apply Z.div_le_lower_bound; [exact Hd|]. rewrite Z.mul_1_r. apply le_IZR. rewrite mult_IZR.
  assert (Rd : (0 < IZR d)%R) by (now apply IZR_lt). rewrite Hv in L.
  assert (L' : (IZR d * bpow radix2 (-1074) <= IZR n)%R).
  { apply (Rmult_le_compat_r (IZR d)) in L; [|lra]. unfold Rdiv in L. rewrite Rmult_assoc, Rinv_l, Rmult_1_r in L by lra. lra. }
  assert (B : (1 <= bpow radix2 (-1074) * IZR (10 ^ 400))%R).
  { change (-1074) with (Z.opp 1074). rewrite bpow_opp. apply (Rmult_le_reg_l (bpow radix2 1074)); [apply bpow_gt_0|]. rewrite <- Rmult_assoc, Rinv_r, Rmult_1_r, Rmult_1_l by (apply Rgt_not_eq, bpow_gt_0).
    rewrite <- IZR_Zpower by lia. apply IZR_le. apply Z.leb_le. vm_compute. reflexivity. }
  set (T := IZR (10 ^ 400)) in *. assert (0 <= T)%R by (subst T; apply IZR_le; apply Z.pow_nonneg; lia). clearbody T.
  apply Rle_trans with (IZR d * bpow radix2 (-1074) * T)%R; [|apply Rmult_le_compat_r; assumption]. rewrite Rmult_assoc. rewrite <- (Rmult_1_r (IZR d)) at 1. apply Rmult_le_compat_l; lra.
Qed.

Definition E10 : Z := decimal_exponent n d.
Lemma E10_ok : (ten_to (E10 - 1) <= v < ten_to E10)%R /\ -400 < E10 <= 309.
Proof.
  destruct (decimal_exponent_ok n d Hn Hd expo_pre) as (H1 & H2). fold E10 in H1, H2. rewrite <- Hv in H1. split; [exact H1|]. split; [exact H2|].
  apply Znot_gt_le. intros C. pose proof v_small as Vs.
  assert (A : (ten_to 309 <= ten_to (E10 - 1))%R) by (rewrite !ten_Z by lia; apply IZR_le, Z.pow_le_mono_r; lia).
  assert (B : (bpow radix2 1024 <= ten_to 309)%R).
  { rewrite ten_Z by lia. rewrite <- IZR_Zpower by lia. apply IZR_le. apply Z.leb_le. vm_compute. reflexivity. }
  lra.
Qed.

(** With [D] digits the quotient has [D] digits. *)
Lemma lo_range : forall D lo c, 1 <= D -> scaled n d (E10 - D) = (lo, c) -> 10 ^ (D - 1) <= lo < 10 ^ D.
Proof.
  intros D lo c HD E. destruct (scaled_ok n d (E10 - D) lo c Hn Hd E) as (H0 & H1 & _). rewrite <- Hv in H1. destruct E10_ok as ((L & U) & _).
  set (k := E10 - D) in *. pose proof (ten_pow k) as T.
  replace (E10 - 1) with ((D - 1) + k) in L by lia. replace E10 with (D + k) in U by lia. rewrite ten_add, ten_Z in L by lia. rewrite ten_add, ten_Z in U by lia.
  split.
  - apply Z.lt_succ_r. unfold Z.succ. apply lt_IZR. apply (Rmult_lt_reg_r (ten_to k)); [exact T|]. lra.
  - apply lt_IZR. apply (Rmult_lt_reg_r (ten_to k)); [exact T|]. lra.
Qed.

(** Seventeen digits are enough. *)
Lemma seventeen : forall lo c, scaled n d (E10 - 17) = (lo, c) -> reads lo (E10 - 17) \/ reads (lo + 1) (E10 - 17).
Proof.
  intros lo c E. destruct (scaled_ok n d (E10 - 17) lo c Hn Hd E) as (H0 & H1 & H2). rewrite <- Hv in H1, H2. destruct E10_ok as ((L & _) & _).
  replace (E10 - 1) with (16 + (E10 - 17)) in L by lia. rewrite ten_add in L. set (t := ten_to (E10 - 17)) in *. pose proof (ten_pow (E10 - 17)) as T. fold t in T.
  replace (ten_to 16) with (10 ^ 16)%R in L by (unfold ten_to; rewrite (pow_powerRZ 10 16); reflexivity).
  assert (Q : (t * / 2 <= v * / (2 * 10 ^ 16))%R).
  { apply (Rmult_le_reg_r (2 * 10 ^ 16)); [lra|]. rewrite (Rmult_assoc v), Rinv_l by lra. lra. }
  rewrite plus_IZR in H1. unfold reads. fold t. destruct c.
  - left. apply near_reads. rewrite Rabs_left1; lra.
  - left. apply near_reads. rewrite Rabs_left1; lra.
  - right. apply near_reads. rewrite plus_IZR. rewrite Rabs_right; lra.
Qed.

(** If any decimal with that many digits reads back, one of the two neighbours does. *)
Lemma neighbours : forall D lo c m k, 1 <= D -> scaled n d (E10 - D) = (lo, c) -> 0 < m < 10 ^ D -> reads m k ->
  (reads lo (E10 - D) \/ reads (lo + 1) (E10 - D)) /\
  ((IZR m * ten_to k <= IZR lo * ten_to (E10 - D))%R /\ reads lo (E10 - D) \/ (IZR (lo + 1) * ten_to (E10 - D) <= IZR m * ten_to k)%R /\ reads (lo + 1) (E10 - D)).
Proof.
  intros D lo c m k HD E Hm Rm. destruct (scaled_ok n d (E10 - D) lo c Hn Hd E) as (H0 & H1 & _). rewrite <- Hv in H1. pose proof (lo_range D lo c HD E) as Lr.
  set (k0 := E10 - D) in *. pose proof (ten_pow k0) as T0. pose proof (ten_pow k) as T.
  assert (Mono : forall a b, (a <= b)%R -> (nearest64 a <= nearest64 b)%R) by (intros; apply round_le; [apply FLT_exp_valid; exact prec53_gt_0|apply valid_rnd_N|assumption]).
  assert (Self : nearest64 v = v) by (apply round_generic; [apply valid_rnd_N|exact v_format]).
  assert (K : (IZR m * ten_to k <= IZR lo * ten_to k0 \/ IZR (lo + 1) * ten_to k0 <= IZR m * ten_to k)%R).
  { destruct (Z.le_gt_cases k0 k) as [Lk|Lk].
    - replace k with ((k - k0) + k0) by lia. rewrite ten_add, ten_Z by lia. rewrite <- Rmult_assoc, <- mult_IZR. set (q := m * 10 ^ (k - k0)).
      destruct (Z.le_gt_cases q lo); [left|right]; (apply Rmult_le_compat_r; [lra|apply IZR_le; lia]).
    - left. apply Rle_trans with (ten_to (D - 1) * ten_to k0)%R.
      + rewrite <- ten_add. replace (D - 1 + k0) with (D + k + (k0 - k - 1)) by lia. rewrite ten_add. rewrite (ten_add D k), (ten_Z D) by lia.
        assert (1 <= ten_to (k0 - k - 1))%R by (rewrite ten_Z by lia; apply IZR_le; assert (0 < 10 ^ (k0 - k - 1)) by (apply Z.pow_pos_nonneg; lia); lia).
        assert (IZR m * ten_to k <= IZR (10 ^ D) * ten_to k)%R by (apply Rmult_le_compat_r; [lra|apply IZR_le; lia]).
        assert (0 <= IZR (10 ^ D) * ten_to k)%R by (apply Rmult_le_pos; [apply IZR_le; lia|lra]). nra.
      + rewrite (ten_Z (D - 1)) by lia. apply Rmult_le_compat_r; [lra|]. apply IZR_le. lia. }
  unfold reads in *. destruct K as [K|K].
  - assert (R : nearest64 (IZR lo * ten_to k0) = v) by (apply Rle_antisym; [apply Rle_trans with (nearest64 v); [apply Mono; lra|lra]|apply Rle_trans with (nearest64 (IZR m * ten_to k)); [lra|now apply Mono]]). split; [now left|left; now split].
  - assert (R : nearest64 (IZR (lo + 1) * ten_to k0) = v) by (apply Rle_antisym; [apply Rle_trans with (nearest64 (IZR m * ten_to k)); [now apply Mono|lra]|apply Rle_trans with (nearest64 v); [lra|apply Mono; lra]]). split; [now right|right; now split].
Qed.

(** The search ends, with a decimal of [D] digits that reads back; none with fewer digits does, and none with as many is nearer. *)
Lemma found : exists m k D, shortest tie 17 x s n d E10 1 = Some (m, k) /\ k = E10 - D /\ 1 <= D <= 17 /\ 0 < m <= 10 ^ D /\ reads m k /\
  (forall m' k' D', 0 <= D' < D -> 0 < m' < 10 ^ D' -> ~ reads m' k') /\
  (forall m' k', 0 < m' < 10 ^ D -> reads m' k' -> (distance m k <= distance m' k')%R).
Proof.
  pose proof (shortest_ok 17 E10 1) as K. destruct (shortest tie 17 x s n d E10 1) as [[m k]|].
  - destruct K as (D & lo & c & E & Ek & HD & Hm & Rm & C1 & C2 & Before). subst k. change (Z.of_nat 17) with 17 in HD. pose proof (lo_range D lo c ltac:(lia) E) as Lr.
    assert (0 < 10 ^ (D - 1)) by (apply Z.pow_pos_nonneg; lia).
    exists m, (E10 - D), D. split; [reflexivity|]. split; [reflexivity|]. split; [lia|]. split; [lia|]. split; [exact Rm|]. split.
    + intros m' k' D' HD' Hm' R'. destruct (Z.eq_dec D' 0) as [->|N0]; [cbn in Hm'; lia|].
      destruct (scaled n d (E10 - D')) as [lo' c'] eqn:E'. destruct (neighbours D' lo' c' m' k' ltac:(lia) E' Hm' R') as ([N|N] & _); [now apply (proj1 (Before D' ltac:(lia) lo' c' E'))|now apply (proj2 (Before D' ltac:(lia) lo' c' E'))].
    + intros m' k' Hm' R'. destruct (scaled_ok n d (E10 - D) lo c Hn Hd E) as (H0 & H1 & _). rewrite <- Hv in H1.
      destruct (neighbours D lo c m' k' ltac:(lia) E Hm' R') as (_ & [(Q & N)|(Q & N)]).
      * apply Rle_trans with (1 := C1 N). unfold distance. rewrite !Rabs_left1; lra.
      * apply Rle_trans with (1 := C2 N). unfold distance. rewrite !Rabs_right; lra.
  - exfalso. destruct (scaled n d (E10 - 17)) as [lo c] eqn:E. destruct (K 17 ltac:(cbn; lia) lo c E) as [N1 N2]. destruct (seventeen lo c E); contradiction.
Qed.
End OneNumber.
