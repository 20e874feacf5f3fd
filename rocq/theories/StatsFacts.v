(** Facts about split_n, the statistics scan and the sample width. *)
From Coq Require Import List ZArith Bool Lia Reals Lra.
From Coq Require Import ZifyBool.
From Flocq Require Import Core IEEE754.BinarySingleNaN IEEE754.Binary IEEE754.Bits.
From Verif Require Import Base Model_Float Model_Bincode Model_Stats Spec FloatFacts BincodeFacts.
Import ListNotations.
Open Scope Z_scope.

Lemma lor_disjoint_pow2 a n : 0 <= n -> 0 <= a < 2 ^ n -> Z.lor a (2 ^ n) = a + 2 ^ n.
Proof.
  intros Hn Ha.
  assert (H : Z.land a (2 ^ n) = 0).
  { apply Z.bits_inj'. intros k Hk. rewrite Z.land_spec, Z.bits_0.
    rewrite Z.pow2_bits_eqb by lia. destruct (Z.eqb_spec n k) as [->|Hne]; [|apply andb_false_r].
    rewrite andb_true_r. rewrite <- (Z.mod_small a (2 ^ k)) by lia.
    apply Z.mod_pow2_bits_high. lia. }
  rewrite <- Z.lxor_lor by exact H. now rewrite <- Z.add_nocarry_lxor.
Qed.

(** Fields of a packed pattern. *)
Lemma join_fields (s : bool) m e bits :
  0 <= m < 2 ^ 52 -> 0 <= e < 2 ^ 11 -> bits = join_bits 52 11 s m e ->
  wrap_s 64 bits <? 0 = s
  /\ Z.land (Z.shiftr bits 52) (2 ^ 11 - 1) = e
  /\ Z.land bits (2 ^ 52 - 1) = m.
Proof.
  intros Hm He ->. unfold join_bits.
  rewrite Z.shiftl_mul_pow2 by lia.
  change (2 ^ 11 - 1) with (Z.ones 11). change (2 ^ 52 - 1) with (Z.ones 52).
  rewrite !Z.land_ones by lia. rewrite Z.shiftr_div_pow2 by lia.
  rewrite Z.div_add_l by lia. rewrite (Z.div_small m) by lia.
  change (2 ^ 11) with 2048 in *. change (2 ^ 52) with 4503599627370496 in *.
  repeat split.
  - unfold wrap_s. change (2 ^ (64 - 1)) with 9223372036854775808. change (2 ^ 64) with 18446744073709551616.
    destruct s.
    + apply Z.ltb_lt.
      replace ((2048 + e) * 4503599627370496 + m + 9223372036854775808)
        with ((e * 4503599627370496 + m) + 1 * 18446744073709551616) by lia.
      rewrite Z_mod_plus_full. rewrite Z.mod_small by lia. lia.
    + apply Z.ltb_ge. rewrite Z.mod_small by lia. lia.
  - destruct s.
    + replace (2048 + e + 0) with (e + 1 * 2048) by lia. rewrite Z_mod_plus_full. apply Z.mod_small. lia.
    + rewrite Z.mod_small; lia.
  - rewrite Z.add_comm, Z_mod_plus_full. apply Z.mod_small. lia.
Qed.

(** Fields of a finite double. *)
Lemma bits_zero s : to_bits (B754_zero 53 1024 s) = join_bits 52 11 s 0 0.
Proof. reflexivity. Qed.

Lemma bits_finite s m e H :
  to_bits (B754_finite 53 1024 s m e H) =
  if 0 <=? Zpos m - 2 ^ 52 then join_bits 52 11 s (Zpos m - 2 ^ 52) (e + 1075)
  else join_bits 52 11 s (Zpos m) 0.
Proof.
  unfold to_bits, bits_of_b64, bits_of_binary_float.
  change (SpecFloat.emin (52 + 1) (2 ^ (11 - 1))) with (-1074).
  destruct (0 <=? Zpos m - 2 ^ 52); [|reflexivity].
  f_equal. lia.
Qed.

Lemma finite_bounds m e : SpecFloat.bounded 53 1024 m e = true ->
  -1074 <= e <= 971 /\ Zpos m < 2 ^ 53 /\ (2 ^ 52 <= Zpos m \/ e = -1074).
Proof.
  intros Hb.
  assert (Hm : Zpos m < 2 ^ 53).
  { unfold SpecFloat.bounded in Hb. apply andb_prop in Hb. destruct Hb as [Hb1 Hb2].
    unfold SpecFloat.canonical_mantissa in Hb1. apply Zeq_bool_eq in Hb1.
    rewrite Digits.Zpos_digits2_pos in Hb1. unfold SpecFloat.fexp, SpecFloat.emin in Hb1.
    assert (Digits.Zdigits radix2 (Zpos m) <= 53) by lia.
    apply (Digits.Zpower_gt_Zdigits radix2 53 (Zpos m)). exact H. }
  unfold SpecFloat.bounded in Hb. apply andb_prop in Hb. destruct Hb as [Hb1 Hb2].
  unfold SpecFloat.canonical_mantissa in Hb1. apply Zeq_bool_eq in Hb1.
  apply Zle_bool_imp_le in Hb2.
  rewrite Digits.Zpos_digits2_pos in Hb1. unfold SpecFloat.fexp, SpecFloat.emin in Hb1.
  pose proof (Digits.Zdigits_ge_0 radix2 (Zpos m)) as Hd.
  split; [lia|split; [exact Hm|]].
  destruct (Z.eq_dec e (-1074)) as [->|Hne]; [right; reflexivity|left].
  assert (Digits.Zdigits radix2 (Zpos m) = 53) by lia.
  pose proof (Digits.Zpower_le_Zdigits radix2 52 (Zpos m)) as H1.
  apply H1. lia.
Qed.

(** Normal doubles: what split_n computes. *)
Definition signed (s : bool) (m : Z) : Z := if s then - m else m.

Lemma split_n_zero s : split_n (B754_zero 53 1024 s) = (0, f0).
Proof.
  unfold split_n.
  destruct (join_fields s 0 0 _ ltac:(lia) ltac:(lia) eq_refl) as (H1 & H2 & H3).
  rewrite (bits_zero s), H2.
  change (0 + (64 - 53 - 1023 + 1) <=? 0) with true. cbv iota.
  change (- (0 + (64 - 53 - 1023 + 1)) <? 64) with false. reflexivity.
Qed.

Lemma split_n_finite s m e H :
  2 ^ 52 <= Zpos m ->
  split_n (B754_finite 53 1024 s m e H) =
    (let sm := signed s (Zpos m) in
     if e <=? -64 then
       if -128 <? e then (0, fmul (int_as_f64 (Z.shiftr (wrap_u 64 sm) (-64 - e))) FRACT_SCALE)
       else (0, f0)
     else if e <? 0 then
       (Z.shiftr sm (- e),
        fmul (int_as_f64 (wrap_u 64 (Z.shiftl (wrap_u 64 sm) (e + 64)))) FRACT_SCALE)
     else if e <? 64 then (wrap_s 64 (Z.shiftl sm e), f0)
     else (0, f0)).
Proof.
  intros Hm. destruct (finite_bounds m e H) as (He & Hm2 & _).
  unfold split_n. rewrite bits_finite.
  assert (0 <=? Zpos m - 2 ^ 52 = true) as -> by lia.
  destruct (join_fields s (Zpos m - 2 ^ 52) (e + 1075) _ ltac:(lia) ltac:(lia) eq_refl) as (H1 & H2 & H3).
  rewrite H1, H2, H3. rewrite lor_disjoint_pow2 by lia.
  replace (Zpos m - 2 ^ 52 + 2 ^ 52) with (Zpos m) by lia.
  replace (e + 1075 + (64 - 53 - 1023 + 1)) with (e + 64) by lia.
  fold (signed s (Zpos m)). cbv zeta.
  destruct (e <=? -64) eqn:E1.
  - assert (e + 64 <=? 0 = true) as -> by lia.
    replace (- (e + 64)) with (-64 - e) by lia.
    destruct (-128 <? e) eqn:E2.
    + assert (-64 - e <? 64 = true) as -> by lia. reflexivity.
    + assert (-64 - e <? 64 = false) as -> by lia. reflexivity.
  - assert (e + 64 <=? 0 = false) as -> by lia.
    destruct (e <? 0) eqn:E2.
    + assert (e + 64 <? 64 = true) as -> by lia.
      replace (64 - (e + 64)) with (- e) by lia. reflexivity.
    + assert (e + 64 <? 64 = false) as -> by lia.
      destruct (e <? 64) eqn:E3.
      * assert (e + 64 <? 128 = true) as -> by lia. replace (e + 64 - 64) with e by lia. reflexivity.
      * assert (e + 64 <? 128 = false) as -> by lia. reflexivity.
Qed.

Lemma FRACT_SCALE_R : R64 FRACT_SCALE = bpow radix2 (-64) /\ fis_finite FRACT_SCALE = true.
Proof.
  split.
  - unfold R64. replace FRACT_SCALE with (B754_finite 53 1024 false 4503599627370496 (-116) eq_refl).
    + unfold Binary.B2R, F2R. cbn [SpecFloat.cond_Zopp Fnum Fexp].
      change (-116) with (-52 + -64). rewrite bpow_plus.
      change 4503599627370496 with (Zpower radix2 52). rewrite IZR_Zpower by lia.
      rewrite <- Rmult_assoc, <- bpow_plus. change (52 + -52) with 0. change (bpow radix2 0) with 1%R. lra.
    + apply to_bits_inj. vm_compute. reflexivity.
  - vm_compute. reflexivity.
Qed.

(** The fraction computed from a 64-bit word is zero iff the word is. *)
Lemma fract_zero n : 0 <= n < 2 ^ 64 -> feq (fmul (int_as_f64 n) FRACT_SCALE) f0 = (n =? 0).
Proof.
  intros Hn. destruct (Z.eqb_spec n 0) as [->|Hne].
  - vm_compute. reflexivity.
  - destruct (int_as_f64_correct n) as (H1 & H2 & _).
    { rewrite Z.abs_eq by lia. transitivity (2 ^ 64); [lia|]. apply Z.pow_le_mono_r; lia. }
    destruct FRACT_SCALE_R as [Hs Hsf].
    assert (Hge : (1 <= R64 (int_as_f64 n))%R).
    { rewrite H1. rewrite <- (rnd64_int 1) by lia.
      apply round_le; [apply fexp64_valid|apply valid_rnd_N|]. apply IZR_le. lia. }
    assert (Hle : (R64 (int_as_f64 n) <= bpow radix2 64)%R).
    { rewrite H1. apply Rle_trans with (Rabs (rnd64 (IZR n))); [apply Rle_abs|].
      apply rnd64_abs_le_bpow; [lia|]. rewrite <- abs_IZR, <- IZR_Zpower by lia. apply IZR_le.
      change (Zpower radix2 64) with (2 ^ 64). lia. }
    assert (Hp : (bpow radix2 (-64) <= R64 (int_as_f64 n) * bpow radix2 (-64) <= 1)%R).
    { pose proof (bpow_gt_0 radix2 (-64)). split; [nra|].
      replace 1%R with (bpow radix2 64 * bpow radix2 (-64))%R.
      - apply Rmult_le_compat_r; lra.
      - rewrite <- bpow_plus. reflexivity. }
    assert (Hr : (bpow radix2 (-64) <= rnd64 (R64 (int_as_f64 n) * bpow radix2 (-64)) <= 1)%R).
    { split.
      - replace (bpow radix2 (-64)) with (rnd64 (bpow radix2 (-64))) at 1.
        + apply round_le; [apply fexp64_valid|apply valid_rnd_N|]. lra.
        + apply round_generic; [apply valid_rnd_N|]. apply generic_format_bpow.
          unfold SpecFloat.fexp, SpecFloat.emin. lia.
      - rewrite <- (rnd64_int 1) by lia.
        apply round_le; [apply fexp64_valid|apply valid_rnd_N|]. exact (proj2 Hp). }
    pose proof (bpow_gt_0 radix2 (-64)) as Hpos.
    destruct (fmul_R (int_as_f64 n) FRACT_SCALE H2 Hsf) as [Hm Hmf].
    { rewrite Hs. rewrite Rabs_pos_eq by lra. apply Rle_lt_trans with 1%R; [lra|].
      change 1%R with (bpow radix2 0). apply bpow_lt. lia. }
    destruct (feq (fmul (int_as_f64 n) FRACT_SCALE) f0) eqn:E; [|reflexivity].
    apply feq_R in E; [|exact Hmf|reflexivity]. rewrite Hm, Hs, f0_R in E. lra.
Qed.

Lemma finite_R s m e H : R64 (B754_finite 53 1024 s m e H) = (IZR (signed s (Zpos m)) * bpow radix2 e)%R.
Proof. unfold R64, Binary.B2R, F2R. cbn [Fnum Fexp]. destruct s; reflexivity. Qed.

Lemma IZR_pow2 n : 0 <= n -> IZR (2 ^ n) = bpow radix2 n.
Proof. intros. symmetry. now rewrite <- IZR_Zpower. Qed.

(** m * 2^e with e < 0 is the integer z iff m = z * 2^-e. *)
Lemma scaled_int a e z : e <= 0 -> (IZR a * bpow radix2 e)%R = IZR z <-> a = z * 2 ^ (- e).
Proof.
  intros He. split; intros Hq.
  - apply eq_IZR. rewrite mult_IZR, IZR_pow2 by lia. rewrite <- Hq.
    rewrite Rmult_assoc, <- bpow_plus. replace (e + - e) with 0 by lia.
    change (bpow radix2 0) with 1%R. lra.
  - rewrite Hq, mult_IZR, IZR_pow2 by lia. rewrite Rmult_assoc, <- bpow_plus.
    replace (- e + e) with 0 by lia. change (bpow radix2 0) with 1%R. lra.
Qed.

Lemma wrap_u_range b z : 0 <= b -> 0 <= wrap_u b z < 2 ^ b.
Proof. intros. apply Z.mod_pos_bound. apply Z.pow_pos_nonneg; lia. Qed.

Lemma split_n_supported x : supported x ->
  (feq (snd (split_n x)) f0 = true <-> exists z, is_int x z)
  /\ (forall z, is_int x z -> fst (split_n x) = z).
Proof.
  intros (Hf & Hlo & Hhi).
  destruct x as [s|s|s pl Hpl|s m e Hb]; try discriminate.
  - rewrite split_n_zero. cbn [fst snd]. split.
    + split; intros _; [exists 0; split; reflexivity|reflexivity].
    + intros z [_ Hz]. change (0%R = IZR z) in Hz. apply (eq_IZR 0) in Hz. lia.
  - destruct (finite_bounds m e Hb) as (He & Hm2 & Hm1).
    assert (Hm : 2 ^ 52 <= Zpos m).
    { destruct Hm1 as [Hm1| ->]; [exact Hm1|]. exfalso.
      rewrite finite_R in Hlo. destruct Hlo as [Hz|Hlo].
      - pose proof (bpow_gt_0 radix2 (-1074)). assert (IZR (signed s (Z.pos m)) = 0)%R by nra.
        apply (eq_IZR _ 0) in H0. unfold signed in H0. destruct s; lia.
      - assert (Rabs (IZR (signed s (Z.pos m)) * bpow radix2 (-1074)) <= bpow radix2 53 * bpow radix2 (-1074))%R.
        { rewrite Rabs_mult. rewrite (Rabs_pos_eq (bpow radix2 (-1074))) by apply bpow_ge_0.
          apply Rmult_le_compat_r; [apply bpow_ge_0|]. rewrite <- abs_IZR, <- IZR_Zpower by lia.
          apply IZR_le. change (Zpower radix2 53) with (2 ^ 53). unfold signed. destruct s; lia. }
        rewrite <- bpow_plus in H.
        assert (bpow radix2 (53 + -1074) < bpow radix2 (-64))%R by (apply bpow_lt; lia). lra. }
    rewrite split_n_finite by exact Hm. cbv zeta.
    set (sm := signed s (Zpos m)) in *.
    rewrite finite_R in *. fold sm in Hlo, Hhi.
    assert (Hsm : Z.abs sm = Zpos m) by (unfold sm, signed; destruct s; lia).
    assert (Hsm0 : IZR sm <> 0%R) by (intros HH; apply (eq_IZR _ 0) in HH; lia).
    assert (HR : forall z, is_int (B754_finite 53 1024 s m e Hb) z <-> (IZR sm * bpow radix2 e)%R = IZR z).
    { intros z. unfold is_int. rewrite finite_R. split; [intros [_ HH]; exact HH|intros HH; split; [reflexivity|exact HH]]. }
    destruct (e <=? -64) eqn:E1.
    + (* below 2^-11: never an integer *)
      assert (Hni : forall z, ~ is_int (B754_finite 53 1024 s m e Hb) z).
      { intros z Hz. rewrite HR in Hz; apply scaled_int in Hz; [|lia].
        assert (2 ^ 64 <= 2 ^ (- e)) by (apply Z.pow_le_mono_r; lia).
        change (2 ^ 64) with 18446744073709551616 in *. change (2 ^ 53) with 9007199254740992 in *.
        destruct (Z.eq_dec z 0) as [->|Hz0]; [rewrite Z.mul_0_l in Hz; lia|].
        assert (Z.abs sm = Z.abs z * 2 ^ (- e)) by (rewrite Hz, Z.abs_mul; f_equal; apply Z.abs_eq; lia). nia. }
      split; [|intros z Hz; destruct (Hni z Hz)].
      split; [|intros [z Hz]; destruct (Hni z Hz)].
      intros Hz. exfalso. destruct Hlo as [Hz0|Hlo].
      { pose proof (bpow_gt_0 radix2 e). nra. }
      assert (Hem : Zpos m * 1 >= 2 ^ (-64 - e)).
      { rewrite Rabs_mult, (Rabs_pos_eq (bpow radix2 e)) in Hlo by apply bpow_ge_0.
        rewrite <- abs_IZR, Hsm in Hlo.
        assert (bpow radix2 (-64 - e) <= IZR (Zpos m))%R.
        { unfold Z.sub. rewrite bpow_plus.
          apply Rmult_le_reg_r with (bpow radix2 e); [apply bpow_gt_0|].
          rewrite Rmult_assoc, <- bpow_plus. replace (- e + e) with 0 by lia.
          change (bpow radix2 0) with 1%R. lra. }
        rewrite <- IZR_Zpower in H by lia. apply le_IZR in H.
        change (Zpower radix2 (-64 - e)) with (2 ^ (-64 - e)) in H. lia. }
      assert (He2 : -64 - e < 53).
      { destruct (Z_lt_le_dec (-64 - e) 53) as [|Hge]; [assumption|].
        assert (2 ^ 53 <= 2 ^ (-64 - e)) by (apply Z.pow_le_mono_r; lia). lia. }
      assert (-128 <? e = true) as Hc by lia. rewrite Hc in Hz. cbn [snd] in Hz.
      pose proof (wrap_u_range 64 sm ltac:(lia)) as Hw.
      assert (Hpos : 0 < 2 ^ (-64 - e)) by (apply Z.pow_pos_nonneg; lia).
      assert (Hrange : 0 <= Z.shiftr (wrap_u 64 sm) (-64 - e) < 2 ^ 64).
      { rewrite Z.shiftr_div_pow2 by lia. split; [apply Z.div_pos; lia|].
        apply Z.div_lt_upper_bound; [lia|]. nia. }
      rewrite fract_zero in Hz by exact Hrange.
      rewrite Z.shiftr_div_pow2 in Hz by lia.
      apply Z.eqb_eq in Hz. apply Z.div_small_iff in Hz; [|lia].
      destruct Hz as [Hz|Hz]; [|lia].
      unfold wrap_u in Hz, Hw. unfold sm, signed in Hz. destruct s.
      * (* negative: the two's complement word is huge *)
        replace (- Zpos m) with ((2 ^ 64 - Zpos m) + (-1) * 2 ^ 64) in Hz by lia.
        rewrite Z_mod_plus_full, Z.mod_small in Hz by lia.
        assert (2 ^ (-64 - e) <= 2 ^ 52) by (apply Z.pow_le_mono_r; lia). lia.
      * rewrite Z.mod_small in Hz by lia. lia.
    + destruct (e <? 0) eqn:E2; cbn [fst snd].
      * (* -64 < e < 0 *)
        assert (Hpe : 0 < 2 ^ (- e)) by (apply Z.pow_pos_nonneg; lia).
        assert (Hp64 : 2 ^ 64 = 2 ^ (e + 64) * 2 ^ (- e)).
        { rewrite <- Z.pow_add_r by lia. f_equal. lia. }
        assert (Hpe64 : 0 < 2 ^ (e + 64)) by (apply Z.pow_pos_nonneg; lia).
        split.
        -- rewrite fract_zero by (apply wrap_u_range; lia).
           rewrite Z.eqb_eq. rewrite Z.shiftl_mul_pow2 by lia. unfold wrap_u.
           rewrite Z.mul_mod_idemp_l by (rewrite Hp64; nia).
           split.
           ++ intros Hz. apply Z.mod_divide in Hz; [|rewrite Hp64; nia].
              destruct Hz as [q Hq]. exists q. rewrite HR; apply scaled_int; [lia|].
              rewrite Hp64 in Hq. nia.
           ++ intros [z Hz]. rewrite HR in Hz; apply scaled_int in Hz; [|lia]. rewrite Hz.
              replace (z * 2 ^ (- e) * 2 ^ (e + 64)) with (z * 2 ^ 64) by (rewrite Hp64; ring).
              apply Z_mod_mult.
        -- intros z Hz. rewrite HR in Hz; apply scaled_int in Hz; [|lia].
           rewrite Z.shiftr_div_pow2 by lia. rewrite Hz. apply Z_div_mult. lia.
      * (* e >= 0: an integer *)
        assert (Hint : (IZR sm * bpow radix2 e)%R = IZR (sm * 2 ^ e)).
        { rewrite mult_IZR, IZR_pow2 by lia. reflexivity. }
        rewrite Hint in Hhi. destruct Hhi as [Hh1 Hh2]. apply le_IZR in Hh1. apply lt_IZR in Hh2.
        assert (He64 : e < 64).
        { destruct (Z_lt_le_dec e 64) as [|Hge]; [assumption|].
          assert (2 ^ 64 <= 2 ^ e) by (apply Z.pow_le_mono_r; lia).
          change (2 ^ 64) with 18446744073709551616 in *. change (2 ^ 63) with 9223372036854775808 in *.
          change (2 ^ 52) with 4503599627370496 in *. nia. }
        assert (e <? 64 = true) as -> by lia. cbn [fst snd].
        split; [split; intros _; [|reflexivity]|].
        -- exists (sm * 2 ^ e). rewrite HR. exact Hint.
        -- intros z Hz. rewrite HR in Hz. rewrite Hint in Hz. apply eq_IZR in Hz.
           rewrite Z.shiftl_mul_pow2 by lia. rewrite Hz in *. unfold wrap_s.
           change (64 - 1) with 63. rewrite Z.mod_small; [lia|].
           change (2 ^ 64) with (2 * 2 ^ 63). lia.
Qed.

(** * The scan *)
Definition frac (v : f64) : bool := fne (snd (split_n v)) f0.

Definition scan_init (d0 : f64) : scan :=
  {| sc_i := 0; sc_max := d0; sc_max_loc := 0; sc_min := d0; sc_min_loc := 0;
     sc_sum := f0; sc_fractional := false |}.

Record scan_inv (pre : list f64) (s : scan) : Prop := {
  si_i : sc_i s = length pre;
  si_max : max_at pre (sc_max s) (sc_max_loc s);
  si_min : min_at pre (sc_min s) (sc_min_loc s);
  si_frac : sc_fractional s = existsb frac pre }.

Lemma nth_error_snoc {A} (l : list A) x i y :
  nth_error (l ++ [x]) i = Some y -> (i < length l)%nat /\ nth_error l i = Some y \/ i = length l /\ y = x.
Proof.
  intros H. assert (i < length (l ++ [x]))%nat by (apply nth_error_Some; congruence).
  rewrite app_length in H0. cbn in H0.
  destruct (Nat.eq_dec i (length l)) as [->|Hne].
  - right. rewrite nth_error_app2, Nat.sub_diag in H by lia. cbn in H. split; congruence.
  - left. rewrite nth_error_app1 in H by lia. split; [lia|exact H].
Qed.

Lemma max_at_in l x i : max_at l x i -> In x l.
Proof. intros (H & _). eapply nth_error_In; eauto. Qed.
Lemma min_at_in l x i : min_at l x i -> In x l.
Proof. intros (H & _). eapply nth_error_In; eauto. Qed.

Lemma scan_step_inv pre s v :
  Forall finite pre -> finite v -> scan_inv pre s -> scan_inv (pre ++ [v]) (scan_step s v).
Proof.
  intros Hpre Hv [Hi Hmax Hmin Hf].
  assert (Hfm : finite (sc_max s)) by (rewrite Forall_forall in Hpre; apply Hpre; eapply max_at_in; eauto).
  assert (Hfn : finite (sc_min s)) by (rewrite Forall_forall in Hpre; apply Hpre; eapply min_at_in; eauto).
  unfold finite in *. constructor; unfold scan_step; cbn [sc_i sc_max sc_max_loc sc_min sc_min_loc sc_fractional].
  - rewrite app_length. cbn. lia.
  - destruct (fgt v (sc_max s)) eqn:E.
    + apply fgt_R in E; [|assumption..]. destruct Hmax as (H1 & H2 & H3).
      rewrite Forall_forall in H2. repeat split.
      * rewrite Hi, nth_error_app2, Nat.sub_diag by lia. reflexivity.
      * apply Forall_app. split; [apply Forall_forall; intros y Hy; apply H2 in Hy; lra|].
        constructor; [lra|constructor].
      * intros j y Hj Hy. rewrite Hi in Hj. rewrite nth_error_app1 in Hy by lia.
        apply nth_error_In, H2 in Hy. lra.
    + assert (~ (R64 (sc_max s) < R64 v)%R) as E2 by (intros HH; apply fgt_R in HH; [congruence|assumption..]).
      destruct Hmax as (H1 & H2 & H3).
      assert (sc_max_loc s < length pre)%nat by (apply nth_error_Some; congruence).
      repeat split.
      * rewrite nth_error_app1 by lia. exact H1.
      * apply Forall_app. split; [exact H2|]. constructor; [lra|constructor].
      * intros j y Hj Hy. rewrite nth_error_app1 in Hy by lia. now apply (H3 j).
  - destruct (flt v (sc_min s)) eqn:E.
    + apply flt_R in E; [|assumption..]. destruct Hmin as (H1 & H2 & H3).
      rewrite Forall_forall in H2. repeat split.
      * rewrite Hi, nth_error_app2, Nat.sub_diag by lia. reflexivity.
      * apply Forall_app. split; [apply Forall_forall; intros y Hy; apply H2 in Hy; lra|].
        constructor; [lra|constructor].
      * intros j y Hj Hy. rewrite Hi in Hj. rewrite nth_error_app1 in Hy by lia.
        apply nth_error_In, H2 in Hy. lra.
    + assert (~ (R64 v < R64 (sc_min s))%R) as E2 by (intros HH; apply flt_R in HH; [congruence|assumption..]).
      destruct Hmin as (H1 & H2 & H3).
      assert (sc_min_loc s < length pre)%nat by (apply nth_error_Some; congruence).
      repeat split.
      * rewrite nth_error_app1 by lia. exact H1.
      * apply Forall_app. split; [exact H2|]. constructor; [lra|constructor].
      * intros j y Hj Hy. rewrite nth_error_app1 in Hy by lia. now apply (H3 j).
  - rewrite existsb_app. cbn [existsb]. rewrite orb_false_r. fold (frac v). rewrite Hf.
    destruct (frac v); [rewrite orb_true_r; reflexivity|rewrite orb_false_r; reflexivity].
Qed.

Lemma scan_fold_inv l pre s :
  Forall finite pre -> Forall finite l -> scan_inv pre s ->
  scan_inv (pre ++ l) (fold_left scan_step l s).
Proof.
  revert pre s. induction l as [|v l IH]; intros pre s Hp Hl Hs.
  - rewrite app_nil_r. exact Hs.
  - inversion Hl; subst. cbn [fold_left].
    replace (pre ++ v :: l) with ((pre ++ [v]) ++ l) by (rewrite <- app_assoc; reflexivity).
    apply IH; [apply Forall_app; split; [assumption|constructor; [assumption|constructor]]|assumption|].
    now apply scan_step_inv.
Qed.

Lemma scan_first_inv d : finite d -> scan_inv [d] (scan_step (scan_init d) d).
Proof.
  intros Hd. unfold finite in Hd.
  assert (E1 : fgt d d = false).
  { destruct (fgt d d) eqn:E; [|reflexivity]. apply fgt_R in E; [lra|assumption..]. }
  assert (E2 : flt d d = false).
  { destruct (flt d d) eqn:E; [|reflexivity]. apply flt_R in E; [lra|assumption..]. }
  constructor; unfold scan_step, scan_init; cbn [sc_i sc_max sc_max_loc sc_min sc_min_loc sc_fractional];
    rewrite ?E1, ?E2.
  - reflexivity.
  - repeat split; [constructor; [lra|constructor]|]. intros j y Hj. lia.
  - repeat split; [constructor; [lra|constructor]|]. intros j y Hj. lia.
  - cbn [existsb]. rewrite orb_false_r. fold (frac d). destruct (frac d); reflexivity.
Qed.

Lemma data_stats_ok data st : Forall finite data -> data_stats data = Ok st ->
  max_at data (st_max st) (st_max_loc st) /\ min_at data (st_min st) (st_min_loc st)
  /\ st_fractional st = existsb frac data
  /\ st_bitdepth st = if existsb frac data then BF64
       else bitdepth_of (fst (split_n (st_max st))) (fst (split_n (st_min st))).
Proof.
  destruct data as [|d l]; [discriminate|]. intros Hf H.
  unfold data_stats in H. fold (scan_init d) in H. cbn [fold_left] in H. inversion Hf; subst.
  pose proof (scan_fold_inv l [d] _ ltac:(constructor; [assumption|constructor]) H3 (scan_first_inv d H2)) as [Hi Hmax Hmin Hfr].
  apply ok_inj in H. subst st. cbn [st_max st_max_loc st_min st_min_loc st_fractional st_bitdepth].
  cbn [app] in *. rewrite <- Hfr. repeat split; try assumption; apply Hmax || apply Hmin.
Qed.

Lemma data_stats_total data : data <> [] -> exists st, data_stats data = Ok st.
Proof. destruct data; [congruence|]. intros _. eexists. reflexivity. Qed.

Lemma supported_finite x : supported x -> finite x.
Proof. intros (H & _). exact H. Qed.

Lemma frac_supported x : supported x -> frac x = false <-> exists z, is_int x z.
Proof.
  intros H. destruct (split_n_supported x H) as [H1 _]. unfold frac, fne.
  rewrite <- H1. destruct (feq (snd (split_n x)) f0); cbn; split; congruence.
Qed.

(** The integer range of a storage width. *)
Definition width_range (b : bitdepth) (z : Z) : Prop :=
  match b with
  | BU8 => 0 <= z <= 255
  | BI16 => - 2 ^ 15 <= z <= 2 ^ 15 - 1
  | BI32 => - 2 ^ 31 <= z <= 2 ^ 31 - 1
  | BF64 => True
  end.

Lemma bitdepth_of_range hi lo z : lo <= z <= hi -> width_range (bitdepth_of hi lo) z.
Proof.
  intros H. unfold bitdepth_of.
  destruct (hi <=? 255) eqn:E1; destruct ((0 <=? lo) && (lo <=? 255)) eqn:E2;
  destruct (hi <=? 32767) eqn:E3; destruct (-32768 <=? lo) eqn:E4;
  destruct (hi <=? 2147483647) eqn:E5; destruct (-2147483648 <=? lo) eqn:E6; cbn; lia || trivial.
Qed.

Lemma exists_frac_false data : Forall supported data -> existsb frac data = false ->
  Forall (fun x => exists z, is_int x z) data.
Proof.
  intros Hs H. rewrite Forall_forall in *. intros x Hx.
  apply frac_supported; [auto|]. destruct (frac x) eqn:E; [|reflexivity].
  assert (existsb frac data = true) by (apply existsb_exists; eauto). congruence.
Qed.

Lemma exists_frac_true data : Forall supported data -> existsb frac data = true <->
  Exists (fun x => forall z, ~ is_int x z) data.
Proof.
  intros Hs. rewrite Forall_forall in Hs. split.
  - intros H. apply existsb_exists in H. destruct H as (x & Hx & Hf). apply Exists_exists. exists x.
    split; [exact Hx|]. intros z Hz.
    assert (frac x = false) by (apply frac_supported; [auto|eauto]). congruence.
  - intros H. apply Exists_exists in H. destruct H as (x & Hx & Hn). apply existsb_exists. exists x.
    split; [exact Hx|]. destruct (frac x) eqn:E; [reflexivity|].
    apply frac_supported in E; [|auto]. destruct E as [z Hz]. destruct (Hn z Hz).
Qed.

Lemma is_int_inj x a b : is_int x a -> is_int x b -> a = b.
Proof. intros [_ H1] [_ H2]. apply eq_IZR. congruence. Qed.

(** Every sample fits the recommended width. *)
Lemma bitdepth_safe data st :
  Forall supported data -> data_stats data = Ok st ->
  st_bitdepth st <> BF64 ->
  Forall (fun x => exists z, is_int x z /\ width_range (st_bitdepth st) z) data.
Proof.
  intros Hs H Hb.
  assert (Hfin : Forall finite data) by (eapply Forall_impl; [|exact Hs]; apply supported_finite).
  destruct (data_stats_ok data st Hfin H) as (Hmax & Hmin & _ & Hbd).
  destruct (existsb frac data) eqn:E; [congruence|].
  pose proof (exists_frac_false data Hs E) as Hint.
  rewrite Forall_forall in Hs, Hint.
  destruct (Hint _ (max_at_in _ _ _ Hmax)) as [hi Hhi].
  destruct (Hint _ (min_at_in _ _ _ Hmin)) as [lo Hlo].
  destruct (split_n_supported _ (Hs _ (max_at_in _ _ _ Hmax))) as [_ H1]. rewrite (H1 _ Hhi) in Hbd.
  destruct (split_n_supported _ (Hs _ (min_at_in _ _ _ Hmin))) as [_ H2]. rewrite (H2 _ Hlo) in Hbd.
  apply Forall_forall. intros x Hx. destruct (Hint x Hx) as [z Hz]. exists z. split; [exact Hz|].
  rewrite Hbd. apply bitdepth_of_range.
  destruct Hmax as (_ & Hmax & _). destruct Hmin as (_ & Hmin & _). rewrite Forall_forall in Hmax, Hmin.
  specialize (Hmax x Hx). specialize (Hmin x Hx).
  destruct Hz as [_ Hz]. destruct Hhi as [_ Hhi]. destruct Hlo as [_ Hlo].
  rewrite Hz, Hhi in Hmax. rewrite Hz, Hlo in Hmin. apply le_IZR in Hmax. apply le_IZR in Hmin. lia.
Qed.
