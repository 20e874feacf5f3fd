(** C82: numbers as text. *)
From Coq Require Import List ZArith Bool Lia Lra String Reals.
From Flocq Require Import Core IEEE754.Binary.
From Verif Require Import Base Model_Float Model_Bincode BincodeFacts Spec Spec_Utf8 Utf8Facts Spec_Csv Spec_CsvTable Spec_Number Model_Number NumberFacts PrintFacts
  Model_Utils Model_Fft Model_Stream FftFacts Props_Fft PlanFacts PolyLoopFacts Spec_Metric PipelineFacts Props_Poly Props_Plan Props_Pipeline Props_ErrorZero
  Model_Vsri Model_Wavbrro Props_Wavbrro Model_Csv CsvFacts Props_Csv Props_CsvTable Model_Cli Props_Tools Props_Cli Props_Csvc.
Import ListNotations.
Open Scope Z_scope.

(** * Reading *)
(** Exactly these texts are read as numbers, as these doubles: an optional sign; then digits with or without a point and an exponent, or one of the words inf,
    infinity and nan in any case. *)
Theorem C82_numbers_read : forall t x, std_parse t = Some x <->
  (exists neg v, writes t neg v /\ double_for neg v x) \/
  (exists neg sg w, t = sg ++ w /\ sign_is neg sg /\ (same_word w (ascii_text "inf") \/ same_word w (ascii_text "infinity")) /\ fis_infinite x = true /\ Bsign 53 1024 x = neg) \/
  (exists neg sg w, t = sg ++ w /\ sign_is neg sg /\ same_word w (ascii_text "nan") /\ to_bits x = 9221120237041090560 + (if neg then 2 ^ 63 else 0)).
Proof.
  intros t x. rewrite std_parse_spec. change (ascii_text "inf") with word_inf. change (ascii_text "infinity") with word_infinity. change (ascii_text "nan") with word_nan.
  assert (I : forall neg, x = B754_infinity 53 1024 neg <-> fis_infinite x = true /\ Bsign 53 1024 x = neg).
  { intros neg. split; [intros ->; now split|]. intros (H1 & H2). apply infinite_spec in H1. destruct H1 as [s ->]. cbn in H2. now subst. }
  assert (N : forall neg, x = nan_f64 neg <-> to_bits x = 9221120237041090560 + (if neg then 2 ^ 63 else 0)).
  { intros neg. unfold nan_f64. split.
    - intros ->. rewrite to_bits_from_bits by (destruct neg; lia). destruct neg; reflexivity.
    - intros H. apply to_bits_inj. rewrite H, to_bits_from_bits by (destruct neg; lia). destruct neg; reflexivity. }
  split; (intros [H|[(neg & sg & w & H1 & H2 & H3 & H4)|(neg & sg & w & H1 & H2 & H3 & H4)]]; [now left|right; left|right; right]); exists neg, sg, w; apply I in H4 || apply N in H4; auto.
Qed.
Print Assumptions C82_numbers_read.

(** A text that writes a number is read as the double for it ... *)
Lemma writes_parse : forall t neg v x, writes t neg v -> (std_parse t = Some x <-> double_for neg v x).
Proof.
  intros t neg v x W. assert (W' := W). destruct W' as (sg & m & k & t' & -> & Hs & Hd & ->). destruct (decimal_first _ _ _ Hd) as (Hm & _).
  assert (P : std_parse (sg ++ t') = Some (nearest_decimal neg m k)) by (apply std_parse_spec; left; exists neg, (IZR m * ten_to k)%R; split; [exact W|now apply nearest_decimal_ok]).
  split; [|intros D; apply std_parse_spec; left; eauto]. intros E. rewrite P in E. injection E as <-. now apply nearest_decimal_ok.
Qed.
(** ... and no double is nearer to it. *)
Theorem C82_nearest : forall t neg v, writes t neg v ->
  exists x, std_parse t = Some x /\
    (finite x -> forall y, finite y -> let w := (if neg then - v else v)%R in (Rabs (R64 x - w) <= Rabs (R64 y - w))%R).
Proof.
  intros t neg v W. assert (W' := W). destruct W' as (sg & m & k & t' & -> & Hs & Hd & ->). destruct (decimal_first _ _ _ Hd) as (Hm & _).
  pose proof (nearest_decimal_ok neg m k Hm) as Dx. exists (nearest_decimal neg m k). split; [now apply (writes_parse _ _ _ _ W)|].
  set (x := nearest_decimal neg m k) in *. set (v := (IZR m * ten_to k)%R) in *. intros Fx y Fy. cbv zeta.
  destruct Dx as (_ & [(_ & _ & E)|(_ & C)]); [|exfalso; destruct x; try discriminate C; discriminate Fx].
  assert (G : forall z : f64, generic_format radix2 (FLT_exp (-1074) 53) (R64 z)) by (intros z; apply (generic_format_B2R 53 1024)).
  assert (Nr : forall w, round radix2 (FLT_exp (-1074) 53) ZnearestE w = R64 x -> (Rabs (R64 x - w) <= Rabs (R64 y - w))%R).
  { intros w Ew. destruct (round_N_pt radix2 (FLT_exp (-1074) 53) (fun z => negb (Z.even z)) w) as [_ Hb]. rewrite Ew in Hb. apply Hb, G. }
  apply Nr. rewrite E. unfold nearest64. destruct neg; [|reflexivity]. apply round_NE_opp.
Qed.
Print Assumptions C82_nearest.

(** * Printing *)
(** A finite number that is not zero, as a fraction. *)
Lemma finite_fraction : forall x, finite x -> R64 x <> 0%R -> exists s m e H, x = B754_finite 53 1024 s m e H /\
  let n := if 0 <=? e then Zpos m * 2 ^ e else Zpos m in let d := if 0 <=? e then 1 else 2 ^ (- e) in
  0 < n /\ 0 < d /\ R64 x = (if s then - (IZR n / IZR d) else IZR n / IZR d)%R.
Proof.
  intros x Fx Nx. destruct x as [s|s|s pl H|s m e H]; try discriminate Fx; [cbn in Nx; lra|]. exists s, m, e, H. split; [reflexivity|]. cbv zeta.
  assert (P : forall j, 0 <= j -> 0 < 2 ^ j) by (intros; apply Z.pow_pos_nonneg; lia).
  unfold R64. cbn [B2R]. rewrite F2R_cond_Zopp. unfold cond_Ropp.
  assert (Q : F2R (Float radix2 (Z.pos m) e) = (IZR (if 0 <=? e then Z.pos m * 2 ^ e else Z.pos m) / IZR (if 0 <=? e then 1 else 2 ^ (- e)))%R).
  { unfold F2R. cbn [Fnum Fexp]. destruct (Z.leb_spec 0 e) as [L|L].
    - rewrite <- (IZR_Zpower radix2) by lia. change (Zpower radix2 e) with (2 ^ e). rewrite mult_IZR. unfold Rdiv. now rewrite Rinv_1, Rmult_1_r.
    - replace e with (- (- e)) at 1 by lia. rewrite bpow_opp, <- (IZR_Zpower radix2) by lia. reflexivity. }
  rewrite Q. destruct (Z.leb_spec 0 e) as [L|L].
  - specialize (P e L). split; [lia|]. split; [lia|]. reflexivity.
  - specialize (P (- e) ltac:(lia)). split; [lia|]. split; [lia|]. reflexivity.
Qed.

(** What is printed. *)
Lemma shown_printed : forall tie lay x, finite x -> R64 x <> 0%R -> exists sg m k D v,
  sign_is (Bsign 53 1024 x) sg /\ shown tie lay x = sg ++ lay m k /\ v = Rabs (R64 x) /\ (0 < v)%R /\
  1 <= D <= 17 /\ 0 < m < 10 ^ D /\ -500 <= k <= 500 /\ nearest64 (IZR m * ten_to k) = v /\ double_for (Bsign 53 1024 x) (IZR m * ten_to k) x /\
  (forall m' k' D', 0 <= D' -> 0 < m' < 10 ^ D' -> nearest64 (IZR m' * ten_to k') = v -> D <= D') /\
  (forall m' k', 0 < m' < 10 ^ D -> nearest64 (IZR m' * ten_to k') = v -> (Rabs (IZR m * ten_to k - v) <= Rabs (IZR m' * ten_to k' - v))%R) /\
  sg = (if Bsign 53 1024 x then [45] else []).
Proof.
  intros tie lay x Fx Nx. destruct (finite_fraction x Fx Nx) as (s & mm & e & H & Ex & K). cbv zeta in K.
  set (n := if 0 <=? e then Z.pos mm * 2 ^ e else Z.pos mm) in *. set (d := if 0 <=? e then 1 else 2 ^ (- e)) in *. destruct K as (Hn & Hd & Rx).
  assert (Sx : Bsign 53 1024 x = s) by (rewrite Ex; reflexivity). rewrite Sx.
  assert (Sh : shown tie lay x = (if s then [45] else []) ++
    match shortest tie 17 x s n d (decimal_exponent n d) 1 with Some (m', k) => let '(m'', k'') := stripped m' k (decimal_exponent n d - k) in lay m'' k'' | None => [] end) by (rewrite Ex; reflexivity).
  rewrite Sh. clear Sh. set (v := (IZR n / IZR d)%R) in *.
  destruct (found tie x s n d v Hn Hd eq_refl Fx Sx Rx) as (m & k & D & F & Ek & HD & Hm & Rm & Min & Clo).
  destruct (E10_ok x s n d v Hn Hd eq_refl Sx Rx) as (_ & HE). fold (E10 n d). rewrite F. cbv zeta iota.
  pose proof (v_pos n d v Hn Hd eq_refl) as Pv. pose proof (v_abs x s n d v Hn Hd eq_refl Sx Rx) as Av.
  unfold reads, distance in *. replace (E10 n d - k) with D by lia.
  assert (Key : exists m2 k2, stripped m k D = (m2, k2) /\ 0 < m2 < 10 ^ D /\ -500 <= k2 <= 500 /\ (IZR m2 * ten_to k2 = IZR m * ten_to k)%R).
  { unfold stripped. destruct (Z.eqb_spec m (10 ^ D)) as [E|N]; [|exists m, k; split; [reflexivity|]; split; [lia|]; split; [lia|reflexivity]].
    exists 1, (k + D). split; [reflexivity|]. split; [split; [lia|]; apply Z.pow_gt_1; lia|]. split; [lia|]. rewrite E, Z.add_comm, ten_add, (ten_Z D) by lia. ring. }
  destruct Key as (m2 & k2 & -> & H1 & H2 & H3).
  exists (if s then [45] else []), m2, k2, D, v. rewrite H3.
  split; [destruct s; [right; right|left]; now split|]. split; [reflexivity|]. split; [now rewrite Av|]. split; [exact Pv|]. split; [exact HD|]. split; [exact H1|]. split; [exact H2|]. split; [exact Rm|]. split.
  { assert (Pm : 0 <= m) by lia. apply (reads_back x s n d v Hn Hd eq_refl Fx Sx Rx m k Pm) in Rm. rewrite <- Rm. now apply nearest_decimal_ok. }
  split; [|split; [exact Clo|reflexivity]].
  intros m' k' D' HD' Hm' R'. destruct (Z.le_gt_cases D D') as [L|L]; [exact L|]. exfalso. exact (Min m' k' D' ltac:(lia) Hm' R').
Qed.

(** A layout that writes m*10^k for every m and k. *)
Definition layout_fits (lay : Z -> Z -> text) : Prop := forall m k, 0 < m < 10 ^ 40 -> -500 <= k <= 500 ->
  exists m' k', decimal_is m' k' (lay m k) /\ (IZR m' * ten_to k' = IZR m * ten_to k)%R.
Lemma shown_writes : forall tie lay x, layout_fits lay -> finite x -> R64 x <> 0%R -> exists m k D, writes (shown tie lay x) (Bsign 53 1024 x) (IZR m * ten_to k) /\ double_for (Bsign 53 1024 x) (IZR m * ten_to k) x /\
  1 <= D <= 17 /\ 0 < m < 10 ^ D /\ plain (shown tie lay x) /\ shown tie lay x <> [] /\
  (forall m' k' D', 0 <= D' -> 0 < m' < 10 ^ D' -> nearest64 (IZR m' * ten_to k') = Rabs (R64 x) -> D <= D') /\
  (forall m' k', 0 < m' < 10 ^ D -> nearest64 (IZR m' * ten_to k') = Rabs (R64 x) -> (Rabs (IZR m * ten_to k - Rabs (R64 x)) <= Rabs (IZR m' * ten_to k' - Rabs (R64 x)))%R).
Proof.
  intros tie lay x Hlay Fx Nx. destruct (shown_printed tie lay x Fx Nx) as (sg & m & k & D & v & Hs & E & -> & Pv & HD & Hm & Hk & Rm & Dx & Min & Clo & _).
  assert (Hm40 : 0 < m < 10 ^ 40) by (assert (10 ^ D <= 10 ^ 40) by (apply Z.pow_le_mono_r; lia); lia).
  destruct (Hlay m k Hm40 Hk) as (m' & k' & Hd & Eq). destruct (decimal_plain _ _ _ Hd) as (Pl & Ne).
  exists m, k, D. split; [exists sg, m', k', (lay m k); rewrite E, Eq; auto|]. split; [exact Dx|]. split; [exact HD|]. split; [exact Hm|]. rewrite E. split; [apply plain_app; [now apply (sign_plain (Bsign 53 1024 x))|exact Pl]|].
  split; [destruct sg; [exact Ne|discriminate]|]. split; [exact Min|exact Clo].
Qed.

Definition printed_writes x := shown_writes Z.odd layout x layout_ok.

(** Every double but NaN is printed as a text that is read as the same double, down to the sign of zero; a NaN is printed as a text that is read as a NaN. *)
Theorem C82_printed_reads_back : forall x,
  (fis_nan x = false -> std_parse (ryu_show x) = Some x) /\
  (fis_nan x = true -> exists y, std_parse (ryu_show x) = Some y /\ fis_nan y = true).
Proof.
  intros x. split.
  - intros Nn. destruct x as [s|s|s pl H|s m e H] eqn:Ex; try discriminate Nn.
    + destruct s; vm_compute; reflexivity.
    + destruct s; vm_compute; reflexivity.
    + rewrite <- Ex. assert (Fx : finite x) by (subst; reflexivity).
      assert (Nx : R64 x <> 0%R) by (subst; unfold R64; cbn [B2R]; apply F2R_neq_0; destruct s; discriminate).
      destruct (printed_writes x Fx Nx) as (m' & k & D & W & Dx & _). now apply (writes_parse _ _ _ _ W).
  - intros Nn. destruct x as [s|s|s pl H|s m e H]; try discriminate Nn. exists (nan_f64 false). split; vm_compute; reflexivity.
Qed.
Print Assumptions C82_printed_reads_back.

Lemma std_text_exact : forall x, fis_nan x = false -> text_exact std_numbers x.
Proof.
  intros x Nn. unfold text_exact. cbn [std_numbers show_f64 parse_f64].
  assert (P : plain (ryu_show x) /\ ryu_show x <> []); [|destruct P; split; [assumption|]; split; [assumption|now apply C82_printed_reads_back]].
  destruct x as [s|s|s pl H|s m e H] eqn:Ex; try discriminate Nn.
  - destruct s; (split; [|discriminate]); unfold plain, ryu_show, shown; cbn [app]; repeat constructor; lia.
  - destruct s; (split; [|discriminate]); unfold plain, ryu_show, shown, word_inf; cbn [app]; repeat constructor; lia.
  - rewrite <- Ex. assert (Fx : finite x) by (subst; reflexivity).
    assert (Nx : R64 x <> 0%R) by (subst; unfold R64; cbn [B2R]; apply F2R_neq_0; destruct s; discriminate).
    destruct (printed_writes x Fx Nx) as (m' & k & D & _ & _ & _ & _ & P & N & _). now split.
Qed.

Lemma shortest_shown : forall tie lay x, layout_fits lay -> finite x -> R64 x <> 0%R ->
  exists D v, writes (shown tie lay x) (Bsign 53 1024 x) v /\ with_digits D v /\ (D <= 17)%nat /\
    forall t neg v' n, writes t neg v' -> std_parse t = Some x -> with_digits n v' ->
      (D <= n)%nat /\ (n = D -> (Rabs (v - Rabs (R64 x)) <= Rabs (v' - Rabs (R64 x)))%R).
Proof.
  intros tie lay x Hlay Fx Nx. destruct (shown_writes tie lay x Hlay Fx Nx) as (m & k & D & W & Dx & HD & Hm & _ & _ & Min & Clo).
  exists (Z.to_nat D), (IZR m * ten_to k)%R. split; [exact W|]. split; [exists m, k; split; [rewrite Z2Nat.id by lia; exact Hm|reflexivity]|]. split; [lia|].
  intros t neg v' n W' P (m' & k' & Hm' & ->). apply (writes_parse _ _ _ _ W') in P. destruct P as (Sx & [(_ & _ & Ex)|(_ & C)]); [|exfalso; destruct x; try discriminate C; discriminate Fx].
  assert (R' : nearest64 (IZR m' * ten_to k') = Rabs (R64 x)).
  { rewrite Ex. assert (0 <= nearest64 (IZR m' * ten_to k'))%R by (apply nearest64_nonneg, Rmult_le_pos; [apply IZR_le; lia|pose proof (ten_pow k'); lra]). destruct neg; [rewrite Rabs_Ropp|]; now rewrite Rabs_pos_eq. }
  split; [specialize (Min m' k' (Z.of_nat n) ltac:(lia) Hm' R'); lia|]. intros ->. apply Clo; [|exact R']. rewrite Z2Nat.id in Hm' by lia. exact Hm'.
Qed.
(** What is printed has at most 17 digits; no text with fewer digits is read as the same double, and none with as many is nearer to it. *)
Theorem C82_shortest : forall x, finite x -> R64 x <> 0%R ->
  exists D v, writes (ryu_show x) (Bsign 53 1024 x) v /\ with_digits D v /\ (D <= 17)%nat /\
    forall t neg v' n, writes t neg v' -> std_parse t = Some x -> with_digits n v' ->
      (D <= n)%nat /\ (n = D -> (Rabs (v - Rabs (R64 x)) <= Rabs (v' - Rabs (R64 x)))%R).
Proof. intros x. exact (shortest_shown Z.odd layout x layout_ok). Qed.
Print Assumptions C82_shortest.

(** Integers below 2^53 are printed as such, with ".0". *)
Lemma integer_shown : forall tie lay x z, (forall m k, 0 <= k -> Z.of_nat (List.length (show_int m)) + k <= 16 -> lay m k = show_int m ++ zeros k ++ [46; 48]) ->
  is_int x z -> z <> 0 -> Z.abs z <= 2 ^ 53 -> exists t, shown tie lay x = t ++ ascii_text ".0" /\ integer_text z t.
Proof.
  intros tie lay x z Hlay (Fx & Rx) Nz Bz. assert (Nx : R64 x <> 0%R) by (rewrite Rx; now apply IZR_neq).
  destruct (shown_printed tie lay x Fx Nx) as (sg & m & k & D & v & Hs & E & Ev & Pv & HD & Hm & Hk & Rm & Dx & Min & Clo & Sg).
  assert (Va : v = IZR (Z.abs z)) by (rewrite Ev, Rx, abs_IZR; reflexivity). set (a := Z.abs z) in *. assert (Pa : 0 < a) by lia.
  assert (Fmt : forall b, 0 <= b <= 2 ^ 53 -> nearest64 (IZR b) = IZR b).
  { intros b Hb. apply round_generic; [apply valid_rnd_N|]. apply generic_format_FLT.
    destruct (Z.eq_dec b (2 ^ 53)) as [->|N].
    - exists (Float radix2 1 53); [|reflexivity|cbn; lia]. unfold F2R. cbn [Fnum Fexp]. rewrite Rmult_1_l. reflexivity.
    - exists (Float radix2 b 0); [|cbn [Fnum]; change (radix2 ^ 53) with (2 ^ 53); lia|cbn; lia]. unfold F2R. cbn. ring. }
  assert (Mono : forall p q, (p <= q)%R -> (nearest64 p <= nearest64 q)%R) by (intros; apply round_le; [apply FLT_exp_valid; exact prec53_gt_0|apply valid_rnd_N|assumption]).
  (* the number of digits of a *)
  destruct (show_int_pos a) as (A1 & A2 & A3 & A4); [split; [lia|]; assert (2 ^ 53 < 10 ^ 40) by reflexivity; lia|].
  set (L := Z.of_nat (List.length (show_int a))) in *. assert (HL : 1 <= L) by (subst L; destruct (show_int a); [congruence|cbn; lia]).
  assert (DL : D <= L) by (apply (Min a 0 L); [lia|lia|]; rewrite Va; change (ten_to 0) with 1%R; rewrite Rmult_1_r; apply Fmt; lia).
  assert (T : (0 < ten_to k)%R) by apply ten_pow.
  (* the printed number is not smaller than 10^(L-1) *)
  assert (Lo : (IZR (10 ^ (L - 1)) <= IZR m * ten_to k)%R).
  { destruct (Rle_or_lt (IZR (10 ^ (L - 1))) (IZR m * ten_to k)) as [C|C]; [exact C|]. exfalso.
    destruct (Z.eq_dec a (10 ^ (L - 1))) as [Ea|Na].
    - (* a power of ten takes one digit, and nothing is nearer than the number itself *)
      assert (D1 : D <= 1) by (apply (Min 1 (L - 1) 1); [lia|lia|]; rewrite Va, Ea, Rmult_1_l, ten_Z by lia; apply Fmt; lia).
      assert (C1 : (Rabs (IZR m * ten_to k - v) <= Rabs (1 * ten_to (L - 1) - v))%R).
      { apply (Clo 1 (L - 1)); [split; [lia|]; apply Z.pow_gt_1; lia|]. rewrite Va, Ea, Rmult_1_l, ten_Z by lia. apply Fmt; lia. }
      rewrite Va, Ea, Rmult_1_l, (ten_Z (L - 1)) in C1 by lia. rewrite Rminus_eq_0, Rabs_R0 in C1. apply Rabs_le_inv in C1. lra.
    - assert (Le : (nearest64 (IZR m * ten_to k) <= nearest64 (IZR (10 ^ (L - 1))))%R) by (apply Mono; lra). rewrite Rm, Va, Fmt in Le; [apply le_IZR in Le; lia|].
      assert (0 < 10 ^ (L - 1)) by (apply Z.pow_pos_nonneg; lia). lia. }
  assert (Hk0 : 0 <= k).
  { apply Znot_gt_le. intros C.
    assert (U : (IZR m * ten_to k < IZR (10 ^ (L - 1)))%R); [|lra].
    apply Rlt_le_trans with (ten_to D * ten_to k)%R; [apply Rmult_lt_compat_r; [exact T|]; rewrite ten_Z by lia; apply IZR_lt; lia|].
    rewrite <- ten_add, <- (ten_Z (L - 1)) by lia. replace (L - 1) with (D + k + (L - 1 - D - k)) by lia. rewrite (ten_add (D + k)). pose proof (ten_pow (D + k)).
    assert (1 <= ten_to (L - 1 - D - k))%R by (rewrite ten_Z by lia; apply IZR_le; assert (0 < 10 ^ (L - 1 - D - k)) by (apply Z.pow_pos_nonneg; lia); lia). nra. }
  assert (Ea : m * 10 ^ k = a).
  { assert (Q : (IZR m * ten_to k = IZR (m * 10 ^ k))%R) by (rewrite ten_Z, mult_IZR by lia; reflexivity). rewrite Q, Va in Rm.
    assert (0 < 10 ^ k) by (apply Z.pow_pos_nonneg; lia). set (b := m * 10 ^ k) in *.
    destruct (Z.lt_trichotomy b a) as [C|[C|C]]; [|exact C|]; exfalso.
    - rewrite Fmt in Rm by lia. apply eq_IZR in Rm. lia.
    - destruct (Z.eq_dec a (2 ^ 53)) as [E53|N53].
      + (* the printed number has no more digits than a, and there is none nearer with as many *)
        assert (IZR a < IZR b)%R by (now apply IZR_lt). destruct (Z.eq_dec D L) as [EDL|NDL].
        * assert (C1 : (Rabs (IZR m * ten_to k - v) <= Rabs (IZR a * ten_to 0 - v))%R).
          { apply (Clo a 0); [rewrite EDL; lia|]. change (ten_to 0) with 1%R. rewrite Rmult_1_r, Va. apply Fmt; lia. }
          rewrite Q, Va in C1. change (ten_to 0) with 1%R in C1. rewrite Rmult_1_r, Rminus_eq_0, Rabs_R0 in C1. apply Rabs_le_inv in C1. lra.
        * (* fewer than 16 digits: a multiple of ten *)
          assert (L16 : L = 16) by (subst L; rewrite E53; vm_compute; reflexivity).
          assert (1 <= k).
          { apply Znot_gt_le. intros Ck. assert (b = m) by (unfold b; replace k with 0 by lia; rewrite Z.pow_0_r; lia). assert (10 ^ D <= 10 ^ 15) by (apply Z.pow_le_mono_r; lia). lia. }
          assert (b mod 10 = 0) by (subst b; replace k with (Z.succ (k - 1)) by lia; rewrite Z.pow_succ_r by lia; rewrite Z.mul_assoc, (Z.mul_comm m 10), <- Z.mul_assoc, Z.mul_comm; apply Z.mod_mul; lia).
          assert (B8 : a + 8 <= b) by (assert (a mod 10 = 2) by (rewrite E53; reflexivity); pose proof (Z.div_mod a 10 ltac:(lia)); pose proof (Z.div_mod b 10 ltac:(lia)); lia).
          assert (N8 : nearest64 (IZR (a + 8)) = IZR (a + 8)).
          { apply round_generic; [apply valid_rnd_N|]. apply generic_format_FLT. exists (Float radix2 (2 ^ 52 + 4) 1); [|reflexivity|cbn; lia].
            rewrite E53. unfold F2R. cbn [Fnum Fexp]. change (bpow radix2 1) with (IZR 2). rewrite <- mult_IZR. f_equal. }
          assert (Q8 : (nearest64 (IZR (a + 8)) <= nearest64 (IZR b))%R) by (apply Mono, IZR_le; lia). rewrite N8, Rm in Q8. apply le_IZR in Q8. lia.
      + assert (Q1 : (nearest64 (IZR (a + 1)) <= nearest64 (IZR b))%R) by (apply Mono, IZR_le; lia). rewrite Fmt, Rm in Q1 by lia. apply le_IZR in Q1. lia. }
  assert (Hm40 : 0 < m < 10 ^ 40) by (assert (10 ^ D <= 10 ^ 40) by (apply Z.pow_le_mono_r; lia); lia).
  destruct (show_int_pos m Hm40) as (B1 & B2 & B3 & B4). set (ds := show_int m) in *.
  assert (KK : Z.of_nat (List.length ds) + k <= 16).
  { apply Znot_gt_le. intros C. assert (10 ^ 16 <= 10 ^ (Z.of_nat (List.length ds) - 1 + k)) by (apply Z.pow_le_mono_r; lia).
    assert (Hl : 1 <= Z.of_nat (List.length ds)) by (clear - B3; destruct ds; [congruence|cbn; lia]). rewrite Z.pow_add_r in H by lia.
    assert (0 < 10 ^ k) by (apply Z.pow_pos_nonneg; lia). assert (2 ^ 53 < 10 ^ 16) by reflexivity. nia. }
  exists (sg ++ ds ++ zeros k). split.
  - rewrite E, (Hlay m k Hk0 KK). fold ds. change (ascii_text ".0") with [46; 48]. now rewrite <- !app_assoc.
  - destruct (zeros_digits k) as [Z1 Z2]. exists (ds ++ zeros k). split; [|split; [apply Forall_app; now split|split; [|split; [intros; contradiction|intros _; split]]]].
    + rewrite Sg. f_equal. destruct (Z.ltb_spec z 0) as [Lz|Lz].
      * replace (Bsign 53 1024 x) with true; [reflexivity|]. symmetry. destruct x as [s|s|s pl Hx|s mx ex Hx]; try discriminate Fx; [cbn in Nx; lra|]. destruct s; [reflexivity|]. exfalso.
        unfold R64 in Rx. cbn [B2R] in Rx. assert (0 < F2R (Float radix2 (SpecFloat.cond_Zopp false (Z.pos mx)) ex))%R by (now apply F2R_gt_0). assert (IZR z < 0)%R by (now apply IZR_lt). lra.
      * replace (Bsign 53 1024 x) with false; [reflexivity|]. symmetry. destruct x as [s|s|s pl Hx|s mx ex Hx]; try discriminate Fx; [cbn in Nx; lra|]. destruct s; [|reflexivity]. exfalso.
        unfold R64 in Rx. cbn [B2R] in Rx. assert (F2R (Float radix2 (SpecFloat.cond_Zopp true (Z.pos mx)) ex) < 0)%R by (now apply F2R_lt_0). assert (0 <= IZR z)%R by (now apply IZR_le). lra.
    + rewrite whole_app, B2, Z2, zeros_length by lia. fold a. lia.
    + clear - B3. destruct ds; [congruence|discriminate].
    + intros Hh. destruct ds as [|c r]; [congruence|]. cbn in Hh. assert (c = 48) as -> by congruence. cbn [whole List.length] in B2. inversion B1 as [|? ? _ Br]; subst. pose proof (whole_bounds r Br).
      cbn [List.length] in B4. replace (Z.of_nat (S (List.length r)) - 1) with (Z.of_nat (List.length r)) in B4 by lia. lia.
Qed.
Theorem C82_integers : forall x z, is_int x z -> z <> 0 -> Z.abs z <= 2 ^ 53 -> exists t, ryu_show x = t ++ ascii_text ".0" /\ integer_text z t.
Proof.
  intros x z. apply (integer_shown Z.odd layout). intros m k Hk0 KK. unfold layout. cbv zeta. rewrite (proj2 (Z.leb_le 0 k) Hk0), (proj2 (Z.leb_le _ 16) KK). reflexivity.
Qed.
Print Assumptions C82_integers.

(** * Files *)
(** Any samples but NaN that csv-compressor writes it reads again, exactly. *)
Theorem C82_csv_round_trip : forall samples, Forall (fun s => in_s 64 (sm_ts s) /\ fis_nan (sm_val s) = false) samples ->
  read_samples_from_csv_file std_numbers (Some (write_samples_text std_numbers samples)) = Some samples.
Proof. intros samples H. apply C48_write_read. eapply Forall_impl; [|exact H]. cbv beta. intros s (H1 & H2). split; [exact H1|now apply std_text_exact]. Qed.
Print Assumptions C82_csv_round_trip.

(** Cell [i] of the row writes the number -v or v; or it is one of the words inf, infinity and nan. *)
Definition cell_writes (i : nat) (r : list text) (neg : bool) (v : R) : Prop := exists cell, nth_error r i = Some cell /\ writes cell neg v.
Definition cell_word (i : nat) (r : list text) : Prop := exists neg sg w, nth_error r i = Some (sg ++ w) /\ sign_is neg sg /\
  (same_word w (ascii_text "inf") \/ same_word w (ascii_text "infinity") \/ same_word w (ascii_text "nan")).
(** The samples are, row by row, the doubles nearest to the numbers of the column; words are left out. *)
Inductive column_numbers (i : nat) : list (list text) -> list f64 -> Prop :=
| numbers_none : column_numbers i [] []
| numbers_number r neg v y rows out : cell_writes i r neg v -> finite y -> R64 y = (if neg then - nearest64 v else nearest64 v)%R -> column_numbers i rows out -> column_numbers i (r :: rows) (y :: out)
| numbers_word r rows out : cell_word i r -> column_numbers i rows out -> column_numbers i (r :: rows) out.
(** 0, or from 10^-18 to 10^18. *)
Definition usual (v : R) : Prop := v = 0%R \/ (ten_to (-18) <= v <= ten_to 18)%R.

Lemma usual_supported : forall neg v x, usual v -> double_for neg v x -> supported x.
Proof.
  intros neg v x U (_ & D).
  assert (B18 : (ten_to 18 <= bpow radix2 62)%R) by (rewrite ten_Z by lia; change (bpow radix2 62) with (IZR (2 ^ 62)); apply IZR_le; apply Z.leb_le; vm_compute; reflexivity).
  assert (B19 : (bpow radix2 (-64) <= ten_to (-18))%R).
  { change (-18) with (- (18)). rewrite ten_neg, ten_Z by lia. change (bpow radix2 (-64)) with (/ IZR (2 ^ 64))%R. apply Rinv_le_contravar; [apply IZR_lt; reflexivity|apply IZR_le; apply Z.leb_le; vm_compute; reflexivity]. }
  assert (V : (0 <= v <= bpow radix2 62)%R) by (destruct U as [->|U]; [split; [lra|apply bpow_ge_0]|pose proof (ten_pow (-18)); lra]).
  assert (B62 : (bpow radix2 62 < bpow radix2 1024 - bpow radix2 970)%R).
  { pose proof powers as (P1 & _ & _ & P4). rewrite P1. assert (bpow radix2 62 <= bpow radix2 970)%R by (apply bpow_le; lia). lra. }
  destruct D as [(_ & Fx & Rx)|(C & _)]; [|lra].
  assert (Mono : forall a b, (a <= b)%R -> (nearest64 a <= nearest64 b)%R) by (intros; apply round_le; [apply FLT_exp_valid; exact prec53_gt_0|apply valid_rnd_N|assumption]).
  assert (Fb : forall k, -64 <= k <= 62 -> nearest64 (bpow radix2 k) = bpow radix2 k).
  { intros k Hk. apply round_generic; [apply valid_rnd_N|]. apply generic_format_bpow'; [apply FLT_exp_valid; exact prec53_gt_0|unfold FLT_exp; lia]. }
  assert (Hi : (nearest64 v <= bpow radix2 62)%R) by (rewrite <- (Fb 62) by lia; apply Mono; lra).
  pose proof (nearest64_nonneg v ltac:(lra)) as Nn.
  assert (P63 : (IZR (2 ^ 63) = 2 * bpow radix2 62)%R) by (change 2%R with (IZR 2); change (bpow radix2 62) with (IZR (2 ^ 62)); rewrite <- mult_IZR; f_equal).
  pose proof (bpow_gt_0 radix2 62). split; [exact Fx|]. split.
  - destruct U as [->|U].
    + left. rewrite Rx. unfold nearest64. rewrite round_0 by apply valid_rnd_N. destruct neg; lra.
    + right. assert (Lo : (bpow radix2 (-64) <= nearest64 v)%R) by (rewrite <- (Fb (-64)) by lia; apply Mono; lra). rewrite Rx. destruct neg; [rewrite Rabs_Ropp|]; rewrite Rabs_pos_eq; lra.
  - rewrite opp_IZR, P63, Rx. destruct neg; lra.
Qed.

(** atsc with --csv and the RLE compressor: a table whose value column writes numbers that are 0 or between 10^-18 and 10^18 in magnitude, some cells perhaps inf or nan.
    After compression and decompression x.wbro holds, for each number of the column, the nearest double. *)
Theorem C82_decimal_column : forall e p a fs x old t headers rows time value more i,
  env_ok e -> proper_stem x -> proper_ext old -> accepted_args a -> a_csv a = true -> a_no_header a = false -> a_compressor a = RLE ->
  split_on 44 (a_fields a) = time :: value :: more ->
  fs (named x old) = Some t -> table_of (headers :: rows) t -> no_mark t -> Forall (Forall is_utf8) (headers :: rows) -> In time headers -> first_column value headers i ->
  Forall (fun r => List.length r = List.length headers /\ ((exists neg v, usual v /\ cell_writes i r neg v) \/ cell_word i r)) rows ->
  Exists (fun r => exists neg v, usual v /\ cell_writes i r neg v) rows -> Z.of_nat (List.length rows) < 247 * 131072 ->
  exists fs1 fs2 out,
    process_single_file e p std_numbers (compressing a) fs (named x old) = (fs1, Done) /\
    process_single_file e p std_numbers (uncompressing a) fs1 (named x ext_bro) = (fs2, Done) /\
    from_file (fs2 (named x ext_wbro)) = Ok (WbSamples out) /\ column_numbers i rows out.
Proof.
  intros e p a fs x old t headers rows time value more i He Hx Ho Ha Hc Hh Hr Hf Ht Tb Nm Hu Ht' Hv Hrows Hex Hlen.
  (* what is read *)
  assert (K : exists vals, Forall2 (fun r v => List.length r = List.length headers /\ reads_as std_numbers i r v) rows vals /\
    Forall (fun x => finite x -> supported x) vals /\ (exists v, In v vals /\ finite v) /\
    (forall cl out, subsequence_of finite vals cl -> same_series out cl -> column_numbers i rows out)).
  { clear - Hrows Hex. 
    assert (Q : exists vals, Forall2 (fun r v => List.length r = List.length headers /\ reads_as std_numbers i r v) rows vals /\ Forall (fun x => finite x -> supported x) vals /\
      (Exists (fun r => exists neg v, usual v /\ cell_writes i r neg v) rows -> exists v, In v vals /\ finite v) /\
      (forall cl out, subsequence_of finite vals cl -> same_series out cl -> column_numbers i rows out)).
    { clear Hex. induction Hrows as [|r rows (Hl & Hr) Hrows (vals & I1 & I2 & I3 & I4)].
      - exists []. split; [constructor|]. split; [constructor|]. split; [intros H; inversion H|]. intros cl out S1 S2. inversion S1; subst. inversion S2; subst. constructor.
      - destruct Hr as [(neg & v & U & cell & Hcell & W)|(neg & sg & w & Hcell & Hs & Hw)].
        + destruct (C82_nearest _ _ _ W) as (y & P & _). pose proof (proj1 (writes_parse _ _ _ _ W) P) as D. pose proof (usual_supported neg v y U D) as Sy. exists (y :: vals).
          split; [constructor; [split; [exact Hl|now exists cell]|exact I1]|]. split; [constructor; [intros _; exact Sy|exact I2]|]. split; [intros _; exists y; split; [now left|apply Sy]|].
          intros cl out S1 S2. inversion S1 as [|y' l s Fy S1' E1 E2|y' l s Fy S1' E1 E2]; subst; [|exfalso; apply Fy, Sy]. inversion S2 as [|o y' os s' Soy S2' E1 E2]; subst.
          destruct Soy as (Fo & _ & Roy). destruct D as (_ & [(_ & _ & Ry)|(_ & C)]); [|exfalso; destruct Sy as (Fy' & _); destruct y; try discriminate C; discriminate Fy'].
          apply (numbers_number i r neg v o rows os); [exists cell; now split|exact Fo|congruence|now apply (I4 s os)].
        + assert (P : exists y, std_parse (sg ++ w) = Some y /\ ~ finite y).
          { destruct Hw as [Hw|[Hw|Hw]].
            - exists (B754_infinity 53 1024 neg). split; [|discriminate]. apply std_parse_spec. right; left. exists neg, sg, w. repeat (split; [auto; fail|]). reflexivity.
            - exists (B754_infinity 53 1024 neg). split; [|discriminate]. apply std_parse_spec. right; left. exists neg, sg, w. repeat (split; [auto; fail|]). reflexivity.
            - exists (nan_f64 neg). split; [|destruct neg; vm_compute; discriminate]. apply std_parse_spec. right; right. exists neg, sg, w. repeat (split; [auto; fail|]). reflexivity. }
          destruct P as (y & P & Ny). exists (y :: vals). split; [constructor; [split; [exact Hl|now exists (sg ++ w)]|exact I1]|]. split; [constructor; [intros C; contradiction|exact I2]|].
          split.
          * intros Hex. inversion Hex as [? ? H|? ? H]; subst; [|destruct (I3 H) as (v & H1 & H2); exists v; split; [now right|exact H2]].
            exfalso. destruct H as (neg' & v & U & cell & Hcell' & W). assert (cell = sg ++ w) as -> by congruence. apply (writes_parse _ _ _ _ W) in P. apply Ny. now apply (usual_supported neg' v y U P).
          * intros cl out S1 S2. inversion S1 as [|y' l s Fy S1' E1 E2|y' l s Fy S1' E1 E2]; subst; [contradiction|].
            apply numbers_word; [exists neg, sg, w; now repeat split|now apply (I4 cl out)]. }
    destruct Q as (vals & Q1 & Q2 & Q3 & Q4). exists vals. auto. }
  destruct K as (vals & K1 & K2 & (v & K3 & K4) & K5).
  assert (Len : List.length vals = List.length rows) by (clear - K1; induction K1; cbn; congruence).
  assert (Cv : csv_values std_numbers a (fs (named x old)) vals).
  { exists (map (Sample 0) vals). split; [rewrite map_map; symmetry; apply map_id|]. right. split; [exact Hh|]. exists time, value, more. split; [exact Hf|]. rewrite Ht.
    apply (proj1 (C71_values_read std_numbers headers rows t time value (map (Sample 0) vals) Tb Nm)). inversion Hu as [|? ? Hu1 Hu2]; subst. split; [exact Hu1|]. split; [exact Ht'|]. exists i, vals. split; [exact Hv|]. split; [reflexivity|].
    clear - K1 Hu2. induction K1 as [|r v rows vals [H1 H2] K1 IH]; [constructor|]. inversion Hu2; subst. constructor; auto. }
  assert (Fit : fits_counter p vals) by (apply fits_small; rewrite Len; exact Hlen).
  destruct (C49_csv_round_trip e p std_numbers a fs x old vals v He Hx Ho Ha Hc Cv K3 K4 Fit ltac:(rewrite Len; lia)) as (fs1 & fs2 & bytes & out & cl & S1 & S2 & Cb & Db & W & Sub & _).
  destruct Ha as (Ha1 & Ha2). destruct (C14_rle_lossless e p vals (a_error a) (a_level a) He ltac:(lia) Ha2 Fit K2) as (bytes' & out' & cl' & Cb' & Db' & Sub' & Same).
  rewrite Hr in Cb. assert (bytes' = bytes) as -> by congruence. assert (out' = out) as -> by congruence.
  exists fs1, fs2, out. split; [exact S1|]. split; [exact S2|]. split; [exact W|]. exact (K5 cl' out Sub' Same).
Qed.
Print Assumptions C82_decimal_column.

Lemma show_integer_text : forall z, -10 ^ 40 < z < 10 ^ 40 -> integer_text z (show_int z).
Proof.
  intros z H. unfold integer_text. destruct (Z.eq_dec z 0) as [->|N].
  - exists [48]. split; [reflexivity|]. split; [constructor; [unfold digit; lia|constructor]|]. split; [reflexivity|]. split; [reflexivity|congruence].
  - destruct (show_int_pos (Z.abs z) ltac:(lia)) as (B1 & B2 & B3 & B4). exists (show_int (Z.abs z)). split.
    + unfold show_int. rewrite (proj2 (Z.ltb_ge (Z.abs z) 0)) by lia. destruct (Z.ltb_spec z 0); [replace (Z.abs z) with (- z) by lia|replace (Z.abs z) with z by lia]; reflexivity.
    + split; [exact B1|]. split; [exact B2|]. split; [congruence|]. intros _. split; [exact B3|]. intros Hh. destruct (show_int (Z.abs z)) as [|c r]; [congruence|]. cbn in Hh. assert (c = 48) as -> by congruence.
      cbn [whole List.length] in B2. inversion B1 as [|? ? _ Br]; subst. pose proof (whole_bounds r Br). cbn [List.length] in B4. replace (Z.of_nat (S (List.length r)) - 1) with (Z.of_nat (List.length r)) in B4 by lia. lia.
Qed.

(** csv-compressor with automatic selection and error 0 on non-zero integers at a fixed period within one day: after compression and decompression the text of x.csv is
    the header and, for each sample, a line with its second of the day and its value, followed by ".0". *)
Theorem C82_integer_file : forall e p a fs x samples t0 d,
  env_ok e -> proper_stem x -> c_error a = 0 -> c_level a = 0 -> c_compressor a = Auto -> read_samples_from_csv_file std_numbers (fs (named x ext_csv)) = Some samples ->
  regular_day_samples t0 d samples -> Forall (fun s => exists z, is_int (sm_val s) z /\ 0 < Z.abs z <= 2 ^ 24) samples ->
  exists fs1 fs2 lines,
    csvc_process_args e p std_numbers (compress_call a x true) fs = (fs1, Done) /\
    csvc_process_args e p std_numbers (uncompress_call a x) fs1 = (fs2, Done) /\
    fs2 (named x ext_csv) = Some (ascii_text "timestamp,value" ++ [10] ++ concat lines) /\ List.length lines = List.length samples /\
    forall k s z, nth_error samples k = Some s -> is_int (sm_val s) z ->
      exists ts zs, nth_error lines k = Some (ts ++ ascii_text "," ++ zs ++ ascii_text ".0" ++ [10]) /\ integer_text (t0 + d * Z.of_nat k) ts /\ integer_text z zs.
Proof.
  intros e p a fs x samples t0 d He Hx A1 A2 A3 Hr Hreg Hi.
  destruct (C50_error_zero_exact e p std_numbers a fs x samples t0 d He Hx A1 A2 A3 Hr Hreg) as (fs1 & fs2 & out & S1 & S2 & T & Same).
  { eapply Forall_impl; [|exact Hi]. cbv beta. intros s (z & (Fz & Rz) & Bz). split; [exact Fz|]. split; [|exists z; split; [now split|lia]].
    intros C. rewrite C in Rz. unfold R64 in Rz. cbn in Rz. apply (eq_IZR 0) in Rz. lia. }
  assert (Lo : List.length out = List.length samples) by (assert (X : List.length out = List.length (values samples)) by (clear - Same; unfold same_series in Same; induction Same; cbn; congruence); rewrite X; unfold values; now rewrite map_length).
  destruct Hreg as (Ht0 & Hd & Hb & Hne & _ & _).
  set (line := fun s : sample => show_int (sm_ts s) ++ [44] ++ ryu_show (sm_val s) ++ [10]). destruct (at_period_facts t0 d out) as (V1 & V2).
  exists fs1, fs2, (map line (at_period t0 d out)). split; [exact S1|]. split; [exact S2|].
  assert (Lp : List.length (at_period t0 d out) = List.length samples) by (transitivity (List.length (map sm_val (at_period t0 d out))); [now rewrite map_length|now rewrite V1]).
  split; [|split; [now rewrite map_length|]].
  - rewrite T. f_equal. unfold write_samples_text. cbn [std_numbers show_f64]. destruct (at_period t0 d out) as [|s0 l0] eqn:Ep; [exfalso; cbn in Lp; destruct samples; [congruence|discriminate Lp]|].
    rewrite flat_map_concat_map. change (ascii_text "timestamp,value") with (field_timestamp ++ [ch_comma] ++ field_value). rewrite <- !app_assoc. reflexivity.
  - intros k s z Hk Hz. assert (Kl : (k < List.length samples)%nat) by (apply nth_error_Some; congruence).
    destruct (nth_error (at_period t0 d out) k) as [o|] eqn:Eo; [|apply nth_error_None in Eo; lia].
    assert (Ov : nth_error out k = Some (sm_val o)) by (rewrite <- V1; now apply map_nth_error).
    assert (Ot : sm_ts o = t0 + d * Z.of_nat k).
    { assert (X : nth_error (map sm_ts (at_period t0 d out)) k = Some (sm_ts o)) by (now apply map_nth_error). rewrite V2, Lo in X.
      rewrite (map_nth_error (fun i => t0 + d * Z.of_nat i) k (seq 0 (List.length samples)) (d := k)) in X; [congruence|]. rewrite (nth_error_nth' _ 0%nat) by (rewrite seq_length; lia). now rewrite seq_nth by lia. }
    assert (Sv : same_value (sm_val o) (sm_val s)).
    { assert (X : nth_error (values samples) k = Some (sm_val s)) by (unfold values; now apply map_nth_error). clear - Same Ov X. revert k Ov X. induction Same as [|u w us ws Huw Same IH]; intros [|k] Ov X; cbn in Ov, X; try discriminate; [congruence|now apply (IH k)]. }
    destruct Sv as (Fo & _ & Ro). destruct Hz as (Fz & Rz).
    assert (Hi' := Hi). rewrite Forall_forall in Hi'. destruct (Hi' s (nth_error_In _ _ Hk)) as (z' & (_ & Rz') & Bz). assert (z' = z) as -> by (rewrite Rz in Rz'; now apply eq_IZR in Rz').
    destruct (C82_integers (sm_val o) z) as (zs & Ezs & Izs); [split; [exact Fo|congruence]|lia|lia|].
    exists (show_int (sm_ts o)), zs. split; [|split; [|exact Izs]].
    + rewrite (map_nth_error line _ _ Eo). unfold line. rewrite Ezs. change (ascii_text ",") with [44]. now rewrite <- !app_assoc.
    + rewrite <- Ot. apply show_integer_text. rewrite Ot. assert (100000 < 10 ^ 40) by reflexivity. nia.
Qed.
Print Assumptions C82_integer_file.

(** * Cases *)
Example C82_example_read : writes (ascii_text "-12.50e-1") true (1250 * ten_to (-3)) /\ option_map to_bits (std_parse (ascii_text "-12.50e-1")) = Some 13831680355561635840 /\
  option_map to_bits (std_parse (ascii_text "1e23")) = Some 4950912855330343670 /\ ryu_show (from_bits 4950912855330343670) = ascii_text "1e23" /\
  option_map to_bits (std_parse (ascii_text "")) = None /\ option_map to_bits (std_parse (ascii_text "1e")) = None /\ option_map to_bits (std_parse (ascii_text " 1")) = None /\ option_map to_bits (std_parse (ascii_text "0x10")) = None /\
  ryu_show (from_bits 1) = ascii_text "5e-324" /\ ryu_show (from_bits 4591870180066957722) = ascii_text "0.1".
Proof.
  split.
  - exists [45], 1250, (-3), (ascii_text "12.50e-1"). split; [reflexivity|]. split; [right; right; now split|]. split; [|reflexivity]. apply parse_decimal_spec. vm_compute. reflexivity.
  - repeat (split; [vm_compute; reflexivity|]). vm_compute. reflexivity.
Qed.
Definition column_table : text := ascii_text "time,value" ++ [10] ++ ascii_text "1,0.1" ++ [10] ++ ascii_text "2,nan" ++ [10] ++ ascii_text "3,-2.5e3" ++ [10].
Example C82_example_column :
  let headers := [ascii_text "time"; ascii_text "value"] in let rows := [[ascii_text "1"; ascii_text "0.1"]; [ascii_text "2"; ascii_text "nan"]; [ascii_text "3"; ascii_text "-2.5e3"]] in
  table_of (headers :: rows) column_table /\ no_mark column_table /\ Forall (Forall is_utf8) (headers :: rows) /\ In (ascii_text "time") headers /\ first_column (ascii_text "value") headers 1 /\
  Forall (fun r => List.length r = List.length headers /\ ((exists neg v, usual v /\ cell_writes 1 r neg v) \/ cell_word 1 r)) rows /\
  Exists (fun r => exists neg v, usual v /\ cell_writes 1 r neg v) rows /\
  split_on 44 (ascii_text "time,value") = [ascii_text "time"; ascii_text "value"].
Proof.
  cbv zeta.
  assert (P1 : exists neg v, usual v /\ cell_writes 1 [ascii_text "1"; ascii_text "0.1"] neg v).
  { exists false, (1 * ten_to (-1))%R. split; [right|exists (ascii_text "0.1"); split; [reflexivity|]; exists [], 1, (-1), (ascii_text "0.1"); split; [reflexivity|]; split; [left; now split|]; split; [apply parse_decimal_spec; vm_compute; reflexivity|reflexivity]].
    rewrite Rmult_1_l. change (-18) with (- (18)). change (-1) with (- (1)). rewrite !ten_neg, !ten_Z by lia. split.
    - apply Rinv_le_contravar; [apply IZR_lt; reflexivity|apply IZR_le; apply Z.leb_le; reflexivity].
    - apply Rle_trans with 1%R; [|apply IZR_le; apply Z.leb_le; reflexivity]. rewrite <- Rinv_1. apply Rinv_le_contravar; [lra|apply IZR_le; apply Z.leb_le; reflexivity]. }
  assert (P3 : exists neg v, usual v /\ cell_writes 1 [ascii_text "3"; ascii_text "-2.5e3"] neg v).
  { exists true, (25 * ten_to 2)%R. split; [right|exists (ascii_text "-2.5e3"); split; [reflexivity|]; exists [45], 25, 2, (ascii_text "2.5e3"); split; [reflexivity|]; split; [right; right; now split|]; split; [apply parse_decimal_spec; vm_compute; reflexivity|reflexivity]].
    change (-18) with (- (18)). rewrite ten_neg, !ten_Z by lia. rewrite <- mult_IZR. split.
    - apply Rle_trans with 1%R; [|apply IZR_le; apply Z.leb_le; reflexivity]. rewrite <- Rinv_1. apply Rinv_le_contravar; [lra|apply IZR_le; apply Z.leb_le; reflexivity].
    - apply IZR_le. apply Z.leb_le. reflexivity. }
  split; [|split; [|split; [repeat (apply Forall_cons; [apply cells_utf8; vm_compute; reflexivity|]); apply Forall_nil|split; [now left|split; [split; [reflexivity|intros [|j] Hj; [cbn; discriminate|lia]]|split; [|split; [now left|vm_compute; reflexivity]]]]]]]; [|intros r E; discriminate E|].
  - apply C71_plain_tables.
    + assert (Pl : forall s : string, forallb (fun c => (0 <=? c) && (c <? 128) && negb (c =? 44) && negb (c =? 34) && negb (c =? 10) && negb (c =? 13)) (ascii_text s) = true -> plain (ascii_text s)).
      { intros s. induction (ascii_text s) as [|c r IH]; intros H; [constructor|]. cbn [forallb] in H. apply andb_true_iff in H. destruct H as [H1 H2]. constructor; [|now apply IH].
        rewrite !andb_true_iff, !negb_true_iff, !Z.eqb_neq, Z.leb_le, Z.ltb_lt in H1. lia. }
      repeat (apply Forall_cons; [split; [discriminate|]; split; [discriminate|]; apply Forall_cons; [apply Pl; reflexivity|]; apply Forall_cons; [apply Pl; reflexivity|apply Forall_nil]|]). apply Forall_nil.
    + exists [10], [10]. split; [now left|]. split; [now left|]. vm_compute. reflexivity.
  - apply Forall_cons; [split; [reflexivity|now left]|]. apply Forall_cons; [split; [reflexivity|right]|]. 2:{ apply Forall_cons; [split; [reflexivity|now left]|apply Forall_nil]. }
    exists false, [], (ascii_text "nan"). split; [reflexivity|]. split; [left; now split|]. right; right. apply word_spec; [change (Forall (fun d => 97 <= d <= 122) [110; 97; 110]); repeat (apply Forall_cons; [lia|]); apply Forall_nil|vm_compute; reflexivity].
Qed.
