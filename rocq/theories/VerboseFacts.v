(** Rust's Debug text of numbers: facts. *)
From Coq Require Import List ZArith Bool Reals Lia Lra String.
From Flocq Require Import Core IEEE754.BinarySingleNaN IEEE754.Binary IEEE754.Bits.
From Verif Require Import Base Model_Float FloatFacts ArithFacts Model_Vsri Model_Csv Model_Number Model_Args Model_Verbose Spec Spec_Csv Spec_Number Spec_Verbose BincodeFacts NumberFacts PrintFacts Props_Number.
Import ListNotations.
Open Scope list_scope.
Open Scope Z_scope.

Lemma debug_decimal_fits : layout_fits debug_decimal.
Proof.
  intros m k Hm Hk. destruct (show_int_pos m Hm) as (D1 & D2 & D3 & D4). unfold debug_decimal. set (ds := show_int m) in *. clearbody ds.
  set (len := Z.of_nat (List.length ds)) in *. assert (Hl : 1 <= len) by (subst len; destruct ds; [congruence|cbn; lia]).
  cbv zeta. destruct (Z.leb_spec (len + k) 0) as [C1|C1].
  - destruct (zeros_digits (- (len + k))) as [Z1 Z2].
    exists m, k. split; [|reflexivity]. exists [48], [46], (zeros (- (len + k)) ++ ds), [], 0. rewrite app_nil_r. split; [reflexivity|].
    split; [constructor; [unfold digit; lia|constructor]|]. split; [apply Forall_app; now split|]. split; [discriminate|]. split; [now left|]. split; [left; now split|].
    rewrite !whole_app, Z2, D2. cbn [whole]. split; [lia|]. rewrite app_length, Nat2Z.inj_add, zeros_length by lia. fold len. lia.
  - destruct (Z.ltb_spec (len + k) len) as [C2|C2].
    + exists m, k. split; [|reflexivity]. exists (firstn (Z.to_nat (len + k)) ds), [46], (skipn (Z.to_nat (len + k)) ds), [], 0.
      rewrite app_nil_r, firstn_skipn. split; [reflexivity|].
      rewrite <- (firstn_skipn (Z.to_nat (len + k)) ds) in D1. apply Forall_app in D1. destruct D1 as [D1 D1'].
      split; [exact D1|]. split; [exact D1'|]. split; [exact D3|]. split; [now left|]. split; [left; now split|]. split; [now rewrite D2|].
      rewrite skipn_length. subst len. lia.
    + exists (whole ((ds ++ zeros k) ++ [48])), (0 - Z.of_nat (List.length [48])).
      destruct (zeros_digits k) as [Z1 Z2]. split.
      * exists (ds ++ zeros k), [46], [48], [], 0. split; [now rewrite <- app_assoc|]. split; [apply Forall_app; now split|]. split; [constructor; [unfold digit; lia|constructor]|].
        split; [destruct ds; [congruence|discriminate]|]. split; [now left|]. split; [left; now split|]. now split.
      * rewrite whole_app. cbn [whole List.length]. rewrite whole_app, D2, Z2, zeros_length by lia. change (Z.of_nat 1) with 1. change (Z.of_nat 0) with 0.
        rewrite Z.pow_1_r, Z.pow_0_r. replace ((m * 10 ^ k + 0) * 10 + ((48 - 48) * 1 + 0)) with (m * 10 ^ k * 10) by ring. rewrite !mult_IZR, <- (ten_Z k) by lia.
        change (0 - 1) with (-1). change (ten_to (-1)) with (/ (10 * 1))%R. field.
Qed.

Lemma len40 (ds : list Z) m : 10 ^ (Z.of_nat (List.length ds) - 1) <= m -> m < 10 ^ 40 -> Z.of_nat (List.length ds) <= 40.
Proof. intros H L. apply Znot_gt_le. intros C. assert (10 ^ 40 <= 10 ^ (Z.of_nat (List.length ds) - 1)) by (apply Z.pow_le_mono_r; lia). lia. Qed.

Lemma debug_scientific_fits : layout_fits debug_scientific.
Proof.
  intros m k Hm Hk. destruct (show_int_pos m Hm) as (D1 & D2 & D3 & D4). unfold debug_scientific. set (ds := show_int m) in *. clearbody ds.
  pose proof (len40 ds m ltac:(lia) ltac:(lia)) as Hl40.
  set (len := Z.of_nat (List.length ds)) in *. assert (Hl : 1 <= len) by (subst len; destruct ds; [congruence|cbn; lia]).
  assert (Ex : exponent_is (len + k - 1) (101 :: show_int (len + k - 1))) by (apply show_int_exponent; assert (1000 < 10 ^ 40) by reflexivity; lia).
  cbv zeta. exists m, k. split; [|reflexivity]. destruct (Z.ltb_spec 1 len) as [L|L].
  - exists (firstn 1 ds), [46], (skipn 1 ds), (101 :: show_int (len + k - 1)), (len + k - 1). rewrite firstn_skipn. split; [now rewrite <- app_assoc|].
    rewrite <- (firstn_skipn 1 ds) in D1. apply Forall_app in D1. destruct D1 as [D1 D1'].
    split; [exact D1|]. split; [exact D1'|]. split; [exact D3|]. split; [now left|]. split; [exact Ex|]. split; [now rewrite D2|]. rewrite skipn_length. subst len. lia.
  - assert (F : firstn 1 ds = ds) by (apply firstn_all2; subst len; lia). rewrite F.
    exists ds, [], [], (101 :: show_int (len + k - 1)), (len + k - 1). split; [reflexivity|]. split; [exact D1|]. split; [constructor|]. rewrite app_nil_r. split; [exact D3|]. split; [right; now split|].
    split; [exact Ex|]. split; [now rewrite D2|]. cbn [List.length Z.of_nat]. lia.
Qed.

Definition debug_layout (x : f64) : Z -> Z -> text := if debug_exponential x then debug_scientific else debug_decimal.
Lemma debug_layout_fits x : layout_fits (debug_layout x).
Proof. unfold debug_layout. destruct (debug_exponential x); [apply debug_scientific_fits|apply debug_decimal_fits]. Qed.
Definition debug_writes x := shown_writes (fun _ => true) (debug_layout x) x (debug_layout_fits x).

Lemma debug_reads_back x : fis_nan x = false -> std_parse (debug_f64 x) = Some x.
Proof.
  intros Nn. destruct x as [s|s|s pl H|s m e H] eqn:Ex; try discriminate Nn.
  - destruct s; vm_compute; reflexivity.
  - destruct s; vm_compute; reflexivity.
  - rewrite <- Ex. assert (Fx : finite x) by (subst; reflexivity).
    assert (Nx : R64 x <> 0%R) by (subst; unfold R64; cbn [B2R]; apply F2R_neq_0; destruct s; discriminate).
    destruct (debug_writes x Fx Nx) as (m' & k & D & W & Dx & _). now apply (writes_parse _ _ _ _ W).
Qed.
Lemma debug_plain x : plain (debug_f64 x) /\ debug_f64 x <> [].
Proof.
  destruct x as [s|s|s pl H|s m e H] eqn:Ex.
  - destruct s; (split; [|discriminate]); unfold plain, debug_f64, shown; cbn [app]; repeat constructor; lia.
  - destruct s; (split; [|discriminate]); unfold plain, debug_f64, shown, word_inf; cbn [app]; repeat constructor; lia.
  - split; [|discriminate]. unfold plain, debug_f64, shown. repeat constructor; lia.
  - rewrite <- Ex. assert (Fx : finite x) by (subst; reflexivity).
    assert (Nx : R64 x <> 0%R) by (subst; unfold R64; cbn [B2R]; apply F2R_neq_0; destruct s; discriminate).
    destruct (debug_writes x Fx Nx) as (m' & k & D & _ & _ & _ & _ & P & N & _). now split.
Qed.
Lemma debug_shown x : number_shown x (debug_f64 x).
Proof.
  destruct (fis_nan x) eqn:E; [right|left]; (split; [exact E|]).
  - destruct x; try discriminate E. reflexivity.
  - now apply debug_reads_back.
Qed.

Lemma commas_separated l : separated l (commas l).
Proof. induction l as [|a [|b l] IH]; [constructor|constructor|]. change (commas (a :: b :: l)) with (a ++ ascii_text ", " ++ commas (b :: l)). now constructor. Qed.
Lemma separated_no c ts s : separated ts s -> c <> 44 -> c <> 32 -> Forall (fun u => ~ In c u) ts -> ~ In c s.
Proof.
  intros H N1 N2. induction H as [|t|t u r s H IH]; intros F; [now intros []|now inversion F|]. inversion F as [|? ? Ft Fr]; subst.
  rewrite !in_app_iff. intros [C|[C|C]]; [contradiction| |exact (IH Fr C)]. change (ascii_text ", ") with [44; 32] in C. destruct C as [C|[C|[]]]; congruence.
Qed.
Lemma debug_vec_shown data : series_shown data (debug_vec data) /\ ~ In 10 (debug_vec data).
Proof.
  assert (P : forall c, c = 44 \/ c = 10 -> Forall (fun u => ~ In c u) (map debug_f64 data)).
  { intros c Hc. apply Forall_forall. intros u Hu. apply in_map_iff in Hu. destruct Hu as (x & <- & _). intros C. destruct (debug_plain x) as [Pl _]. unfold plain in Pl. rewrite Forall_forall in Pl.
    specialize (Pl c C). cbv beta in Pl. lia. }
  split.
  - exists (map debug_f64 data), (commas (map debug_f64 data)). split; [|split; [apply P; now left|split; [apply commas_separated|reflexivity]]].
    clear P. induction data as [|x r IH]; [constructor|]. constructor; [apply debug_shown|exact IH].
  - unfold debug_vec. rewrite !in_app_iff. intros [C|[C|C]].
    + destruct C as [C|[]]; lia.
    + revert C. apply (separated_no 10 (map debug_f64 data)); [apply commas_separated|lia|lia|apply P; now right].
    + destruct C as [C|[]]; lia.
Qed.
Lemma say_shown label data : line_shown (txt label) data (say true label data).
Proof. destruct (debug_vec_shown data) as [H1 H2]. exists (debug_vec data). split; [exact H1|]. split; [exact H2|reflexivity]. Qed.

(** * What is printed determines the numbers. *)
Lemma number_shown_same x y t : number_shown x t -> number_shown y t -> same_number x y.
Proof.
  assert (N : forall z, fis_nan z = false -> std_parse (ascii_text "NaN") <> Some z).
  { intros z Hz C. assert (E : option_map fis_nan (std_parse (ascii_text "NaN")) = Some true) by (vm_compute; reflexivity). rewrite C in E. cbn [option_map] in E. congruence. }
  intros [(H1 & H2)|(H1 & H2)] [(G1 & G2)|(G1 & G2)].
  - left. congruence.
  - exfalso. rewrite G2 in H2. exact (N x H1 H2).
  - exfalso. rewrite H2 in G2. exact (N y G1 G2).
  - right. now split.
Qed.
Lemma at_comma (a b r s : list Z) : ~ In 44 a -> ~ In 44 b -> a ++ 44 :: r = b ++ 44 :: s -> a = b /\ r = s.
Proof.
  revert b. induction a as [|c a IH]; intros [|d b] Ha Hb E; cbn [app] in E.
  - split; [reflexivity|congruence].
  - exfalso. apply Hb. left. congruence.
  - exfalso. apply Ha. left. congruence.
  - assert (c = d) as -> by congruence. destruct (IH b) as [-> ->]; [firstorder|firstorder|congruence|]. now split.
Qed.
Lemma no_comma (a b r : list Z) : ~ In 44 a -> a <> b ++ 44 :: r.
Proof. intros H ->. apply H. rewrite in_app_iff. right. now left. Qed.
Lemma separated_inj ts s : separated ts s -> forall us, separated us s -> Forall (fun u => ~ In 44 u) ts -> Forall (fun u => ~ In 44 u) us -> Forall (fun u : list Z => u <> []) ts -> Forall (fun u : list Z => u <> []) us -> ts = us.
Proof.
  intros H. induction H as [|t|t u r s H IH]; intros us G F1 F2 N1 N2.
  - inversion G as [|t Et|t' u r s' G' Eq E2]; subst; [reflexivity| |].
    + inversion N2; subst. congruence.
    + inversion N2; subst. destruct t'; [congruence|discriminate].
  - inversion G as [E0|t' E1|t' u r s' G' Eq E2]; subst; [inversion N1; congruence|reflexivity|].
    exfalso. inversion F1 as [|? ? Ft _]; subst. revert Ft. rewrite in_app_iff. intros Ft. apply Ft. right. now left.
  - inversion G as [E0 E1|t' E0 E1|t' u' r' s' G' E0 E1]; subst.
    + inversion N1; subst. destruct t; [congruence|discriminate].
    + exfalso. inversion F2 as [|? ? Ft _]; subst. revert Ft. rewrite in_app_iff. intros Ft. apply Ft. right. now left.
    + inversion F1 as [|? ? Ft Fr]; subst. inversion F2 as [|? ? Ft' Fr']; subst. inversion N1; subst. inversion N2; subst.
      assert (E : t' ++ 44 :: 32 :: s' = t ++ 44 :: 32 :: s) by assumption.
      destruct (at_comma _ _ _ _ Ft' Ft E) as [-> Es]. f_equal. apply IH; try assumption. assert (s' = s) as -> by congruence. exact G'.
Qed.
Lemma number_shown_nonempty x t : number_shown x t -> t <> [].
Proof. intros [(_ & H)|(_ & ->)] E; [|discriminate E]. subst t. discriminate H. Qed.
Lemma series_shown_same data data' t : series_shown data t -> series_shown data' t -> Forall2 same_number data data'.
Proof.
  intros (ts & s & H1 & H2 & H3 & H4) (ts' & s' & G1 & G2 & G3 & G4). rewrite H4 in G4.
  assert (s = s') as <- by (change (ascii_text "[") with [91] in G4; cbn [app] in G4; assert (E : s ++ ascii_text "]" = s' ++ ascii_text "]") by congruence; now apply app_inv_tail in E).
  assert (NE : forall d l, Forall2 number_shown d l -> Forall (fun u : list Z => u <> []) l) by (intros d l Hd; induction Hd; constructor; [eapply number_shown_nonempty; eassumption|assumption]).
  pose proof (separated_inj ts s H3 ts' G3 H2 G2 (NE _ _ H1) (NE _ _ G1)) as <-. clear - H1 G1. revert data' G1. induction H1 as [|x u d l Hx Hd IH]; intros data' G; inversion G; subst; [constructor|]. constructor; [eapply number_shown_same; eassumption|auto].
Qed.

(** * The two notations *)
Lemma tenth_thousandth : exists c, c = nearest_decimal false 1 (-4) /\ finite c /\ R64 c = nearest64 (ten_to (-4)) /\ (ten_to (-4) <= R64 c)%R.
Proof.
  exists (nearest_decimal false 1 (-4)). split; [reflexivity|]. destruct (nearest_decimal_ok false 1 (-4) ltac:(lia)) as (_ & K). rewrite Rmult_1_l in K.
  assert (T : ten_to (-4) = (/ 10000)%R) by (change (-4) with (- (4)); rewrite ten_neg, ten_Z by lia; reflexivity).
  destruct K as [(_ & K1 & K2)|(K & _)].
  - split; [exact K1|]. split; [exact K2|].
    assert (Q : nearest_decimal false 1 (-4) = from_bits 4547007122018943789) by (apply to_bits_inj; vm_compute; reflexivity).
    rewrite Q, T. unfold R64, from_bits, b64_of_bits. cbn -[Rinv]. unfold F2R. cbn -[Rinv IZR]. lra.
  - exfalso. rewrite T in K. pose proof powers as (P1 & _ & _ & P4). rewrite P1 in K. assert (1 <= bpow radix2 970)%R by (apply (bpow_le radix2 0); lia). lra.
Qed.

Lemma ten16 : R64 (int_as_f64 (10 ^ 16)) = ten_to 16 /\ finite (int_as_f64 (10 ^ 16)).
Proof.
  destruct (int_as_f64_correct (10 ^ 16)) as (H1 & H2 & _); [apply Z.leb_le; vm_compute; reflexivity|]. split; [|exact H2]. rewrite H1, ten_Z by lia.
  apply round_generic; [apply valid_rnd_N|]. apply generic_format_FLT. exists (Float radix2 (5 ^ 16) 16); [|vm_compute; reflexivity|apply Z.leb_le; vm_compute; reflexivity].
  unfold F2R. cbn [Fnum Fexp]. rewrite <- (IZR_Zpower radix2) by lia. rewrite <- mult_IZR. reflexivity.
Qed.
Lemma debug_exponential_spec x : finite x ->
  (debug_exponential x = true <-> (0 < Rabs (R64 x) < ten_to (-4) \/ ten_to 16 <= Rabs (R64 x))%R).
Proof.
  intros Fx. destruct tenth_thousandth as (c & Ec & Fc & Rc & Lc). destruct ten16 as [R16 F16]. unfold debug_exponential. rewrite <- Ec. cbv zeta.
  assert (Fa : finite (fabs x)) by (unfold finite; now rewrite fabs_finite). assert (F0 : finite (int_as_f64 0)) by reflexivity. assert (R0 : R64 (int_as_f64 0) = 0%R) by (apply int_as_f64_exact; lia).
  rewrite orb_true_iff, andb_true_iff, negb_true_iff, (fle_R _ _ F16 Fa), (flt_R _ _ Fa Fc), R16, fabs_R. pose proof (Rabs_pos (R64 x)) as Pa.
  assert (E0 : feq (fabs x) (int_as_f64 0) = false <-> (0 < Rabs (R64 x))%R).
  { pose proof (feq_R _ _ Fa F0) as K. rewrite fabs_R, R0 in K. destruct (feq (fabs x) (int_as_f64 0)).
    - split; [discriminate|]. intros C. rewrite (proj1 K eq_refl) in C. lra.
    - split; [|reflexivity]. intros _. destruct Pa as [P|P]; [exact P|]. symmetry in P. apply K in P. discriminate P. }
  assert (E1 : (Rabs (R64 x) < R64 c)%R <-> (Rabs (R64 x) < ten_to (-4))%R).
  { split; [|lra]. intros L. apply Rnot_le_lt. intros C. assert (M : (nearest64 (ten_to (-4)) <= nearest64 (Rabs (R64 x)))%R) by (apply round_le; [apply FLT_exp_valid; exact prec53_gt_0|apply valid_rnd_N|exact C]).
    rewrite <- Rc in M. assert (G : nearest64 (Rabs (R64 x)) = Rabs (R64 x)) by (rewrite <- fabs_R; apply round_generic; [apply valid_rnd_N|apply (Binary.generic_format_B2R 53 1024)]). lra. }
  rewrite E0, E1. tauto.
Qed.

Lemma debug_decimal_notation sg m k : (sg = [] \/ sg = [45]) -> 0 < m < 10 ^ 40 -> decimal_notation (sg ++ debug_decimal m k).
Proof.
  intros Hs Hm. destruct (show_int_pos m Hm) as (D1 & D2 & D3 & _). unfold debug_decimal. set (ds := show_int m) in *. clearbody ds. set (len := Z.of_nat (List.length ds)). assert (Hl : 1 <= len) by (subst len; destruct ds; [congruence|cbn; lia]). cbv zeta.
  assert (Dz : Forall digit [48]) by (constructor; [unfold digit; lia|constructor]).
  destruct (Z.leb_spec (len + k) 0) as [C1|C1]; [|destruct (Z.ltb_spec (len + k) len) as [C2|C2]].
  - exists sg, [48], (zeros (- (len + k)) ++ ds). split; [reflexivity|]. split; [exact Hs|]. split; [exact Dz|]. split; [apply Forall_app; split; [apply zeros_digits|exact D1]|]. split; [discriminate|]. intros C. apply app_eq_nil in C. tauto.
  - exists sg, (firstn (Z.to_nat (len + k)) ds), (skipn (Z.to_nat (len + k)) ds). split; [reflexivity|]. split; [exact Hs|].
    rewrite <- (firstn_skipn (Z.to_nat (len + k)) ds) in D1. apply Forall_app in D1. destruct D1 as [D1 D1']. split; [exact D1|]. split; [exact D1'|]. split; intros C; apply (f_equal (@List.length Z)) in C.
    + rewrite firstn_length in C. cbn in C. subst len. lia.
    + rewrite skipn_length in C. cbn in C. subst len. lia.
  - exists sg, (ds ++ zeros k), [48]. split; [now rewrite <- !app_assoc|]. split; [exact Hs|]. split; [apply Forall_app; split; [exact D1|apply zeros_digits]|]. split; [exact Dz|]. split; [intros C; apply app_eq_nil in C; tauto|discriminate].
Qed.
Lemma show_int_text z : - 10 ^ 40 < z < 10 ^ 40 -> integer_text z (show_int z).
Proof.
  intros Hz. assert (P : forall a, 0 < a < 10 ^ 40 -> digits_fuel 40 a <> [] /\ hd_error (digits_fuel 40 a) <> Some 48 /\ Forall digit (digits_fuel 40 a) /\ whole (digits_fuel 40 a) = a).
  { intros a Ha. pose proof (show_int_pos a Ha) as (B1 & B2 & B3 & B4). unfold show_int in *. rewrite (proj2 (Z.ltb_ge a 0)) in * by lia. split; [exact B3|]. split; [|now split].
    set (ds := digits_fuel 40 a) in *. clearbody ds. intros Hh. destruct ds as [|c r]; [congruence|]. cbn in Hh. assert (c = 48) as -> by congruence. cbn [whole List.length] in B2. inversion B1 as [|? ? _ Br]; subst. pose proof (whole_bounds r Br).
    cbn [List.length] in B4. replace (Z.of_nat (S (List.length r)) - 1) with (Z.of_nat (List.length r)) in B4 by lia. lia. }
  unfold integer_text, show_int. destruct (Z.ltb_spec z 0) as [L|L].
  - destruct (P (- z) ltac:(lia)) as (P1 & P2 & P3 & P4). exists (digits_fuel 40 (- z)). split; [reflexivity|]. split; [exact P3|]. split; [lia|]. split; [lia|auto].
  - destruct (Z.eq_dec z 0) as [->|N].
    + exists [48]. split; [reflexivity|]. split; [constructor; [unfold digit; lia|constructor]|]. split; [reflexivity|]. split; [reflexivity|congruence].
    + destruct (P z ltac:(lia)) as (P1 & P2 & P3 & P4). exists (digits_fuel 40 z). split; [reflexivity|]. split; [exact P3|]. split; [lia|]. split; [congruence|auto].
Qed.
Lemma debug_scientific_notation sg m k : (sg = [] \/ sg = [45]) -> 0 < m < 10 ^ 40 -> -500 <= k <= 500 -> scientific_notation (sg ++ debug_scientific m k).
Proof.
  intros Hs Hm Hk. destruct (show_int_pos m Hm) as (D1 & D2 & D3 & D4). pose proof (show_int_text m ltac:(lia)) as (ds' & E & _ & _ & _ & H0). rewrite (proj2 (Z.ltb_ge m 0)) in E by lia. cbn [app] in E. destruct (H0 ltac:(lia)) as [_ Hh]. rewrite <- E in Hh. clear E H0 ds'.
  unfold debug_scientific. set (ds := show_int m) in *. clearbody ds. pose proof (len40 ds m ltac:(lia) ltac:(lia)) as Hl40. cbv zeta.
  destruct ds as [|c r]; [congruence|]. set (x := Z.of_nat (List.length (c :: r)) + k - 1). assert (IT : integer_text x (show_int x)) by (apply show_int_text; assert (1000 < 10 ^ 40) by reflexivity; lia).
  inversion D1 as [|? ? Dc Dr]; subst. unfold digit in Dc. cbn in Hh. assert (c <> 48) by congruence.
  destruct (Z.ltb_spec 1 (Z.of_nat (List.length (c :: r)))) as [L|L].
  - exists sg, c, ([46] ++ r), x, (show_int x). split; [now rewrite <- !app_assoc|]. split; [exact Hs|]. split; [lia|]. split; [|exact IT]. right. exists r. split; [reflexivity|]. split; [|exact Dr]. intros ->. cbn in L. lia.
  - exists sg, c, [], x, (show_int x). split; [reflexivity|]. split; [exact Hs|]. split; [lia|]. split; [now left|exact IT].
Qed.
Lemma debug_notation x : finite x ->
  (((0 < Rabs (R64 x) < ten_to (-4) \/ ten_to 16 <= Rabs (R64 x))%R -> scientific_notation (debug_f64 x)) /\
   (~ (0 < Rabs (R64 x) < ten_to (-4) \/ ten_to 16 <= Rabs (R64 x))%R -> decimal_notation (debug_f64 x))).
Proof.
  intros Fx. pose proof (debug_exponential_spec x Fx) as S0. destruct (Req_dec (R64 x) 0) as [Z0|N0].
  - split; intros H.
    + exfalso. rewrite Z0, Rabs_R0 in H. pose proof (ten_pow 16). destruct H; lra.
    + assert (D0 : Forall digit [48]) by (constructor; [unfold digit; lia|constructor]).
      destruct x as [s|s|s pl Hx|s mx ex Hx]; try discriminate Fx; [|exfalso; revert Z0; unfold R64; cbn [B2R]; apply F2R_neq_0; destruct s; discriminate].
      exists (if s then [45] else []), [48], [48]. split; [destruct s; reflexivity|]. split; [destruct s; auto|]. repeat (split; [assumption || discriminate|]). discriminate.
  - destruct (shown_printed (fun _ => true) (debug_layout x) x Fx N0) as (sg & m & k & D & v & _ & E & _ & _ & HD & Hm & Hk & _ & _ & _ & _ & Sg).
    assert (Hs : sg = [] \/ sg = [45]) by (rewrite Sg; destruct (Bsign 53 1024 x); auto).
    assert (Hm40 : 0 < m < 10 ^ 40) by (assert (10 ^ D <= 10 ^ 40) by (apply Z.pow_le_mono_r; lia); lia).
    change (debug_f64 x) with (shown (fun _ => true) (debug_layout x) x). rewrite E. unfold debug_layout. destruct (debug_exponential x); split; intros H.
    + now apply debug_scientific_notation.
    + exfalso. apply H, S0. reflexivity.
    + apply S0 in H. discriminate H.
    + now apply debug_decimal_notation.
Qed.
