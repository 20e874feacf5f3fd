(** C53 - C55: how good the error metrics are, and what the error bound means end to end. *)
From Coq Require Import List ZArith Bool Lia ZifyBool Reals Lra.
From Flocq Require Import Core IEEE754.BinarySingleNaN IEEE754.Binary IEEE754.Bits.
From Verif Require Import Base Model_Float Model_Bincode BincodeFacts Spec Spec_Metric FloatFacts Float32Facts ArithFacts RoundFacts Model_Utils UtilsFacts Model_Stats
  Model_Compressors Model_Polynomial Model_Fft Model_Stream StatsFacts CompressorFacts StreamFacts PlanFacts PolyFacts PolyLoopFacts PolyApiFacts FftFacts
  MetricFacts ExactFacts PipelineFacts AccuracyFacts Props_Stream Props_Lossless Props_Plan Props_Metric Props_Poly Props_Fft Props_Pipeline Props_Auto Props_ErrorZero.
Import ListNotations.
Open Scope Z_scope.

(** The exact quantity each metric stands for. *)
Definition exact_metric (m : error_method) : option (list f64 -> list f64 -> R) :=
  match m with Mape => Some mean_relative_error | Mae => Some mean_absolute_error | Mse => Some mean_squared_error | _ => None end.

(** *** C53 *)
(** A finite result of the three mean metrics is the exact mean up to a relative error of (n + 4) 2^-52. *)
Theorem C53_metrics_accurate : forall m exact original generated err,
  exact_metric m = Some exact ->
  original <> [] -> Z.of_nat (length original) <= 2 ^ 50 -> Forall finite original -> Forall finite generated ->
  method_error m original generated = Ok err -> finite err ->
  (Rabs (R64 err - exact original generated) <=
     INR (length original + 4) * / IZR (2 ^ 52) * exact original generated + bpow radix2 (-1070))%R.
Proof.
  intros m exact o g err Hm Hne Hl Fo Fg H F. change (/ IZR (2 ^ 52))%R with (bpow radix2 (-52)).
  destruct m; try discriminate; assert (Ex := Hm); unfold exact_metric in Ex;
    match type of Ex with Some ?a = Some ?b => assert (exact = a) as -> by congruence end.
  - now apply mse_accuracy.
  - now apply mae_accuracy.
  - now apply mape_accuracy.
Qed.
Print Assumptions C53_metrics_accurate.
(** For the default metric the hypothesis on the generated series is not needed: a finite result says that no original sample
    was zero and that every generated sample is a number. *)
Theorem C53_finite_default_metric : forall original generated err,
  original <> [] -> Z.of_nat (length original) <= 2 ^ 50 -> Forall finite original ->
  calculate_error original generated = Ok err -> finite err ->
  Forall (fun o => R64 o <> 0%R) original /\ Forall finite generated /\ length generated = length original /\
  (Rabs (R64 err - mean_relative_error original generated) <=
     INR (length original + 4) * / IZR (2 ^ 52) * mean_relative_error original generated + bpow radix2 (-1070))%R.
Proof. intros o g err Hne Hl Fo H F. change (/ IZR (2 ^ 52))%R with (bpow radix2 (-52)). now apply mape_accuracy. Qed.
Print Assumptions C53_finite_default_metric.

(** *** Glue *)
Lemma mean_rel_nonneg o g : Forall (fun x => R64 x <> 0%R) o -> (0 <= mean_relative_error o g)%R.
Proof.
  intros H. unfold mean_relative_error, mean_over. apply Rmult_le_pos.
  - revert g. induction H as [|x l Hx Hl IH]; intros [|y g]; cbn [combine map fold_right]; try lra.
    specialize (IH g). assert (0 <= Rabs (R64 y - R64 x) / Rabs (R64 x))%R; [|lra].
    apply Rmult_le_pos; [apply Rabs_pos|]. apply Rlt_le, Rinv_0_lt_compat, Rabs_pos_lt, Hx.
  - destruct o; [cbn [length]; change (INR 0) with 0%R; rewrite Rinv_0; lra|]. apply Rlt_le, Rinv_0_lt_compat. apply lt_0_INR. cbn. lia.
Qed.

(** From a computed error to the exact one, for chunks. *)
Lemma exact_from_computed n E m B : (n <= 2 ^ 18)%Z -> 0 <= n -> (0 <= m)%R -> (B <= 4)%R -> (E <= B)%R ->
  (Rabs (E - m) <= IZR (n + 4) * bpow radix2 (-52) * m + bpow radix2 (-1070) -> m <= B + / 100000000)%R.
Proof.
  intros Hn H0 Hm HB HE H. apply Rabs_le_inv in H.
  assert (K : (IZR (n + 4) * bpow radix2 (-52) <= bpow radix2 (-33))%R).
  { apply Rle_trans with (bpow radix2 19 * bpow radix2 (-52))%R; [|rewrite <- bpow_plus; apply bpow_le; lia].
    apply Rmult_le_compat_r; [apply bpow_ge_0|]. rewrite <- (IZR_Zpower radix2) by lia. apply IZR_le. change (radix2 ^ 19) with (2 ^ 18 + 2 ^ 18). lia. }
  assert (T : (bpow radix2 (-1070) <= bpow radix2 (-40))%R) by (apply bpow_le; lia).
  change (bpow radix2 (-33)) with (/ 8589934592)%R in K. change (bpow radix2 (-40)) with (/ 1099511627776)%R in T.
  set (k := (IZR (n + 4) * bpow radix2 (-52))%R) in *.
  assert (k * m <= / 8589934592 * m)%R by (apply Rmult_le_compat_r; lra). lra.
Qed.

(** The bound the command line hands over. *)
Lemma cli_error_value err : 0 <= err < 256 ->
  finite (f32_as_f64 (cli_error err)) /\ (0 <= R64 (f32_as_f64 (cli_error err)) <= IZR err / 100 + / 1000000 - / 100000000)%R.
Proof.
  intros H.
  assert (N := cli_error_nonneg err H).
  assert (F : fin32 (cli_error err) = true).
  { assert (G : forallb (fun k => fin32 (cli_error (Z.of_nat k))) (seq 0 256) = true) by (vm_compute; reflexivity).
    rewrite forallb_forall in G. specialize (G (Z.to_nat err)). rewrite Z2Nat.id in G by lia. apply G. apply in_seq. lia. }
  destruct (f32_as_f64_R _ F) as [F64 E]. split; [exact F64|]. split.
  - apply (fle_R f0 _ f0_finite F64) in N. now rewrite f0_R in N.
  - rewrite E. clear N F64 E.
    assert (G : forallb (fun k => match cli_error (Z.of_nat k) with
                                  | B754_finite _ _ false m ex _ => (ex <=? 0) && (Zpos m * 100000000 <=? (Z.of_nat k * 1000000 + 99) * 2 ^ (- ex))
                                  | B754_zero _ _ _ => true | _ => false end) (seq 0 256) = true) by (vm_compute; reflexivity).
    rewrite forallb_forall in G. specialize (G (Z.to_nat err)). rewrite Z2Nat.id in G by lia. specialize (G ltac:(apply in_seq; lia)).
    unfold R32. destruct (cli_error err) as [s|s|s pl B|s m ex B]; try discriminate; cbn [Binary.B2R].
    + assert (0 <= IZR err)%R by (apply IZR_le; lia). lra.
    + destruct s; [discriminate|]. apply andb_true_iff in G. destruct G as [G1 G2]. cbn [SpecFloat.cond_Zopp] in *. unfold F2R. cbn [Fnum Fexp].
      assert (P : (bpow radix2 ex * IZR (2 ^ (- ex)) = 1)%R).
      { replace (2 ^ (- ex))%Z with (radix2 ^ (- ex))%Z by reflexivity. rewrite IZR_Zpower by lia. rewrite <- bpow_plus. now replace (ex + - ex) with 0 by lia. }
      assert (G2' : (Z.pos m * 100000000 <= (err * 1000000 + 99) * 2 ^ (- ex))%Z) by lia.
      apply IZR_le in G2'. rewrite !mult_IZR, plus_IZR, mult_IZR in G2'.
      apply (Rmult_le_compat_r (bpow radix2 ex)) in G2'; [|apply bpow_ge_0].
      assert (X : ((IZR err * 1000000 + 99) * IZR (2 ^ (- ex)) * bpow radix2 ex = IZR err * 1000000 + 99)%R).
      { rewrite Rmult_assoc, (Rmult_comm (IZR (2 ^ (- ex)))), P. ring. }
      rewrite X in G2'. lra.
Qed.

(** Rounding to five decimals, whatever the magnitude. *)
Lemma rd_near_any r : (Rabs (rd 5 r - r) <= 6 / 1000000 \/ Rabs (rd 5 r - r) <= / IZR (2 ^ 24) * Rabs r)%R.
Proof.
  destruct (Rle_or_lt (Rabs r) (bpow radix2 30)) as [H|H].
  - left. eapply Rle_trans; [apply rd_near; [lia|exact H]|]. change (IZR (10 ^ 5)) with 100000%R. change (bpow radix2 (-23)) with (/ 8388608)%R. lra.
  - right. unfold rd. change (IZR (10 ^ 5)) with 100000%R. change (IZR (2 ^ 24)) with 16777216%R. change (bpow radix2 30) with 1073741824%R in H.
    destruct (rnd_rel (r * 100000)) as (d & h & Hd & Hh & E). set (N := ZnearestA (rnd64 (r * 100000))).
    assert (E2 : (Rabs (IZR N - rnd64 (r * 100000)) <= / 2)%R) by (rewrite Rabs_minus_sym; apply Znearest_half).
    rewrite E in E2. clearbody N. clear E. destruct (rnd_rel (IZR N / 100000)) as (d' & h' & Hd' & Hh' & ->).
    assert (U : (u <= / 1000000000000000)%R).
    { apply Rle_trans with (bpow radix2 (-50)); [apply bpow_le; lia|]. change (bpow radix2 (-50)) with (/ 1125899906842624)%R. lra. }
    assert (T : (eta <= / 1000000000000000)%R).
    { apply Rle_trans with (bpow radix2 (-50)); [apply bpow_le; lia|]. change (bpow radix2 (-50)) with (/ 1125899906842624)%R. lra. }
    assert (A : (Rabs (IZR N / 100000 - r) <= Rabs r * / 500000000000000 + / 100000)%R).
    { replace (IZR N / 100000 - r)%R with ((IZR N - (r * 100000 * (1 + d) + h)) / 100000 + r * d + h / 100000)%R by field.
      eapply Rle_trans; [apply Rabs_triang|]. eapply Rle_trans; [apply Rplus_le_compat_r, Rabs_triang|].
      rewrite Rabs_mult. unfold Rdiv. rewrite !Rabs_mult, !(Rabs_right (/ 100000)) by lra.
      assert (Rabs r * Rabs d <= Rabs r * / 1000000000000000)%R by (apply Rmult_le_compat_l; lra). lra. }
    replace (IZR N / 100000 * (1 + d') + h' - r)%R with ((IZR N / 100000 - r) + (IZR N / 100000 - r) * d' + r * d' + h')%R by ring.
    set (w := (IZR N / 100000 - r)%R) in *.
    eapply Rle_trans; [apply Rabs_triang|]. eapply Rle_trans; [apply Rplus_le_compat_r, Rabs_triang|]. eapply Rle_trans; [apply Rplus_le_compat_r, Rplus_le_compat_r, Rabs_triang|].
    rewrite !Rabs_mult.
    assert (Rabs r * Rabs d' <= Rabs r * / 1000000000000000)%R by (apply Rmult_le_compat_l; lra).
    assert (Rabs w * Rabs d' <= Rabs w * / 1000000000000000)%R by (apply Rmult_le_compat_l; [apply Rabs_pos|lra]). lra.
Qed.

Lemma same_nearly out data : same_series out data -> nearly_equal data out.
Proof.
  induction 1 as [|y x l l' (Fy & Fx & E) _ IH]; constructor; auto. split; [exact Fy|]. left. rewrite E, Rminus_diag_eq by reflexivity. rewrite Rabs_R0. lra.
Qed.

Lemma nth_forall2 {A B} (P : A -> B -> Prop) l1 : forall l2, length l2 = length l1 ->
  (forall k x, nth_error l1 k = Some x -> exists y, nth_error l2 k = Some y /\ P x y) -> Forall2 P l1 l2.
Proof.
  induction l1 as [|x l1 IH]; intros [|y l2] H Hk; try discriminate; constructor.
  - destruct (Hk 0%nat x eq_refl) as (y' & Hy & Hp). cbn in Hy. assert (y = y') as -> by congruence. exact Hp.
  - apply IH; [now injection H|]. intros k z Hz. exact (Hk (S k) z Hz).
Qed.

(** A Catmull-Rom frame that stores every sample returns every sample, up to the rounding to five decimals. *)
Lemma stored_nearly e p data bytes f :
  data <> [] -> Z.of_nat (length data) <= 2 ^ 53 -> Forall supported data ->
  produced_usable e p Polynomial data bytes ->
  decode_unwrap dec_poly bytes = Ok f -> length (pl_points f) = length data ->
  exists out, decompress e p Polynomial (length data) bytes = Ok out /\ nearly_equal data out.
Proof.
  intros Hne Hn Hs Hp Hd Hl. assert (Hlen := nonempty_len data Hne).
  destruct (stats_facts data Hne (supported_forall_finite _ Hs)) as (st & Hst & Fn & Fx & Hle & [i Hmn] & [j Hmx]).
  destruct (feq (st_max st) (st_min st)) eqn:E.
  { destruct (C16_polynomial_output_finite e p data bytes Hne Hn Hs Hp) as (out & Ho & _). exists out. split; [exact Ho|].
    destruct (produced_shape e p Polynomial data bytes st (or_introl eq_refl) Hst (conj Hlen Hn)) as (g & -> & Hsh).
    { destruct Hp as [Hp|(b & _ & _ & Hp)]; [now left|right; eauto]. }
    cbn [decompress] in Ho. unfold polynomial_decompress in Ho. rewrite Hd in Ho. cbn [bind] in Ho.
    assert (G : pl_min f = st_min st /\ pl_max f = st_max st).
    { destruct Hsh as [->|[s Hh]].
      - rewrite decode_frame0 in Hd. apply ok_inj in Hd. subst f. split; reflexivity.
      - rewrite (decode_holds _ _ _ _ (conj Hlen Hn) Hh) in Hd. apply ok_inj in Hd. subst f. destruct Hh as [_ ->]. split; reflexivity. }
    destruct G as [G1 G2]. unfold poly_to_data in Ho. rewrite G1, G2, E in Ho. apply ok_inj in Ho. subst out.
    apply same_nearly, constant_series; auto. now apply supported_forall_finite. }
  destruct (produced_usable_shape e p Polynomial data bytes st (or_introl eq_refl) Hst (conj Hlen Hn) Hp E) as (g & s & -> & Hh).
  destruct (spline_frame e p data st g s Hs Hst (conj Hlen Hn) E Hh) as (out & H1 & H2 & _ & H4).
  exists out. split; [exact H1|].
  rewrite (decode_holds _ _ _ _ (conj Hlen Hn) Hh) in Hd. apply ok_inj in Hd. subst f.
  assert (Hgl : length (grid (len data) s) = length data).
  { destruct Hh as [_ ->]. cbn [conv_poly with_points pl_points] in Hl. unfold pick in Hl. now rewrite !map_length in Hl. }
  assert (Hsr : 1 <= s) by (destruct Hh; lia).
  assert (Hall : forall k, (k < length data)%nat -> In (Z.of_nat k) (grid (len data) s)).
  { intros k Hk.
    assert (Hincl : incl (grid (len data) s) (map Z.of_nat (seq 0 (length data)))).
    { intros z Hz. apply grid_bounds in Hz; [|lia|lia]. apply in_map_iff. exists (Z.to_nat z). unfold len in Hz. split; [lia|]. apply in_seq. lia. }
    assert (Hnd : NoDup (grid (len data) s)).
    { destruct (grid_spec (len data) s) as [Hsort _]; [lia|lia|]. clear -Hsort. induction Hsort as [|a l Hl IH Ha]; constructor; auto.
      intros Hin. rewrite Forall_forall in Ha. specialize (Ha a Hin). lia. }
    apply (NoDup_length_incl (l' := map Z.of_nat (seq 0 (length data))) Hnd); [rewrite map_length, seq_length; lia|exact Hincl|].
    apply in_map_iff. exists k. split; [reflexivity|]. apply in_seq. lia. }
  apply nth_forall2; [exact H2|]. intros k x Hx. assert (Hk : (k < length data)%nat) by (apply nth_error_Some; congruence).
  destruct (H4 (Z.of_nat k) x (Hall k Hk)) as (y & [_ Hy] & Fy & Ry); [split; [lia|now rewrite Nat2Z.id]|].
  rewrite Nat2Z.id in Hy. exists y. split; [exact Hy|]. split; [exact Fy|].
  assert (Hin : In x data) by (eapply nth_error_In; eauto).
  assert (Hcl : (R64 (st_min st) <= R64 x <= R64 (st_max st))%R).
  { destruct Hmn as (_ & Hmn & _), Hmx as (_ & Hmx & _). rewrite Forall_forall in Hmn, Hmx. split; auto. }
  rewrite Ry. assert (C := clamp_near _ _ (rd 5 (R64 x)) _ Hcl). destruct (rd_near_any (R64 x)); [left|right]; lra.
Qed.

(** A chunk compressed with the polynomial compressor and an error bound. *)
Lemma polynomial_chunk e p data bound bytes out B :
  data <> [] -> Z.of_nat (length data) <= 131072 -> Forall supported data -> Forall (fun x => R64 x <> 0%R) data ->
  finite bound -> (0 <= R64 bound <= B)%R -> (B <= 3)%R ->
  compress_bounded e p Polynomial data bound = Ok bytes -> decompress e p Polynomial (length data) bytes = Ok out ->
  nearly_equal data out \/ relative_error_within (B + 6 / 10000 + / 100000000) data out.
Proof.
  intros Hne Hl Hs Hnz Fb Rb B3 Hb Ho. assert (Hl' : Z.of_nat (length data) <= 2 ^ 53) by lia.
  assert (Rb' : (0 <= R64 bound <= bpow radix2 29)%R) by (change (bpow radix2 29) with 536870912%R; lra).
  assert (Hz : Forall no_negative_zero data).
  { eapply Forall_impl; [|exact Hnz]. intros x Hx ->. apply Hx. reflexivity. }
  destruct (C18_error_control e p Polynomial data bound (or_introl eq_refl) Hne Hl' Hs Hz Fb Rb') as (r & out' & R1 & R2 & R3 & R4 & Hc).
  rewrite Hb in R2. apply ok_inj in R2. subst bytes. rewrite Ho in R3. apply ok_inj in R3. subst out'.
  destruct Hc as [(_ & Hc)|[(_ & f & F1 & F2)|(F1 & F2)]].
  - left. now apply same_nearly.
  - left. destruct (stored_nearly e p data (cr_data r) f Hne Hl' Hs) as (o & O1 & O2); auto; [|now rewrite F2|].
    + right. exists bound. auto.
    + rewrite Ho in O1. apply ok_inj in O1. now subst o.
  - right.
    destruct (C16_polynomial_output_finite e p data (cr_data r) Hne Hl' Hs) as (o & O1 & _ & O2); [right; exists bound; auto|].
    rewrite Ho in O1. apply ok_inj in O1. subst o.
    assert (Fd := supported_forall_finite _ Hs).
    destruct F2 as [F2|(F2 & F3)].
    { exfalso. apply (C22_mape_nan_iff data out) in F2; auto. destruct F2 as (k & o & g & K1 & _ & K2 & _).
      rewrite Forall_forall in Hnz. apply (Hnz o); [|exact K2]. eapply nth_error_In; eauto. }
    destruct (mape_accuracy data out (cr_error r) Hne ltac:(lia) Fd F1 F2) as (_ & _ & _ & A).
    split; [exact R4|]. split; [exact Hnz|]. split; [exact O2|].
    apply (exact_from_computed (Z.of_nat (length data)) (R64 (cr_error r))); try lia; try lra.
    + now apply mean_rel_nonneg.
    + rewrite INR_IZR_INZ, Nat2Z.inj_add in A. exact A.
Qed.

(** *** C54 *)
(** The polynomial compressor on the command line: for supported non-zero samples every chunk either comes back sample by
    sample (up to the rounding to five decimals), or with an exact mean relative error of at most the requested percentage,
    plus 0.0601 percentage points for the rounding of the error in the compressor. *)
Theorem C54_polynomial_error_end_to_end : forall e p data err level,
  env_ok e -> 0 <= err < 256 -> 0 <= level <= 6 -> fits_counter p data ->
  Forall (fun x => finite x -> supported x /\ R64 x <> 0%R) data ->
  exists bytes outs chunks cleaned,
    compress_data e p data Polynomial err level = Ok bytes /\ decompress_data e p bytes = Ok (concat outs) /\
    subsequence_of finite data cleaned /\ concat chunks = cleaned /\
    Forall2 (fun chunk out => nearly_equal chunk out \/ relative_error_within (IZR err / 100 + 601 / 1000000) chunk out) chunks outs.
Proof.
  intros e p data err level He Hr Hlv Hf Hs.
  destruct (cli_error_value err Hr) as [Fb Rb].
  destruct (pipeline_with e p data Polynomial err level
    (fun out chunk => nearly_equal chunk out \/ relative_error_within (IZR err / 100 + 601 / 1000000) chunk out) He Hr Hlv Hf) as (b & outs & chunks & H1 & H2 & H3 & _ & H4).
  - intros d f out Hne Hdl Hin Hfr Ho _. rewrite Forall_forall in Hs.
    assert (Hall : forall x, In x d -> supported x /\ R64 x <> 0%R).
    { intros x Hx. destruct (clean_data_in data x (Hin x Hx)) as [G1 G2]. now apply Hs. }
    unfold call_for in Hfr. cbn [is_bounded frame_of] in Hfr. unfold frame_compress_bounded in Hfr.
    destruct (compress_bounded e p Polynomial d (f32_as_f64 (cli_error err))) as [bytes|] eqn:Eb; [|discriminate]. cbn [bind] in Hfr. apply ok_inj in Hfr. subst f.
    unfold frame_decompress in Ho. cbn [fr_compressor fr_samples fr_data] in Ho. rewrite Nat2Z.id in Ho.
    assert (IZR err <= 255)%R by (apply IZR_le; lia).
    destruct (polynomial_chunk e p d (f32_as_f64 (cli_error err)) bytes out (IZR err / 100 + / 1000000 - / 100000000)) as [G|(G1 & G2 & G3 & G4)]; auto; try lra.
    + apply Forall_forall. intros x Hx. apply (Hall x Hx).
    + apply Forall_forall. intros x Hx. apply (Hall x Hx).
    + right. split; [exact G1|]. split; [exact G2|]. split; [exact G3|]. lra.
  - exists b, outs, chunks, (clean_data data). split; [exact H1|]. split; [exact H2|]. split; [apply C11_cleaning_keeps_finite|]. split; [exact H3|].
    clear -H4. induction H4; constructor; auto.
Qed.
Print Assumptions C54_polynomial_error_end_to_end.

(** *** Fourier frames *)
(** The padded length is at most 6/5 of the length. *)
Lemma padded_ratio n m : 128 <= n -> least_smooth_above n m -> 5 * m <= 6 * n.
Proof.
  intros Hn (Hm & _ & Hleast).
  assert (J := Z.log2_spec n ltac:(lia)). assert (J7 : 7 <= Z.log2 n) by (change 7 with (Z.log2 128); apply Z.log2_le_mono; lia).
  set (k := Z.log2 n) in *. replace (Z.succ k) with (7 + (k - 6)) in J by lia. replace k with (6 + (k - 6)) in J at 1 by lia.
  rewrite !Z.pow_add_r in J by lia. change (2 ^ 6) with 64 in J. change (2 ^ 7) with 128 in J.
  assert (W : forall a b, 0 <= a -> 0 <= b -> n < 2 ^ a * 3 ^ b * 2 ^ (k - 6) -> m <= 2 ^ a * 3 ^ b * 2 ^ (k - 6)).
  { intros a b Ha Hb H. apply Hleast; [exact H|]. exists (a + (k - 6)), b. split; [lia|]. split; [lia|]. rewrite Z.pow_add_r by lia. ring. }
  assert (W1 := W 3 2 ltac:(lia) ltac:(lia)). assert (W2 := W 0 4 ltac:(lia) ltac:(lia)). assert (W3 := W 5 1 ltac:(lia) ltac:(lia)).
  assert (W4 := W 2 3 ltac:(lia) ltac:(lia)). assert (W5 := W 7 0 ltac:(lia) ltac:(lia)). clear W Hleast.
  change (2 ^ 3 * 3 ^ 2) with 72 in W1. change (2 ^ 0 * 3 ^ 4) with 81 in W2. change (2 ^ 5 * 3 ^ 1) with 96 in W3. change (2 ^ 2 * 3 ^ 3) with 108 in W4. change (2 ^ 7 * 3 ^ 0) with 128 in W5.
  set (w := 2 ^ (k - 6)) in *. lia.
Qed.

Lemma combine_app_eq {A B} (l1 : list A) : forall (m1 : list B) l2 m2, length l1 = length m1 -> combine (l1 ++ l2) (m1 ++ m2) = combine l1 m1 ++ combine l2 m2.
Proof. induction l1 as [|a l1 IH]; intros [|b m1] l2 m2 H; try discriminate; [reflexivity|]. cbn. f_equal. apply IH. now injection H. Qed.

Lemma sum_app l1 l2 : (fold_right Rplus 0 (l1 ++ l2) = fold_right Rplus 0 l1 + fold_right Rplus 0 l2)%R.
Proof. induction l1 as [|a l1 IH]; cbn [app fold_right]; [lra|rewrite IH; lra]. Qed.

Definition rel_sum (o g : list f64) : R := fold_right Rplus 0%R (map (fun '(o, g) => (Rabs (R64 g - R64 o) / Rabs (R64 o))%R) (combine o g)).
Lemma rel_sum_nonneg o g : Forall (fun x => R64 x <> 0%R) o -> (0 <= rel_sum o g)%R.
Proof.
  intros H. unfold rel_sum. revert g. induction H as [|x l Hx Hl IH]; intros [|y g]; cbn [combine map fold_right]; try lra.
  specialize (IH g). assert (0 <= Rabs (R64 y - R64 x) / Rabs (R64 x))%R; [|lra].
  apply Rmult_le_pos; [apply Rabs_pos|]. apply Rlt_le, Rinv_0_lt_compat, Rabs_pos_lt, Hx.
Qed.

Lemma mean_of_middle l1 l2 l3 m1 m2 m3 B : length l1 = length m1 -> length l2 = length m2 -> l2 <> [] -> (0 <= B)%R ->
  Forall (fun x => R64 x <> 0%R) (l1 ++ l2 ++ l3) ->
  (mean_relative_error (l1 ++ l2 ++ l3) (m1 ++ m2 ++ m3) <= B)%R ->
  5 * Z.of_nat (length (l1 ++ l2 ++ l3)) <= 6 * Z.of_nat (length l2) ->
  (mean_relative_error l2 m2 <= 6 / 5 * B)%R.
Proof.
  intros L1 L2 Hne HB Hnz H Hr. unfold mean_relative_error, mean_over in *. rewrite combine_app_eq in H by exact L1. rewrite combine_app_eq in H by exact L2.
  rewrite !map_app, !sum_app in H. fold (rel_sum l1 m1) (rel_sum l2 m2) (rel_sum l3 m3) in H. fold (rel_sum l2 m2).
  apply Forall_app in Hnz. destruct Hnz as [Z1 Hnz]. apply Forall_app in Hnz. destruct Hnz as [Z2 Z3].
  assert (S1 := rel_sum_nonneg _ m1 Z1). assert (S2 := rel_sum_nonneg _ m2 Z2). assert (S3 := rel_sum_nonneg _ m3 Z3).
  rewrite INR_IZR_INZ in *. set (N := Z.of_nat (length (l1 ++ l2 ++ l3))) in *.
  assert (P2 : (0 < IZR (Z.of_nat (length l2)))%R) by (apply IZR_lt; destruct l2; [congruence|cbn; lia]).
  assert (PN : (0 < IZR N)%R).
  { apply IZR_lt. unfold N. rewrite !app_length. destruct l2; [congruence|cbn; lia]. }
  apply IZR_le in Hr. rewrite !mult_IZR in Hr. set (n := IZR (Z.of_nat (length l2))) in *. set (NN := IZR N) in *.
  apply (Rmult_le_compat_r NN) in H; [|lra]. unfold Rdiv in H. rewrite Rmult_assoc, Rinv_l, Rmult_1_r in H by lra.
  apply Rmult_le_reg_r with n; [exact P2|]. unfold Rdiv. rewrite (Rmult_assoc _ (/ n)), Rinv_l, Rmult_1_r by lra.
  assert (B * NN <= B * (6 / 5 * n))%R by (apply Rmult_le_compat_l; lra). lra.
Qed.

Lemma round32_rel x : (bpow radix2 (-64) <= Rabs x)%R ->
  (Rabs (round radix2 (FLT_exp (-149) 24) ZnearestE x - x) <= / IZR (2 ^ 24) * Rabs x)%R.
Proof.
  intros H. eapply Rle_trans.
  - apply (Relative.relative_error_N_FLT radix2 (-149) 24 eq_refl (fun z => negb (Z.even z)) x). eapply Rle_trans; [apply bpow_le|exact H]. lia.
  - apply Rmult_le_compat_r; [apply Rabs_pos|]. change (/ 2)%R with (bpow radix2 (-1)). rewrite <- bpow_plus.
    change (/ IZR (2 ^ 24))%R with (bpow radix2 (-24)). apply bpow_le. lia.
Qed.

(** A chunk whose range collapses in single precision. *)
Lemma fft_collapsed e p data c st out : data <> [] -> Z.of_nat (length data) <= 131072 -> Forall supported data -> data_stats data = Ok st ->
  ff_max c = f64_as_f32 (st_max st) -> ff_min c = f64_as_f32 (st_min st) -> f32_eq (ff_max c) (ff_min c) = true -> ff_freqs c = [] ->
  decompress e p FFT (length data) (enc_fft c) = Ok out -> nearly_equal data out.
Proof.
  intros Hne Hl Hs Hst Hmx Hmn E Hq Ho.
  assert (Hfin := supported_forall_finite _ Hs).
  destruct (stats_facts data Hne Hfin) as (st' & Hst' & Fn & Fx & Hlm & [i Imn] & [j Imx]).
  rewrite Hst in Hst'. apply ok_inj in Hst'. subst st'.
  assert (Sx : supported (st_max st)) by (rewrite Forall_forall in Hs; apply Hs; eapply max_at_in; eauto).
  assert (Sn : supported (st_min st)) by (rewrite Forall_forall in Hs; apply Hs; eapply min_at_in; eauto).
  assert (BB : (bpow radix2 63 <= bpow radix2 127)%R) by (apply bpow_le; lia).
  destruct (f64_as_f32_fin (st_max st) Fx) as [G1 G2]; [apply supported_bnd in Sx; destruct Sx; lra|].
  destruct (f64_as_f32_fin (st_min st) Fn) as [G3 G4]; [apply supported_bnd in Sn; destruct Sn; lra|].
  assert (Hd : decode_unwrap dec_fft (enc_fft c) = Ok (no_error c)) by (apply decode_fft; rewrite Hq; split; [apply Forall_nil|cbn; lia]).
  cbn [decompress] in Ho. unfold fft_to_data in Ho. rewrite Hd in Ho. cbn [bind] in Ho. unfold fft_expand in Ho. cbn [no_error ff_max ff_min] in Ho. rewrite E in Ho.
  apply ok_inj in Ho. subst out. rewrite Hmx, Hmn in E. rewrite Hmx. apply f32_eq_R in E; auto. rewrite G2, G4 in E.
  destruct (f32_as_f64_R _ G1) as [K1 K2]. destruct Imn as (_ & Imn & _), Imx as (_ & Imx & _).
  assert (V : Forall (fun o => finite (f32_as_f64 (f64_as_f32 (st_max st))) /\ (Rabs (R64 (f32_as_f64 (f64_as_f32 (st_max st))) - R64 o) <= / IZR (2 ^ 24) * Rabs (R64 o))%R) data).
  { apply Forall_forall. intros o Hin. split; [exact K1|]. rewrite Forall_forall in Imn, Imx, Hs. specialize (Imn o Hin). specialize (Imx o Hin). destruct (Hs o Hin) as (_ & So & _).
    assert (EQ : R64 (f32_as_f64 (f64_as_f32 (st_max st))) = round radix2 (FLT_exp (-149) 24) ZnearestE (R64 o)).
    { rewrite K2, G2. apply Rle_antisym.
      - rewrite E. apply round_le; [apply FLT_exp_valid; reflexivity|apply valid_rnd_N|exact Imn].
      - apply round_le; [apply FLT_exp_valid; reflexivity|apply valid_rnd_N|exact Imx]. }
    rewrite EQ. destruct So as [So|So]; [|now apply round32_rel].
    rewrite So, round_0 by apply valid_rnd_N. rewrite Rminus_0_r, Rabs_R0. lra. }
  clear -V. unfold nearly_equal. induction V as [|o l [V1 V2] _ IH]; cbn [length repeat]; constructor; auto.
Qed.

(** The padded chunk is finite if the chunk is. *)
Lemma gibbs_forall (P : f64 -> Prop) data : data <> [] -> Z.of_nat (length data) <= 131072 -> Forall P data -> Forall P (gibbs_data data).
Proof.
  intros Hne Hl Hp. destruct (gibbs_padded data Hne ltac:(lia)) as [(x & y & Hx & Hy & Hg) _]. rewrite Hg. rewrite Forall_forall in Hp.
  apply Forall_app. split; [|apply Forall_app; split].
  + apply Forall_forall. intros z Hz. apply repeat_spec in Hz. subst z. apply Hp. eapply nth_error_In; exact Hx.
  + now apply Forall_forall.
  + apply Forall_forall. intros z Hz. apply repeat_spec in Hz. subst z. apply Hp. eapply nth_error_In; exact Hy.
Qed.

(** A chunk whose error, as measured on the padded chunk, is at most [B]. *)
Lemma fft_measured e p data c idata err out B : env_ok e -> data <> [] -> Z.of_nat (length data) <= 131072 -> Forall finite data ->
  f32_eq (ff_max c) (ff_min c) = false -> freqs_ok (ff_freqs c) -> positions_within (length (gibbs_data data)) (ff_freqs c) ->
  get_mirrored_freqs c (length (gibbs_data data)) = Ok idata ->
  calculate_error (gibbs_data data) (fft_scale c (length (gibbs_data data)) (fe_ifft (e_fft e) idata)) = Ok err ->
  finite err -> (R64 err <= B)%R -> (0 <= B <= 4)%R ->
  decompress e p FFT (length data) (enc_fft c) = Ok out ->
  relative_error_within (6 / 5 * (B + / 100000000)) data out.
Proof.
  intros He Hne Hl Hfin Hnc Hok Hw Hmir Hce Fe Hle HB Ho. assert (Hd := decode_fft c Hok).
  assert (Hn : (1 <= length data)%nat) by (destruct data; [congruence|cbn; lia]).
  assert (Hgl := gibbs_data_length data Hne).
  assert (Hpad := gibbs_padded data Hne ltac:(lia)).
  destruct He as [Hh Ht]. rewrite Hgl in Hw.
  destruct (fft_expand_spec (e_fft e) Ht (no_error c) (length data) Hnc Hn Hw) as (spec & Hsp & Hex & Hil).
  change (get_mirrored_freqs (no_error c)) with (get_mirrored_freqs c) in Hsp. rewrite <- Hgl in Hsp. rewrite Hmir in Hsp. apply ok_inj in Hsp. subst spec.
  rewrite <- Hgl in Hex, Hil. change (fft_scale (no_error c)) with (fft_scale c) in Hex.
  set (full := fft_scale c (length (gibbs_data data)) (fe_ifft (e_fft e) idata)) in *.
  cbn [decompress] in Ho. unfold fft_to_data in Ho. rewrite Hd in Ho. cbn [bind] in Ho. rewrite Hex in Ho. apply ok_inj in Ho.
  assert (Lf : length full = length (gibbs_data data)) by (unfold full, fft_scale; rewrite map_length; exact Hil).
  set (a := fst (trim_sizes (length data))) in *. set (b := snd (trim_sizes (length data))) in *.
  assert (Hr5 : 5 * Z.of_nat (length (gibbs_data data)) <= 6 * Z.of_nat (length data)).
  { destruct Hpad as [_ [(_ & -> & ->)|(H128 & _ & Hsm)]]; [rewrite Hgl; lia|]. now apply padded_ratio. }
  destruct Hpad as [(x & y & Hx & Hy & Hg) _].
  assert (Fg := gibbs_forall finite data Hne Hl Hfin).
  assert (Ne : gibbs_data data <> []) by (intros E; rewrite E in Hgl; cbn in Hgl; lia).
  destruct (mape_accuracy (gibbs_data data) full err Ne ltac:(lia) Fg Hce Fe) as (Nz & Ff & _ & A).
  rewrite Hg in Nz.
  assert (Lo : length out = length data) by (rewrite <- Ho, firstn_length, skipn_length, Lf, Hgl; lia).
  assert (Split : full = firstn a full ++ out ++ skipn (length data) (skipn a full)) by (rewrite <- Ho, !firstn_skipn; reflexivity).
  split; [exact Lo|]. split; [apply Forall_app in Nz; destruct Nz as [_ Nz]; apply Forall_app in Nz; apply Nz|].
  split; [rewrite Split in Ff; apply Forall_app in Ff; destruct Ff as [_ Ff]; apply Forall_app in Ff; apply Ff|].
  apply (mean_of_middle (repeat x a) data (repeat y b) (firstn a full) out (skipn (length data) (skipn a full))); auto.
  + rewrite repeat_length, firstn_length, Lf, Hgl. lia.
  + lra.
  + rewrite <- Hg, <- Split. apply (exact_from_computed (Z.of_nat (length (gibbs_data data))) (R64 err)); try lia; try lra.
    * apply mean_rel_nonneg. now rewrite Hg.
    * rewrite INR_IZR_INZ, Nat2Z.inj_add in A. exact A.
  + rewrite <- Hg. exact Hr5.
Qed.

(** A chunk for which the Fourier compressor reports an error of at most [B]. *)
Lemma fft_chunk e p data bound r out B : env_ok e -> data <> [] -> Z.of_nat (length data) <= 131072 -> Forall supported data ->
  compress_results e p FFT data bound = Ok r -> finite bound -> (0 <= R64 bound <= 3)%R ->
  fle (cr_error r) bound = true -> (R64 bound <= B)%R -> (B <= 3)%R ->
  decompress e p FFT (length data) (cr_data r) = Ok out ->
  nearly_equal data out \/ relative_error_within (6 / 5 * (B + / 100000000)) data out.
Proof.
  intros He Hne Hl Hs Hr Fb Rb Hle HB B3 Ho. assert (Hm : in_memory data) by (unfold in_memory; lia).
  assert (Hfin := supported_forall_finite _ Hs).
  destruct (bounded_shape e p data bound He Hne Hm) as (st & c & Hst & Hr' & Hc & Hmx & Hmn & Hcase).
  rewrite Hr in Hr'. apply ok_inj in Hr'. subst r. cbn [cr_data cr_error] in *.
  destruct Hcase as [(E & Hq & He0)|(Hnc & Hp)]; [left; now apply (fft_collapsed e p data c st)|].
  destruct (bounded_stored e data bound st c He Hne Hm Hp) as (_ & _ & Hok & Hw).
  destruct Hp as (err & Her & Hp). rewrite Her in Hle.
  assert (F1 : finite f1 /\ R64 f1 = 1%R) by (destruct (int_as_f64_exact 1 ltac:(lia)); split; assumption).
  destruct F1 as [F1 R1].
  destruct Hp as [(_ & -> & _)|(budget & idata & _ & _ & Hmir & Hce & _)].
  { exfalso. destruct (fadd_class bound f1 Fb F1 ltac:(lra) ltac:(lra)) as [X|[Fa X]].
    - rewrite X in Hle. clear -Hle Fb. destruct bound; discriminate.
    - apply fle_R in Hle; auto. rewrite X in Hle. destruct (rnd_plus (R64 bound) (R64 f1) (fmt bound) (fmt f1)) as (d & Hdd & Ed). rewrite Ed, R1 in Hle.
      apply Rabs_le_inv in Hdd. assert (Q := u_small). assert ((R64 bound + 1) * (1 - / 1024) <= (R64 bound + 1) * (1 + d))%R by (apply Rmult_le_compat_l; lra). lra. }
  right.
  assert (Hgl := gibbs_data_length data Hne).
  assert (Fe : finite err).
  { destruct (nneg_class err) as [[X|X]|X]; [|exfalso|exfalso|exact X].
    - apply (method_error_nneg Mape (gibbs_data data) (fft_scale c (length (gibbs_data data)) (fe_ifft (e_fft e) idata))); [|exact Hce].
      assert (P := gibbs_padded data Hne ltac:(lia)). destruct P as [_ [(_ & E1 & E2)|(H128 & _ & Hsm)]]; [lia|]. apply padded_ratio in Hsm; lia.
    - destruct (fle_nan _ _ Hle). congruence.
    - rewrite X in Hle. clear -Hle Fb. destruct bound; discriminate. }
  apply fle_R in Hle; auto.
  apply (fft_measured e p data c idata err out B); auto; lra.
Qed.

(** *** C55 *)
(** A chunk compressed automatically without sampling. *)
Lemma auto_chunk e p data bound level f out B :
  env_ok e -> data <> [] -> Z.of_nat (length data) <= 131072 -> Forall supported data -> Forall no_negative_zero data ->
  0 <= level <= 6 -> Z.of_nat (length data) < level_sample level ->
  finite (f32_as_f64 bound) -> (0 <= R64 (f32_as_f64 bound) <= B)%R -> (B <= 3)%R ->
  compress_best e p data bound level = Ok f -> frame_decompress e p f = Ok out ->
  nearly_equal data out \/ relative_error_within (6 / 5 * (B + / 100000000)) data out.
Proof.
  intros He Hne Hl Hs Hz Hlv Hlt Fb Rb B3 Hf Ho.
  assert (Hfin := supported_forall_finite _ Hs).
  destruct (stats_facts data Hne Hfin) as (st & Hst & Fn & Fx & Hle & [i Hmn] & [j Hmx]).
  assert (Hb0 : fle f0 (f32_as_f64 bound) = true) by (apply fle_R; [exact f0_finite|exact Fb|rewrite f0_R; lra]).
  destruct (compress_best_cases e p data bound level st He Hne ltac:(lia) Hlv Hst Hb0) as (c & r & H1 & H2 & Hc).
  rewrite Hf in H1. apply ok_inj in H1. subst f. unfold frame_decompress in Ho. cbn [fr_compressor fr_samples fr_data] in Ho. rewrite Nat2Z.id in Ho.
  assert (Hm : in_memory data) by (unfold in_memory; lia).
  destruct Hc as [(Eq & ->)|[(Eq & _ & W1 & _ & W3 & _)|(_ & H & _)]]; [| |lia].
  - left. apply same_nearly. assert (Ha := proj1 (all_equal_iff data st Hne Hfin Hst) Eq).
    destruct data as [|x l] eqn:Ed; [congruence|]. rewrite <- Ed in *. assert (Hx : In x data) by (rewrite Ed; now left).
    assert (Sx : supported x) by (rewrite Forall_forall in Hs; now apply Hs).
    destruct (C06_constant_lossless e p data x Hne Sx) as (b & o & C1 & C2 & C3).
    { apply Forall_forall. intros y Hy. rewrite Forall_forall in Hs. split; [apply Hs; exact Hy|]. split; [apply Sx|]. now apply Ha. }
    unfold compress_results in H2. unfold compress in C1. rewrite Hst in H2, C1. cbn [bind] in *.
    apply ok_inj in H2. apply ok_inj in C1. subst r b. rewrite C2 in Ho. apply ok_inj in Ho. now subst o.
  - cbn [In] in W1. destruct W1 as [<-|[<-|[<-|[]]]].
    + apply (fft_chunk e p data (f32_as_f64 bound) r out B); auto; lra.
    + assert (Rb' : (0 <= R64 (f32_as_f64 bound) <= bpow radix2 29)%R) by (change (bpow radix2 29) with 536870912%R; lra).
      destruct (C18_error_control e p Polynomial data (f32_as_f64 bound) (or_introl eq_refl) Hne ltac:(lia) Hs Hz Fb Rb') as (r' & o & R1 & R2 & R3 & R4 & Hcase).
      rewrite H2 in R1. apply ok_inj in R1. subst r'. rewrite R3 in Ho. apply ok_inj in Ho. subst o.
      assert (Pu : produced_usable e p Polynomial data (cr_data r)) by (right; exists (f32_as_f64 bound); auto).
      destruct Hcase as [(_ & Hcase)|[(_ & g & K1 & K2)|(K1 & K2)]]; [left; now apply same_nearly| |].
      * left. destruct (stored_nearly e p data (cr_data r) g Hne ltac:(lia) Hs Pu K1) as (o & O1 & O2); [now rewrite K2|].
        rewrite R3 in O1. apply ok_inj in O1. now subst o.
      * right. destruct K2 as [K2|(K2 & _)]; [destruct (fle_nan _ _ W3); congruence|].
        apply fle_R in W3; auto.
        destruct (mape_accuracy data out (cr_error r) Hne ltac:(lia) Hfin K1 K2) as (Nz & Fo & _ & A).
        split; [exact R4|]. split; [exact Nz|]. split; [exact Fo|].
        rewrite INR_IZR_INZ, Nat2Z.inj_add in A.
        assert (M := exact_from_computed (Z.of_nat (length data)) (R64 (cr_error r)) _ B ltac:(lia) ltac:(lia) (mean_rel_nonneg _ out Nz) ltac:(lra) ltac:(lra) A). lra.
    + left. apply same_nearly. destruct (C07_rle_lossless e p data Hne Hm Hs) as (b & o & C1 & C2 & C3).
      unfold compress_results in H2. unfold compress in C1. rewrite Hst in H2, C1. cbn [bind] in *.
      apply ok_inj in H2. apply ok_inj in C1. subst r b. rewrite C2 in Ho. apply ok_inj in Ho. now subst o.
Qed.

(** The default of the command line (automatic selection, no sampling), for every transform, every bound and every
    supported series, zeros included: every chunk either comes back sample by sample (up to 0.000006 or single precision),
    or has no zero sample and an exact mean relative error of at most 6/5 of the requested percentage. (The factor is the
    Fourier compressor's, which measures the error on the padded chunk.) *)
Theorem C55_auto_error_end_to_end : forall e p data err,
  env_ok e -> 0 <= err < 256 -> fits_counter p data ->
  Forall (fun x => finite x -> supported x /\ no_negative_zero x) data ->
  exists bytes outs chunks cleaned,
    compress_data e p data Auto err 0 = Ok bytes /\ decompress_data e p bytes = Ok (concat outs) /\
    subsequence_of finite data cleaned /\ concat chunks = cleaned /\
    Forall2 (fun chunk out => nearly_equal chunk out \/ relative_error_within (6 / 5 * (IZR err / 100 + / 1000000)) chunk out) chunks outs.
Proof.
  intros e p data err He Hr Hf Hs.
  destruct (cli_error_value err Hr) as [Fb Rb].
  destruct (pipeline_with e p data Auto err 0
    (fun out chunk => nearly_equal chunk out \/ relative_error_within (6 / 5 * (IZR err / 100 + / 1000000)) chunk out) He Hr ltac:(lia) Hf) as (b & outs & chunks & H1 & H2 & H3 & _ & H4).
  - intros d f out Hne Hdl Hin Hfr Ho _. rewrite Forall_forall in Hs.
    assert (Hall : forall x, In x d -> supported x /\ no_negative_zero x).
    { intros x Hx. destruct (clean_data_in data x (Hin x Hx)) as [G1 G2]. now apply Hs. }
    unfold call_for in Hfr. cbn [is_bounded frame_of] in Hfr.
    assert (IZR err <= 255)%R by (apply IZR_le; lia).
    replace (6 / 5 * (IZR err / 100 + / 1000000))%R with (6 / 5 * (IZR err / 100 + / 1000000 - / 100000000 + / 100000000))%R by field.
    apply (auto_chunk e p d (cli_error err) 0 f out); auto; try lra; try lia; try (apply Forall_forall; intros x Hx; apply (Hall x Hx)).
    cbn [level_sample]. lia.
  - exists b, outs, chunks, (clean_data data). split; [exact H1|]. split; [exact H2|]. split; [apply C11_cleaning_keeps_finite|]. split; [exact H3|].
    clear -H4. induction H4; constructor; auto.
Qed.
Print Assumptions C55_auto_error_end_to_end.

(** Instances: the hypotheses are met by concrete series. *)
Example C53_example : exists err, calculate_error (ints [1; 2; 4]) (ints [1; 2; 5]) = Ok err /\ finite err /\
  mean_relative_error (ints [1; 2; 4]) (ints [1; 2; 5]) = (/ 12)%R.
Proof.
  eexists. split; [reflexivity|]. split; [vm_compute; reflexivity|].
  unfold mean_relative_error, mean_over, ints. cbn [map combine fold_right length].
  destruct (int_as_f64_exact 1 ltac:(lia)) as [-> _]. destruct (int_as_f64_exact 2 ltac:(lia)) as [-> _].
  destruct (int_as_f64_exact 4 ltac:(lia)) as [-> _]. destruct (int_as_f64_exact 5 ltac:(lia)) as [-> _].
  replace (1 - 1)%R with 0%R by ring. replace (2 - 2)%R with 0%R by ring. replace (5 - 4)%R with 1%R by ring.
  rewrite Rabs_R0, !Rabs_right by lra. cbn [INR]. lra.
Qed.
Definition sample_series : list f64 := ints [3; 1; 4; 1; 5; 9; 2; 6; 5; 3; 5; 8; 120; 1000; -7].
Lemma sample_series_ok : Forall (fun x => supported x /\ R64 x <> 0%R) sample_series.
Proof.
  unfold sample_series, ints. apply Forall_map.
  assert (H : Forall (fun z => z <> 0 /\ Z.abs z <= 2 ^ 53) [3; 1; 4; 1; 5; 9; 2; 6; 5; 3; 5; 8; 120; 1000; -7]) by (repeat (apply Forall_cons; [lia|]); apply Forall_nil).
  eapply Forall_impl; [|exact H]. intros z [Hz1 Hz2]. split; [now apply supported_int|].
  destruct (int_as_f64_exact z Hz2) as [-> _]. intros H0. apply (eq_IZR z 0) in H0. auto.
Qed.
Example C54_example : env_ok id_env /\ fits_counter Dev sample_series /\ Forall (fun x => finite x -> supported x /\ R64 x <> 0%R) sample_series /\
  Forall (fun x => finite x -> supported x /\ no_negative_zero x) sample_series /\
  (do b <- compress_data id_env Dev sample_series Polynomial 30 0; do o <- decompress_data id_env Dev b; Ok (length o)) = Ok 15%nat.
Proof.
  split; [exact id_env_ok|]. split; [left; vm_compute; reflexivity|].
  split; [eapply Forall_impl; [|exact sample_series_ok]; auto|]. split; [|vm_compute; reflexivity].
  eapply Forall_impl; [|exact sample_series_ok]. intros x [Hx Hz] _. split; [exact Hx|]. intros ->. apply Hz. reflexivity.
Qed.
(** The same series through the default command line, with bound 30%. *)
Example C55_example : exists bytes outs chunks cleaned,
  compress_data id_env Dev sample_series Auto 30 0 = Ok bytes /\ decompress_data id_env Dev bytes = Ok (concat outs) /\
  subsequence_of finite sample_series cleaned /\ concat chunks = cleaned /\
  Forall2 (fun chunk out => nearly_equal chunk out \/ relative_error_within (6 / 5 * (30 / 100 + / 1000000)) chunk out) chunks outs.
Proof.
  destruct C54_example as (H1 & H2 & _ & H3 & _). exact (C55_auto_error_end_to_end id_env Dev sample_series 30 H1 ltac:(lia) H2 H3).
Qed.
