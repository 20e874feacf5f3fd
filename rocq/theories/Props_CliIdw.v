(** C60: inverse-distance frames, given what the interpolation crate documents. *)
From Coq Require Import List ZArith Bool Lia ZifyBool Reals Lra Sorted.
From Flocq Require Import Core IEEE754.BinarySingleNaN IEEE754.Binary IEEE754.Bits.
From Verif Require Import Base Model_Float Model_Bincode BincodeFacts Spec Spec_Metric FloatFacts Float32Facts ArithFacts RoundFacts Model_Utils UtilsFacts Model_Stats
  Model_Compressors Model_Polynomial Model_Fft Model_Stream StatsFacts CompressorFacts StreamFacts PlanFacts PolyFacts PolyLoopFacts PolyApiFacts SplineFacts FftFacts
  MetricFacts ExactFacts PipelineFacts AccuracyFacts Props_Stream Props_Lossless Props_Plan Props_Metric Props_Poly Props_Fft Props_Pipeline Props_Auto Props_ErrorZero
  Props_Accuracy.
Import ListNotations.
Open Scope Z_scope.

(** What is assumed of the inverse-distance-weight crate: for at least one point at increasing integer positions, with
    values up to 2^63, the interpolation at an integer is finite and at most 2^64, and at a point it is the point's value. *)
Definition idw_interpolates (e : env) : Prop :=
  forall (positions : list Z) (values : list f64) (z : Z),
    positions <> [] -> length values = length positions -> StronglySorted Z.lt positions ->
    Forall (fun q => 0 <= q < 2 ^ 53) positions -> Forall (bnd 63) values -> 0 <= z < 2 ^ 53 ->
    let r := e_idw e (map int_as_f64 positions) values (int_as_f64 z) in
    bnd 64 r /\ forall k v, nth_error positions k = Some z -> nth_error values k = Some v -> same_value r v.

(** Decompressing an inverse-distance frame on supported data. *)
Lemma idw_frame e p data st f s : idw_interpolates e -> Forall supported data -> data_stats data = Ok st -> 1 <= len data <= 2 ^ 53 ->
  feq (st_max st) (st_min st) = false -> holds data (frame0 st PIdw) f s ->
  exists out, decompress e p Idw (length data) (enc_poly f) = Ok out /\ length out = length data /\ Forall finite out /\
    forall z x, In z (grid (len data) s) -> sample_at data z x ->
      exists y, sample_at out z y /\ finite y /\ R64 y = clamp (R64 (st_min st)) (R64 (st_max st)) (rd 5 (R64 x)).
Proof.
  intros Hi Hs Hst Hn Hne Hh. cbn [decompress]. unfold polynomial_decompress. rewrite (decode_holds _ _ _ _ Hn Hh). cbn [bind].
  assert (Hd : data <> []) by (intros ->; cbn in Hn; lia).
  destruct (stats_facts data Hd (supported_forall_finite _ Hs)) as (st' & Hst' & Fn & Fx & Hle & [i Hmn] & [j Hmx]).
  rewrite Hst in Hst'. apply ok_inj in Hst'. subst st'.
  destruct Hh as [Hsr ->]. unfold poly_to_data, method_to_data. cbn [conv_poly with_points frame0 poly_new pl_step pl_id pl_max pl_min pl_points pl_bitdepth].
  rewrite Hne. unfold idw_to_data.
  rewrite get_positions_grid by (cbn [conv_poly with_points frame0 poly_new pl_step pl_id pl_max pl_min pl_points pl_bitdepth]; unfold len in Hn; lia).
  cbn [bind conv_poly with_points frame0 poly_new pl_step pl_id pl_max pl_min pl_points pl_bitdepth]. fold (len data).
  set (ps := grid (len data) s). set (vs := map (conv (st_bitdepth st)) (pick data ps)).
  destruct (grid_spec (len data) s ltac:(lia) ltac:(lia)) as [Gs Gi]. fold ps in Gs, Gi.
  assert (G0 : ps <> []) by (intros E; specialize (Gi 0); rewrite E in Gi; apply Gi; split; [lia|left; apply Z.divide_0_r]).
  assert (Gr : Forall (fun q => 0 <= q < 2 ^ 53) ps) by (apply Forall_forall; intros q Hq; apply Gi in Hq; lia).
  assert (Gv : Forall (bnd 63) vs) by (apply pick_conv_bnd; auto; lia).
  assert (Gl : length vs = length ps) by (unfold vs, pick; now rewrite !map_length).
  assert (Hall : forall z, 0 <= z < 2 ^ 53 -> let r := e_idw e (map int_as_f64 ps) vs (int_as_f64 z) in
    bnd 64 r /\ forall k v, nth_error ps k = Some z -> nth_error vs k = Some v -> same_value r v) by (intros z Hz; now apply Hi).
  set (g := fun z => round_and_limit_f64 (e_idw e (map int_as_f64 ps) vs (int_as_f64 z)) (st_min st) (st_max st) DECIMAL_PRECISION).
  assert (Hg : forall z, 0 <= z < 2 ^ 53 -> finite (g z) /\ R64 (g z) = clamp (R64 (st_min st)) (R64 (st_max st)) (rd 5 (R64 (e_idw e (map int_as_f64 ps) vs (int_as_f64 z))))).
  { intros z Hz. destruct (Hall z Hz) as [B _]. exact (round_and_limit_R 64 _ _ _ ltac:(lia) B Fn Fx Hle). }
  exists (map g (range (length data))). split; [reflexivity|]. split; [now rewrite map_length, range_length|]. split.
  { apply Forall_map, Forall_forall. intros z Hz. apply range_in in Hz. apply Hg. unfold len in Hn. lia. }
  intros z x Hz [Hz0 Hx]. assert (Hzn := proj1 (proj1 (Gi z) Hz)). apply In_nth_error in Hz. destruct Hz as [k Hk].
  destruct (Hg z ltac:(lia)) as [F1 R1]. exists (g z). split; [|split; [exact F1|]].
  - split; [exact Hz0|]. rewrite nth_error_map, range_nth by (unfold len in Hzn; lia). cbn [option_map]. now rewrite Z2Nat.id by lia.
  - rewrite R1. f_equal. f_equal. destruct (Hall z ltac:(lia)) as [_ H].
    destruct (H k (conv (st_bitdepth st) x) Hk) as (_ & _ & ->).
    { unfold vs. rewrite nth_error_map. unfold pick. rewrite nth_error_map, Hk. cbn [option_map]. do 2 f_equal. now apply nth_error_nth. }
    assert (Hc := stats_conv data st Hs Hst). rewrite Forall_forall in Hc. apply (Hc x). eapply nth_error_In; eauto.
Qed.

(** *** C60 *)
(** Inverse-distance frames: the stored samples come back at their places. *)
Theorem C60_idw_samples_returned : forall e p data bytes,
  idw_interpolates e -> data <> [] -> Z.of_nat (length data) <= 2 ^ 53 -> Forall supported data ->
  Forall (fun x => (Rabs (R64 x) <= bpow radix2 30)%R) data ->
  produced_usable e p Idw data bytes ->
  exists step out,
    1 <= step <= 133 /\ decompress e p Idw (length data) bytes = Ok out /\ length out = length data /\ Forall finite out /\
    forall pos x, (step | pos) \/ pos = Z.of_nat (length data) - 1 -> sample_at data pos x ->
      exists y, sample_at out pos y /\ finite y /\ (Rabs (R64 y - R64 x) <= 6 / 1000000)%R /\
        (five_decimals x -> same_value y x).
Proof.
  intros e p data bytes Hi Hne Hn Hs Hb Hp. assert (Hlen := nonempty_len data Hne).
  destruct (stats_facts data Hne (supported_forall_finite _ Hs)) as (st & Hst & Fn & Fx & Hle & [i Hmn] & [j Hmx]).
  destruct (feq (st_max st) (st_min st)) eqn:E.
  - destruct (produced_shape e p Idw data bytes st (or_intror eq_refl) Hst (conj Hlen Hn)) as (f & -> & Hsh).
    { destruct Hp as [Hp|(b & _ & _ & Hp)]; [now left|right; eauto]. }
    cbn [decompress]. unfold polynomial_decompress.
    assert (Hd : exists g, decode_unwrap dec_poly (enc_poly f) = Ok g /\ pl_min g = st_min st /\ pl_max g = st_max st).
    { destruct Hsh as [->|[s Hh]].
      - rewrite decode_frame0. eexists. split; [reflexivity|]. split; reflexivity.
      - rewrite (decode_holds _ _ _ _ (conj Hlen Hn) Hh). eexists. split; [reflexivity|]. destruct Hh as [_ ->]. split; reflexivity. }
    destruct Hd as (g & Hg & Gn & Gx). rewrite Hg. cbn [bind]. unfold poly_to_data. rewrite Gn, Gx, E. exists 1. eexists. split; [lia|]. split; [reflexivity|].
    rewrite repeat_length. split; [reflexivity|]. split; [apply Forall_forall; intros y Hy; apply repeat_spec in Hy; now subst y|]. intros pos x _ [H0 Hx].
    assert (Hc := constant_series data st (supported_forall_finite _ Hs) Hst E).
    assert (G : exists y, nth_error (repeat (st_max st) (length data)) (Z.to_nat pos) = Some y /\ same_value y x).
    { clear -Hc Hx. unfold same_series in Hc. revert Hx. generalize (Z.to_nat pos) as k. induction Hc as [|a b l l' Hab _ IH]; intros [|k] Hk; try discriminate; cbn in *.
      - injection Hk as <-. eauto.
      - apply IH. exact Hk. }
    destruct G as (y & Gy & (F1 & F2 & GR)). exists y. split; [now split|]. split; [exact F1|]. split; [|intros _; repeat split; assumption].
    rewrite GR, Rminus_diag_eq by reflexivity. rewrite Rabs_R0. lra.
  - destruct (produced_usable_shape e p Idw data bytes st (or_intror eq_refl) Hst (conj Hlen Hn) Hp E) as (f & s & -> & Hh).
    destruct (idw_frame e p data st f s Hi Hs Hst (conj Hlen Hn) E Hh) as (out & H1 & H2 & H3 & H4).
    destruct Hh as [Hsr _]. exists s, out. split; [exact Hsr|]. split; [exact H1|]. split; [exact H2|]. split; [exact H3|].
    intros pos x Hpos Hx. destruct (H4 pos x) as (y & Hy & Fy & Ry); [|exact Hx|].
    { apply grid_spec; try lia. destruct Hx as [H0 Hx]. assert (Hl : (Z.to_nat pos < length data)%nat) by (apply nth_error_Some; congruence). unfold len. split; [lia|exact Hpos]. }
    exists y. split; [exact Hy|]. split; [exact Fy|].
    assert (Hxin : In x data) by (destruct Hx as [_ Hx]; eapply nth_error_In; eauto).
    assert (Hcl : (R64 (st_min st) <= R64 x <= R64 (st_max st))%R).
    { destruct Hmn as (_ & Hmn & _), Hmx as (_ & Hmx & _). rewrite Forall_forall in Hmn, Hmx. split; auto. }
    rewrite Forall_forall in Hb. split.
    + rewrite Ry. eapply Rle_trans; [apply clamp_near; exact Hcl|]. eapply Rle_trans; [apply rd_near; [lia|auto]|].
      change (IZR (10 ^ 5)) with 100000%R. change (bpow radix2 (-23)) with (/ 8388608)%R. lra.
    + intros (Fxx & k & Hk & Hkx). split; [exact Fy|]. split; [exact Fxx|]. rewrite Ry.
      rewrite (rd_five_decimals _ k Hk Hkx). unfold clamp. rewrite Rmax_left, Rmin_left; lra.
Qed.
Print Assumptions C60_idw_samples_returned.

(** An inverse-distance frame is decompressed to finite samples. *)
Lemma idw_output_finite e p data bytes :
  idw_interpolates e -> data <> [] -> Z.of_nat (length data) <= 2 ^ 53 -> Forall supported data ->
  produced_usable e p Idw data bytes ->
  exists out, decompress e p Idw (length data) bytes = Ok out /\ length out = length data /\ Forall finite out.
Proof.
  intros Hi Hne Hn Hs Hp. assert (Hlen := nonempty_len data Hne).
  destruct (stats_facts data Hne (supported_forall_finite _ Hs)) as (st & Hst & Fn & Fx & Hle & _).
  destruct (feq (st_max st) (st_min st)) eqn:E.
  - destruct (produced_shape e p Idw data bytes st (or_intror eq_refl) Hst (conj Hlen Hn)) as (f & -> & Hsh).
    { destruct Hp as [Hp|(b & _ & _ & Hp)]; [now left|right; eauto]. }
    cbn [decompress]. unfold polynomial_decompress.
    assert (Hd : exists g, decode_unwrap dec_poly (enc_poly f) = Ok g /\ pl_min g = st_min st /\ pl_max g = st_max st).
    { destruct Hsh as [->|[s Hh]].
      - rewrite decode_frame0. eexists. split; [reflexivity|]. split; reflexivity.
      - rewrite (decode_holds _ _ _ _ (conj Hlen Hn) Hh). eexists. split; [reflexivity|]. destruct Hh as [_ ->]. split; reflexivity. }
    destruct Hd as (g & Hg & Gn & Gx). rewrite Hg. cbn [bind]. unfold poly_to_data. rewrite Gn, Gx, E. eexists. split; [reflexivity|].
    rewrite repeat_length. split; [reflexivity|]. apply Forall_forall; intros y Hy; apply repeat_spec in Hy; now subst y.
  - destruct (produced_usable_shape e p Idw data bytes st (or_intror eq_refl) Hst (conj Hlen Hn) Hp E) as (f & s & -> & Hh).
    destruct (idw_frame e p data st f s Hi Hs Hst (conj Hlen Hn) E Hh) as (out & H1 & H2 & H3 & _). eauto.
Qed.

(** An inverse-distance frame that stores every sample returns every sample, up to the rounding to five decimals. *)
Lemma idw_stored_nearly e p data bytes f :
  idw_interpolates e -> data <> [] -> Z.of_nat (length data) <= 2 ^ 53 -> Forall supported data ->
  produced_usable e p Idw data bytes ->
  decode_unwrap dec_poly bytes = Ok f -> length (pl_points f) = length data ->
  exists out, decompress e p Idw (length data) bytes = Ok out /\ nearly_equal data out.
Proof.
  intros Hi Hne Hn Hs Hp Hd Hl. assert (Hlen := nonempty_len data Hne).
  destruct (stats_facts data Hne (supported_forall_finite _ Hs)) as (st & Hst & Fn & Fx & Hle & [i Hmn] & [j Hmx]).
  destruct (feq (st_max st) (st_min st)) eqn:E.
  { destruct (idw_output_finite e p data bytes Hi Hne Hn Hs Hp) as (out & Ho & _). exists out. split; [exact Ho|].
    destruct (produced_shape e p Idw data bytes st (or_intror eq_refl) Hst (conj Hlen Hn)) as (g & -> & Hsh).
    { destruct Hp as [Hp|(b & _ & _ & Hp)]; [now left|right; eauto]. }
    cbn [decompress] in Ho. unfold polynomial_decompress in Ho. rewrite Hd in Ho. cbn [bind] in Ho.
    assert (G : pl_min f = st_min st /\ pl_max f = st_max st).
    { destruct Hsh as [->|[s Hh]].
      - rewrite decode_frame0 in Hd. apply ok_inj in Hd. subst f. split; reflexivity.
      - rewrite (decode_holds _ _ _ _ (conj Hlen Hn) Hh) in Hd. apply ok_inj in Hd. subst f. destruct Hh as [_ ->]. split; reflexivity. }
    destruct G as [G1 G2]. unfold poly_to_data in Ho. rewrite G1, G2, E in Ho. apply ok_inj in Ho. subst out.
    apply same_nearly, constant_series; auto. now apply supported_forall_finite. }
  destruct (produced_usable_shape e p Idw data bytes st (or_intror eq_refl) Hst (conj Hlen Hn) Hp E) as (g & s & -> & Hh).
  destruct (idw_frame e p data st g s Hi Hs Hst (conj Hlen Hn) E Hh) as (out & H1 & H2 & _ & H4).
  exists out. split; [exact H1|].
  rewrite (decode_holds _ _ _ _ (conj Hlen Hn) Hh) in Hd. apply ok_inj in Hd. subst f.
  assert (Hgl : length (grid (len data) s) = length data).
  { destruct Hh as [_ ->]. cbn [conv_poly with_points pl_points] in Hl. unfold pick in Hl. now rewrite !map_length in Hl. }
  assert (Hsr : 1 <= s) by (destruct Hh; lia).
  assert (Hall : forall k, (k < length data)%nat -> In (Z.of_nat k) (grid (len data) s)).
  { intros k Hk.
    assert (Hincl : incl (grid (len data) s) (map Z.of_nat (seq 0 (length data)))).
    { intros z Hz. apply grid_bounds in Hz; [|lia|lia]. apply in_map_iff. exists (Z.to_nat z). unfold len in Hz. split; [lia|]. apply in_seq. lia. }
    assert (Hnd : NoDup (grid (len data) s)).
    { destruct (grid_spec (len data) s) as [Hsort _]; [lia|lia|]. clear -Hsort. induction Hsort as [|a l Hl IH Ha]; constructor; auto.
      intros Hin. rewrite Forall_forall in Ha. specialize (Ha a Hin). lia. }
    apply (NoDup_length_incl (l' := map Z.of_nat (seq 0 (length data))) Hnd); [rewrite map_length, seq_length; lia|exact Hincl|].
    apply in_map_iff. exists k. split; [reflexivity|]. apply in_seq. lia. }
  apply nth_forall2; [exact H2|]. intros k x Hx. assert (Hk : (k < length data)%nat) by (apply nth_error_Some; congruence).
  destruct (H4 (Z.of_nat k) x (Hall k Hk)) as (y & [_ Hy] & Fy & Ry); [split; [lia|now rewrite Nat2Z.id]|].
  rewrite Nat2Z.id in Hy. exists y. split; [exact Hy|]. split; [exact Fy|].
  assert (Hin : In x data) by (eapply nth_error_In; eauto).
  assert (Hcl : (R64 (st_min st) <= R64 x <= R64 (st_max st))%R).
  { destruct Hmn as (_ & Hmn & _), Hmx as (_ & Hmx & _). rewrite Forall_forall in Hmn, Hmx. split; auto. }
  rewrite Ry. assert (C := clamp_near _ _ (rd 5 (R64 x)) _ Hcl). destruct (rd_near_any (R64 x)); [left|right]; lra.
Qed.

(** A chunk compressed with the inverse-distance compressor and an error bound. *)
Lemma idw_chunk e p data bound bytes out B :
  idw_interpolates e -> data <> [] -> Z.of_nat (length data) <= 131072 -> Forall supported data -> Forall (fun x => R64 x <> 0%R) data ->
  finite bound -> (0 <= R64 bound <= B)%R -> (B <= 3)%R ->
  compress_bounded e p Idw data bound = Ok bytes -> decompress e p Idw (length data) bytes = Ok out ->
  nearly_equal data out \/ relative_error_within (B + 6 / 10000 + / 100000000) data out.
Proof.
  intros Hi Hne Hl Hs Hnz Fb Rb B3 Hb Ho. assert (Hl' : Z.of_nat (length data) <= 2 ^ 53) by lia.
  assert (Rb' : (0 <= R64 bound <= bpow radix2 29)%R) by (change (bpow radix2 29) with 536870912%R; lra).
  assert (Hz : Forall no_negative_zero data).
  { eapply Forall_impl; [|exact Hnz]. intros x Hx ->. apply Hx. reflexivity. }
  destruct (C18_error_control e p Idw data bound (or_intror eq_refl) Hne Hl' Hs Hz Fb Rb') as (r & out' & R1 & R2 & R3 & R4 & Hc).
  rewrite Hb in R2. apply ok_inj in R2. subst bytes. rewrite Ho in R3. apply ok_inj in R3. subst out'.
  destruct Hc as [(_ & Hc)|[(_ & f & F1 & F2)|(F1 & F2)]].
  - left. now apply same_nearly.
  - left. destruct (idw_stored_nearly e p data (cr_data r) f Hi Hne Hl' Hs) as (o & O1 & O2); auto; [|now rewrite F2|].
    + right. exists bound. auto.
    + rewrite Ho in O1. apply ok_inj in O1. now subst o.
  - right.
    destruct (idw_output_finite e p data (cr_data r) Hi Hne Hl' Hs) as (o & O1 & _ & O2); [right; exists bound; auto|].
    rewrite Ho in O1. apply ok_inj in O1. subst o.
    assert (Fd := supported_forall_finite _ Hs).
    destruct F2 as [F2|(F2 & F3)].
    { exfalso. apply (C22_mape_nan_iff data out) in F2; auto. destruct F2 as (k & o & g & K1 & _ & K2 & _).
      rewrite Forall_forall in Hnz. apply (Hnz o); [|exact K2]. eapply nth_error_In; eauto. }
    destruct (mape_accuracy data out (cr_error r) Hne ltac:(lia) Fd F1 F2) as (_ & _ & _ & A).
    split; [exact R4|]. split; [exact Hnz|]. split; [exact O2|].
    apply (exact_from_computed (Z.of_nat (length data)) (R64 (cr_error r))); try lia; try lra.
    + now apply mean_rel_nonneg.
    + rewrite INR_IZR_INZ, Nat2Z.inj_add in A. exact A.
Qed.

(** The inverse-distance compressor on the command line: for supported non-zero samples every chunk either comes back sample by
    sample (up to the rounding to five decimals), or with an exact mean relative error of at most the requested percentage,
    plus 0.0601 percentage points for the rounding of the error in the compressor. *)
Theorem C60_idw_error_end_to_end : forall e p data err level,
  env_ok e -> idw_interpolates e -> 0 <= err < 256 -> 0 <= level <= 6 -> fits_counter p data ->
  Forall (fun x => finite x -> supported x /\ R64 x <> 0%R) data ->
  exists bytes outs chunks cleaned,
    compress_data e p data Idw err level = Ok bytes /\ decompress_data e p bytes = Ok (concat outs) /\
    subsequence_of finite data cleaned /\ concat chunks = cleaned /\
    Forall2 (fun chunk out => nearly_equal chunk out \/ relative_error_within (IZR err / 100 + 601 / 1000000) chunk out) chunks outs.
Proof.
  intros e p data err level He Hi Hr Hlv Hf Hs.
  destruct (cli_error_value err Hr) as [Fb Rb].
  destruct (pipeline_with e p data Idw err level
    (fun out chunk => nearly_equal chunk out \/ relative_error_within (IZR err / 100 + 601 / 1000000) chunk out) He Hr Hlv Hf) as (b & outs & chunks & H1 & H2 & H3 & _ & H4).
  - intros d f out Hne Hdl Hin Hfr Ho _. rewrite Forall_forall in Hs.
    assert (Hall : forall x, In x d -> supported x /\ R64 x <> 0%R).
    { intros x Hx. destruct (clean_data_in data x (Hin x Hx)) as [G1 G2]. now apply Hs. }
    unfold call_for in Hfr. cbn [is_bounded frame_of] in Hfr. unfold frame_compress_bounded in Hfr.
    destruct (compress_bounded e p Idw d (f32_as_f64 (cli_error err))) as [bytes|] eqn:Eb; [|discriminate]. cbn [bind] in Hfr. apply ok_inj in Hfr. subst f.
    unfold frame_decompress in Ho. cbn [fr_compressor fr_samples fr_data] in Ho. rewrite Nat2Z.id in Ho.
    assert (IZR err <= 255)%R by (apply IZR_le; lia).
    destruct (idw_chunk e p d (f32_as_f64 (cli_error err)) bytes out (IZR err / 100 + / 1000000 - / 100000000)) as [G|(G1 & G2 & G3 & G4)]; auto; try lra.
    + apply Forall_forall. intros x Hx. apply (Hall x Hx).
    + apply Forall_forall. intros x Hx. apply (Hall x Hx).
    + right. split; [exact G1|]. split; [exact G2|]. split; [exact G3|]. lra.
  - exists b, outs, chunks, (clean_data data). split; [exact H1|]. split; [exact H2|]. split; [apply C11_cleaning_keeps_finite|]. split; [exact H3|].
    clear -H4. induction H4; constructor; auto.
Qed.
Print Assumptions C60_idw_error_end_to_end.


(** An interpolation which meets the hypothesis: the value at a point, zero elsewhere. *)
Fixpoint value_at (ps vs : list f64) (x : f64) : f64 :=
  match ps, vs with
  | q :: ps', v :: vs' => if feq q x then v else value_at ps' vs' x
  | _, _ => f0
  end.
Definition lookup_env : env := {| e_idw := value_at; e_fft := e_fft id_env |}.
Lemma lookup_env_ok : env_ok lookup_env /\ idw_interpolates lookup_env.
Proof.
  split; [exact id_env_ok|]. intros ps vs z _ Hl Hs Hr Hv Hz. cbv zeta. cbn [lookup_env e_idw].
  assert (F : forall a, 0 <= a < 2 ^ 53 -> feq (int_as_f64 a) (int_as_f64 z) = (a =? z)).
  { intros a Ha. destruct (int_as_f64_exact a ltac:(lia)) as [Ra Fa]. destruct (int_as_f64_exact z ltac:(lia)) as [Rz Fz].
    destruct (Z.eqb_spec a z) as [->|N]; [apply feq_R; auto|]. destruct (feq (int_as_f64 a) (int_as_f64 z)) eqn:E; [|reflexivity].
    exfalso. apply N. apply feq_R in E; auto. rewrite Ra, Rz in E. now apply eq_IZR. }
  revert vs Hl Hv. induction Hs as [|q ps Hs IH Hq]; intros [|v vs] Hl Hv; try discriminate Hl; cbn [map value_at].
  - split; [|intros [|k] ? ?; discriminate]. split; [exact f0_finite|]. rewrite f0_R, Rabs_R0. apply bpow_ge_0.
  - inversion Hr as [|? ? R1 R2]; subst. inversion Hv as [|? ? V1 V2]; subst. rewrite (F q R1). destruct (Z.eqb_spec q z) as [->|N].
    + split; [eapply bnd_weaken; [|exact V1]; lia|]. intros [|k] w Hk Hw; cbn in Hk, Hw.
      * injection Hw as <-. split; [apply V1|]. split; [apply V1|reflexivity].
      * exfalso. rewrite Forall_forall in Hq. apply nth_error_In in Hk. specialize (Hq z Hk). lia.
    + destruct (IH R2 vs ltac:(now injection Hl) V2) as [I1 I2]. split; [exact I1|].
      intros [|k] w Hk Hw; cbn in Hk, Hw; [injection Hk as ->; congruence|exact (I2 k w Hk Hw)].
Qed.
Example C60_example : exists bytes outs chunks cleaned,
  compress_data lookup_env Dev sample_series Idw 30 0 = Ok bytes /\ decompress_data lookup_env Dev bytes = Ok (concat outs) /\
  subsequence_of finite sample_series cleaned /\ concat chunks = cleaned /\
  Forall2 (fun chunk out => nearly_equal chunk out \/ relative_error_within (30 / 100 + 601 / 1000000) chunk out) chunks outs.
Proof.
  destruct lookup_env_ok as (H1 & H2). apply C60_idw_error_end_to_end; auto; try lia.
  - left. vm_compute. reflexivity.
  - eapply Forall_impl; [|exact sample_series_ok]. auto.
Qed.
