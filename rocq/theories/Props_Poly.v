(** C16 - C19: polynomial (Catmull-Rom) and IDW frames. *)
From Coq Require Import List ZArith Bool Lia Reals Lra Sorted ZifyBool.
From Flocq Require Import Core IEEE754.BinarySingleNaN IEEE754.Binary IEEE754.Bits.
From Verif Require Import Base Model_Float Model_Bincode BincodeFacts Spec FloatFacts ArithFacts RoundFacts Model_Utils Model_Stats
  Model_Compressors Model_Polynomial Model_Fft Model_Stream StatsFacts CompressorFacts PolyFacts SplineFacts PolyLoopFacts MetricFacts
  PolyApiFacts Props_Metric Props_Lossless.
Import ListNotations.
Open Scope Z_scope.

(** The two compressors that store samples on a grid. *)
Definition interpolating (c : compressor) : Prop := c = Polynomial \/ c = Idw.

(** [bytes] is what one of the two public entry points makes of [data]. *)
Definition produced (e : env) (p : profile) (c : compressor) (data : list f64) (bytes : list Z) : Prop :=
  compress e c data = Ok bytes \/ exists bound, compress_bounded e p c data bound = Ok bytes.

(** The same, with an error bound in the range where the error loop is entered. *)
Definition produced_usable (e : env) (p : profile) (c : compressor) (data : list f64) (bytes : list Z) : Prop :=
  compress e c data = Ok bytes \/
  exists bound, finite bound /\ (0 <= R64 bound <= bpow radix2 29)%R /\ compress_bounded e p c data bound = Ok bytes.

Definition ptype_of (c : compressor) : ptype := match c with Idw => PIdw | _ => PPolynomial end.

(** Glue: the shape of what is produced. *)
Lemma produced_shape e p c data bytes st : interpolating c -> data_stats data = Ok st -> 1 <= len data <= 2 ^ 53 ->
  produced e p c data bytes -> exists f, bytes = enc_poly f /\ (f = frame0 st (ptype_of c) \/ exists s, holds data (frame0 st (ptype_of c)) f s).
Proof.
  intros Hc Hst Hn [H|[b H]].
  - assert (Hp : polynomial data (ptype_of c) = Ok bytes).
    { unfold compress in H. rewrite Hst in H. cbn [bind] in H. destruct Hc as [->| ->]; exact H. }
    destruct (polynomial_shape data (ptype_of c) st Hst Hn) as [[_ Hs]|[_ (f & Hs & Hh)]]; rewrite Hs in Hp; apply ok_inj in Hp; subst bytes; eauto.
  - assert (Hp : (do r <- polynomial_allowed_error (e_idw e) p data b (ptype_of c); Ok (cr_data r)) = Ok bytes).
    { unfold compress_bounded in H. rewrite Hst in H. cbn [bind] in H. destruct Hc as [->| ->]; exact H. }
    destruct (allowed_shape (e_idw e) p data b (ptype_of c) st Hst Hn) as [[_ Hs]|[_ (f & err & Hs & Hh)]];
      rewrite Hs in Hp; cbn [bind cr_data] in Hp; apply ok_inj in Hp; subst bytes; eauto.
    destruct Hh as [(-> & _)|(s & Hh & _)]; eauto.
Qed.

Lemma produced_usable_shape e p c data bytes st : interpolating c -> data_stats data = Ok st -> 1 <= len data <= 2 ^ 53 ->
  produced_usable e p c data bytes -> feq (st_max st) (st_min st) = false ->
  exists f s, bytes = enc_poly f /\ holds data (frame0 st (ptype_of c)) f s.
Proof.
  intros Hc Hst Hn [H|(b & Fb & Rb & H)] Hne.
  - assert (Hp : polynomial data (ptype_of c) = Ok bytes).
    { unfold compress in H. rewrite Hst in H. cbn [bind] in H. destruct Hc as [->| ->]; exact H. }
    destruct (polynomial_shape data (ptype_of c) st Hst Hn) as [[E Hs]|[_ (f & Hs & Hh)]]; [congruence|]. rewrite Hs in Hp; apply ok_inj in Hp; subst bytes; eauto.
  - assert (Hp : (do r <- polynomial_allowed_error (e_idw e) p data b (ptype_of c); Ok (cr_data r)) = Ok bytes).
    { unfold compress_bounded in H. rewrite Hst in H. cbn [bind] in H. destruct Hc as [->| ->]; exact H. }
    destruct (allowed_shape (e_idw e) p data b (ptype_of c) st Hst Hn) as [[E Hs]|[_ (f & err & Hs & Hh)]]; [congruence|].
    rewrite Hs in Hp; cbn [bind cr_data] in Hp; apply ok_inj in Hp; subst bytes.
    destruct Hh as [(_ & _ & Hx)|(s & Hh & _)]; [|eauto]. rewrite usable_bound in Hx by assumption. discriminate.
Qed.

Lemma decompress_interp e p c n bytes : interpolating c -> decompress e p c n bytes = polynomial_decompress (e_idw e) p n bytes.
Proof. intros [->| ->]; reflexivity. Qed.

Lemma nonempty_len data : data <> [] -> 1 <= len data.
Proof. unfold len. destruct data; [congruence|]. cbn [length]. lia. Qed.

(** *** C16 *)
(** Whatever the IDW crate computes, whatever the bound and however many samples are asked
    for, decompressed samples are NaN or between the minimum and maximum of the original. *)
Theorem C16_output_in_range : forall e p c data bytes n out mn i mx j,
  interpolating c -> Z.of_nat (length data) <= 2 ^ 53 -> Forall finite data ->
  produced e p c data bytes ->
  min_at data mn i -> max_at data mx j ->
  decompress e p c n bytes = Ok out ->
  Forall (fun y => fis_nan y = true \/ (finite y /\ (R64 mn <= R64 y <= R64 mx)%R)) out.
Proof.
  intros e p c data bytes n out mn i mx j Hc Hn Hf Hp Hmn Hmx Ho.
  assert (Hne : data <> []) by (intros ->; destruct Hmn as [Hm _]; destruct i; discriminate).
  destruct (stats_facts data Hne Hf) as (st & Hst & Fn & Fx & Hle & [i' Hmn'] & [j' Hmx']).
  assert (Hlen := nonempty_len data Hne).
  destruct (produced_shape e p c data bytes st Hc Hst (conj Hlen Hn) Hp) as (f & -> & Hsh).
  rewrite decompress_interp in Ho by exact Hc. unfold polynomial_decompress in Ho.
  assert (Hd : exists g, decode_unwrap dec_poly (enc_poly f) = Ok g /\ pl_min g = st_min st /\ pl_max g = st_max st).
  { destruct Hsh as [->|[s Hh]].
    - rewrite decode_frame0. eexists. split; [reflexivity|]. split; reflexivity.
    - rewrite (decode_holds _ _ _ _ (conj Hlen Hn) Hh). eexists. split; [reflexivity|]. destruct Hh as [_ ->]. split; reflexivity. }
  destruct Hd as (g & Hg & Gn & Gx). rewrite Hg in Ho. cbn [bind] in Ho.
  apply poly_to_data_within in Ho; [|congruence..|rewrite Gn, Gx; exact Hle].
  assert (Rn : R64 mn = R64 (st_min st)).
  { destruct Hmn as (H1 & H2 & _), Hmn' as (H1' & H2' & _). rewrite Forall_forall in H2, H2'.
    apply Rle_antisym; [apply H2|apply H2']; eapply nth_error_In; eauto. }
  assert (Rx : R64 mx = R64 (st_max st)).
  { destruct Hmx as (H1 & H2 & _), Hmx' as (H1' & H2' & _). rewrite Forall_forall in H2, H2'.
    apply Rle_antisym; [apply H2'|apply H2]; eapply nth_error_In; eauto. }
  rewrite Gn, Gx in Ho. rewrite Rn, Rx. exact Ho.
Qed.
Print Assumptions C16_output_in_range.

(** The same for any byte string that decodes to a frame with an ordered, finite range. *)
Theorem C16_any_frame_in_range : forall e p c bytes f n out,
  interpolating c -> decode_unwrap dec_poly bytes = Ok f ->
  finite (pl_min f) -> finite (pl_max f) -> (R64 (pl_min f) <= R64 (pl_max f))%R ->
  decompress e p c n bytes = Ok out ->
  Forall (fun y => fis_nan y = true \/ (finite y /\ (R64 (pl_min f) <= R64 y <= R64 (pl_max f))%R)) out.
Proof.
  intros e p c bytes f n out Hc Hd Fn Fx Hle Ho. rewrite decompress_interp in Ho by exact Hc.
  unfold polynomial_decompress in Ho. rewrite Hd in Ho. cbn [bind] in Ho. exact (poly_to_data_within _ _ _ _ _ Fn Fx Hle Ho).
Qed.
Print Assumptions C16_any_frame_in_range.

Lemma supported_forall_finite data : Forall supported data -> Forall finite data.
Proof. intros H. eapply Forall_impl; [|exact H]. apply supported_finite. Qed.

Lemma pick_conv_bnd data st s : Forall supported data -> data_stats data = Ok st -> 1 <= len data -> 1 <= s ->
  values_ok (map (conv (st_bitdepth st)) (pick data (grid (len data) s))).
Proof.
  intros Hs Hst Hn H1. unfold values_ok. apply Forall_map. apply pick_forall; auto.
  assert (Hc := stats_conv data st Hs Hst). rewrite Forall_forall in *. intros x Hx.
  destruct (Hc x Hx) as (F & _ & R). destruct (supported_bnd x (Hs x Hx)) as [_ B]. split; [exact F|]. now rewrite R.
Qed.

(** Decompressing a Catmull-Rom frame on supported data. *)
Lemma spline_frame e p data st f s : Forall supported data -> data_stats data = Ok st -> 1 <= len data <= 2 ^ 53 ->
  feq (st_max st) (st_min st) = false -> holds data (frame0 st PPolynomial) f s ->
  exists out, decompress e p Polynomial (length data) (enc_poly f) = Ok out /\ length out = length data /\ Forall finite out /\
    forall z x, In z (grid (len data) s) -> sample_at data z x ->
      exists y, sample_at out z y /\ finite y /\ R64 y = clamp (R64 (st_min st)) (R64 (st_max st)) (rd 5 (R64 x)).
Proof.
  intros Hs Hst Hn Hne Hh. cbn [decompress]. unfold polynomial_decompress. rewrite (decode_holds _ _ _ _ Hn Hh). cbn [bind].
  assert (Hd : data <> []) by (intros ->; cbn in Hn; lia).
  destruct (stats_facts data Hd (supported_forall_finite _ Hs)) as (st' & Hst' & Fn & Fx & Hle & [i Hmn] & [j Hmx]).
  rewrite Hst in Hst'. apply ok_inj in Hst'. subst st'.
  assert (Hbn : bnd 400 (st_min st)).
  { eapply bnd_weaken; [|apply supported_bnd]; [lia|]. rewrite Forall_forall in Hs. apply Hs. eapply min_at_in; eauto. }
  destruct Hh as [Hsr ->].
  destruct (spline_decompress p (conv_poly (with_points (frame0 st PPolynomial) (pick data (grid (len data) s)) s)) (length data) s) with (idw := e_idw e)
    as (out & Ho & Hl & Hfin & Hgr); cbn [conv_poly with_points frame0 poly_new pl_step pl_id pl_max pl_min pl_points pl_bitdepth]; auto; try lia; try (unfold len in Hn; lia).
  { unfold pick, len. now rewrite !map_length. }
  { apply pick_conv_bnd; auto; lia. }
  exists out. split; [exact Ho|]. split; [exact Hl|]. split; [exact Hfin|].
  intros z x Hz [Hz0 Hx]. apply In_nth_error in Hz. destruct Hz as [k Hk].
  destruct (Hgr k z (conv (st_bitdepth st) x) Hk) as (y & Hy & Fy & Ry).
  { cbn [conv_poly with_points frame0 poly_new pl_step pl_id pl_max pl_min pl_points pl_bitdepth].
    rewrite nth_error_map. unfold pick. rewrite nth_error_map, Hk. cbn [option_map]. do 2 f_equal.
    now apply nth_error_nth. }
  exists y. split; [split; [exact Hz0|exact Hy]|]. split; [exact Fy|]. rewrite Ry. cbn [conv_poly with_points frame0 poly_new pl_step pl_id pl_max pl_min pl_points pl_bitdepth].
  f_equal. f_equal. assert (Hc := stats_conv data st Hs Hst). rewrite Forall_forall in Hc.
  apply (Hc x). eapply nth_error_In; eauto.
Qed.

(** For Catmull-Rom frames on supported data the NaN case does not occur: decompression
    succeeds and every sample is finite. *)
Theorem C16_polynomial_output_finite : forall e p data bytes,
  data <> [] -> Z.of_nat (length data) <= 2 ^ 53 -> Forall supported data ->
  produced_usable e p Polynomial data bytes ->
  exists out, decompress e p Polynomial (length data) bytes = Ok out /\ length out = length data /\ Forall finite out.
Proof.
  intros e p data bytes Hne Hn Hs Hp. assert (Hlen := nonempty_len data Hne).
  destruct (stats_facts data Hne (supported_forall_finite _ Hs)) as (st & Hst & Fn & Fx & Hle & _).
  destruct (feq (st_max st) (st_min st)) eqn:E.
  - destruct (produced_shape e p Polynomial data bytes st (or_introl eq_refl) Hst (conj Hlen Hn)) as (f & -> & Hsh).
    { destruct Hp as [Hp|(b & _ & _ & Hp)]; [now left|right; eauto]. }
    cbn [decompress]. unfold polynomial_decompress.
    assert (Hd : exists g, decode_unwrap dec_poly (enc_poly f) = Ok g /\ pl_min g = st_min st /\ pl_max g = st_max st).
    { destruct Hsh as [->|[s Hh]].
      - rewrite decode_frame0. eexists. split; [reflexivity|]. split; reflexivity.
      - rewrite (decode_holds _ _ _ _ (conj Hlen Hn) Hh). eexists. split; [reflexivity|]. destruct Hh as [_ ->]. split; reflexivity. }
    destruct Hd as (g & Hg & Gn & Gx). rewrite Hg. cbn [bind]. unfold poly_to_data. rewrite Gn, Gx, E. eexists. split; [reflexivity|].
    rewrite repeat_length. split; [reflexivity|]. apply Forall_forall. intros y Hy. apply repeat_spec in Hy. now subst.
  - destruct (produced_usable_shape e p Polynomial data bytes st (or_introl eq_refl) Hst (conj Hlen Hn) Hp E) as (f & s & -> & Hh).
    destruct (spline_frame e p data st f s Hs Hst (conj Hlen Hn) E Hh) as (out & H1 & H2 & H3 & _). eauto.
Qed.
Print Assumptions C16_polynomial_output_finite.

(** Instance: the unit test series; the Catmull-Rom overshoot is clipped. *)
Definition ints (l : list Z) : list f64 := map int_as_f64 l.
Example C16_example : forall e,
  (do b <- compress e Polynomial (ints [9; 9; 9; 9; 9; 9; 9; 9; 0; 9; 9; 9; 9; 9; 9; 9; 9]);
   do o <- decompress e Dev Polynomial 17 b; Ok (forallb (fun y => fle (int_as_f64 0) y && fle y (int_as_f64 9)) o)) = Ok true.
Proof. intros. vm_compute. reflexivity. Qed.

(** *** C17 *)
(** The decoder's grid is the encoder's: 0, step, 2 step, ..., and the last position; the i-th
    stored value is the sample at the i-th position; the step fits its byte. *)
Theorem C17_grid_agreement : forall e p c data bytes x y,
  interpolating c -> Z.of_nat (length data) <= 2 ^ 53 -> Forall supported data ->
  In x data -> In y data -> R64 x <> R64 y ->
  produced_usable e p c data bytes ->
  exists f positions,
    decode_unwrap dec_poly bytes = Ok f /\
    1 <= pl_step f <= 133 /\
    get_positions p f (Z.of_nat (length data)) = Ok positions /\
    sampling_grid (Z.of_nat (length data)) (pl_step f) positions /\
    Forall2 (fun pos v => exists s, sample_at data pos s /\ same_value v s) positions (pl_points f).
Proof.
  intros e p c data bytes x y Hc Hn Hs Hx Hy Hxy Hp.
  assert (Hne : data <> []) by (intros ->; destruct Hx). assert (Hlen := nonempty_len data Hne).
  destruct (stats_facts data Hne (supported_forall_finite _ Hs)) as (st & Hst & Fn & Fx & Hle & [i (_ & Hmn & _)] & [j (_ & Hmx & _)]).
  assert (E : feq (st_max st) (st_min st) = false).
  { destruct (feq (st_max st) (st_min st)) eqn:E; [|reflexivity]. apply feq_R in E; [|assumption..].
    rewrite Forall_forall in Hmn, Hmx. pose proof (Hmn x Hx). pose proof (Hmn y Hy). pose proof (Hmx x Hx). pose proof (Hmx y Hy). lra. }
  destruct (produced_usable_shape e p c data bytes st Hc Hst (conj Hlen Hn) Hp E) as (f & s & -> & Hh).
  rewrite (decode_holds _ _ _ _ (conj Hlen Hn) Hh). eexists. exists (grid (len data) s). split; [reflexivity|].
  destruct Hh as [Hsr ->]. cbn [conv_poly with_points frame0 poly_new pl_step pl_points pl_bitdepth]. split; [exact Hsr|].
  split; [rewrite get_positions_grid; [reflexivity|unfold len in *; lia|cbn; lia]|].
  split; [apply grid_spec; unfold len in *; lia|].
  assert (Hps := pick_sample_at data s Hlen (proj1 Hsr)). fold (len data) in Hps. revert Hps.
  assert (Hcv := stats_conv data st Hs Hst). rewrite Forall_forall in Hcv. clear -Hcv.
  generalize (pick data (grid (len data) s)) as vs. generalize (grid (len data) s) as ps.
  induction 1 as [|pz v ps vs Hv _ IH]; cbn [map]; constructor; [|exact IH].
  exists v. split; [exact Hv|]. apply Hcv. destruct Hv as [_ Hv]. eapply nth_error_In; eauto.
Qed.
Print Assumptions C17_grid_agreement.

(** What the user sees: every sample on the grid comes back within 0.000006 (and exactly when it
    has at most five decimals). *)
Theorem C17_grid_samples_returned : forall e p data bytes,
  data <> [] -> Z.of_nat (length data) <= 2 ^ 53 -> Forall supported data ->
  Forall (fun x => (Rabs (R64 x) <= bpow radix2 30)%R) data ->
  produced_usable e p Polynomial data bytes ->
  exists step out,
    1 <= step <= 133 /\ decompress e p Polynomial (length data) bytes = Ok out /\ length out = length data /\
    forall pos x, (step | pos) \/ pos = Z.of_nat (length data) - 1 -> sample_at data pos x ->
      exists y, sample_at out pos y /\ finite y /\ (Rabs (R64 y - R64 x) <= 6 / 1000000)%R /\
        (five_decimals x -> same_value y x).
Proof.
  intros e p data bytes Hne Hn Hs Hb Hp. assert (Hlen := nonempty_len data Hne).
  destruct (stats_facts data Hne (supported_forall_finite _ Hs)) as (st & Hst & Fn & Fx & Hle & [i Hmn] & [j Hmx]).
  destruct (feq (st_max st) (st_min st)) eqn:E.
  - destruct (produced_shape e p Polynomial data bytes st (or_introl eq_refl) Hst (conj Hlen Hn)) as (f & -> & Hsh).
    { destruct Hp as [Hp|(b & _ & _ & Hp)]; [now left|right; eauto]. }
    cbn [decompress]. unfold polynomial_decompress.
    assert (Hd : exists g, decode_unwrap dec_poly (enc_poly f) = Ok g /\ pl_min g = st_min st /\ pl_max g = st_max st).
    { destruct Hsh as [->|[s Hh]].
      - rewrite decode_frame0. eexists. split; [reflexivity|]. split; reflexivity.
      - rewrite (decode_holds _ _ _ _ (conj Hlen Hn) Hh). eexists. split; [reflexivity|]. destruct Hh as [_ ->]. split; reflexivity. }
    destruct Hd as (g & Hg & Gn & Gx). rewrite Hg. cbn [bind]. unfold poly_to_data. rewrite Gn, Gx, E. exists 1. eexists. split; [lia|]. split; [reflexivity|].
    rewrite repeat_length. split; [reflexivity|]. intros pos x _ [H0 Hx].
    assert (Hc := constant_series data st (supported_forall_finite _ Hs) Hst E).
    assert (G : exists y, nth_error (repeat (st_max st) (length data)) (Z.to_nat pos) = Some y /\ same_value y x).
    { clear -Hc Hx. unfold same_series in Hc. revert Hx. generalize (Z.to_nat pos) as k. induction Hc as [|a b l l' Hab _ IH]; intros [|k] Hk; try discriminate; cbn in *.
      - injection Hk as <-. eauto.
      - apply IH. exact Hk. }
    destruct G as (y & Gy & (F1 & F2 & GR)). exists y. split; [now split|]. split; [exact F1|]. split; [|intros _; repeat split; assumption].
    rewrite GR, Rminus_diag_eq by reflexivity. rewrite Rabs_R0. lra.
  - destruct (produced_usable_shape e p Polynomial data bytes st (or_introl eq_refl) Hst (conj Hlen Hn) Hp E) as (f & s & -> & Hh).
    destruct (spline_frame e p data st f s Hs Hst (conj Hlen Hn) E Hh) as (out & H1 & H2 & _ & H4).
    destruct Hh as [Hsr _]. exists s, out. split; [exact Hsr|]. split; [exact H1|]. split; [exact H2|].
    intros pos x Hpos Hx. destruct (H4 pos x) as (y & Hy & Fy & Ry); [|exact Hx|].
    { apply grid_spec; try lia. destruct Hx as [H0 Hx]. assert (Hl : (Z.to_nat pos < length data)%nat) by (apply nth_error_Some; congruence). unfold len. split; [lia|exact Hpos]. }
    exists y. split; [exact Hy|]. split; [exact Fy|].
    assert (Hxin : In x data) by (destruct Hx as [_ Hx]; eapply nth_error_In; eauto).
    assert (Hcl : (R64 (st_min st) <= R64 x <= R64 (st_max st))%R).
    { destruct Hmn as (_ & Hmn & _), Hmx as (_ & Hmx & _). rewrite Forall_forall in Hmn, Hmx. split; auto. }
    rewrite Forall_forall in Hb. split.
    + rewrite Ry. eapply Rle_trans; [apply clamp_near; exact Hcl|]. eapply Rle_trans; [apply rd_near; [lia|auto]|].
      change (IZR (10 ^ 5)) with 100000%R. change (bpow radix2 (-23)) with (/ 8388608)%R. lra.
    + intros (Fxx & k & Hk & Hkx). split; [exact Fy|]. split; [exact Fxx|]. rewrite Ry.
      rewrite (rd_five_decimals _ k Hk Hkx). unfold clamp. rewrite Rmax_left, Rmin_left; lra.
Qed.
Print Assumptions C17_grid_samples_returned.
Example C17_example : forall e,
  (do b <- compress e Polynomial (ints [3; 1; 4; 1; 5; 9; 2; 6; 5; 3; 5; 8]); do f <- decode_unwrap dec_poly b;
   do ps <- get_positions Dev f 12; Ok (ps, map to_bits (pl_points f)))
  = Ok ([0; 4; 8; 11], map to_bits (ints [3; 5; 5; 8])).
Proof. intros. vm_compute. reflexivity. Qed.

(** The public compress_hinted has no such protection: with one point for 300 samples the step 300
    is stored as 44, and with one point for 256 samples as 0, on which the decoder panics. *)
Theorem C17_hinted_step_overflow_refuted :
  let data n := ints (map Z.of_nat (seq 0 n)) in
  let c n := poly_new (int_as_f64 0) (int_as_f64 (Z.of_nat n - 1)) PPolynomial BI16 in
  (do f <- compress_hinted (c 300%nat) (data 300%nat) 1; Ok (length (pl_points f), pl_step f)) = Ok (2%nat, 44) /\
  (do f <- compress_hinted (c 256%nat) (data 256%nat) 1; get_positions Dev f 256) = Panic PDivZero.
Proof. split; vm_compute; reflexivity. Qed.
Print Assumptions C17_hinted_step_overflow_refuted.

(** *** C18 *)
Lemma holds_decode data st t f s : Forall supported data -> Forall no_negative_zero data -> data_stats data = Ok st ->
  1 <= len data <= 2 ^ 53 -> holds data (frame0 st t) f s -> decode_unwrap dec_poly (enc_poly f) = Ok f.
Proof.
  intros Hs Hz Hst Hn Hh. rewrite (decode_holds _ _ _ _ Hn Hh). destruct Hh as [Hsr ->].
  unfold conv_poly. cbn [with_points frame0 poly_new pl_id pl_points pl_min pl_max pl_step pl_error pl_bitdepth].
  rewrite conv_exact_all; [reflexivity|apply pick_forall; auto; lia|].
  apply pick_forall; [now apply stats_conv|lia|lia].
Qed.

(** Bounded compression always returns (the loop of at most 23 rounds ends: the model's fuel is
    never exhausted). Then decompression returns a full-length series and one of three things holds:
    it equals the original; or every sample was stored; or the reported error is exactly the
    error metric of what the decompressor returns, and is NaN or at most the bound + 0.0006. *)
Theorem C18_error_control : forall e p c data bound,
  interpolating c -> data <> [] -> Z.of_nat (length data) <= 2 ^ 53 ->
  Forall supported data -> Forall no_negative_zero data ->
  finite bound -> (0 <= R64 bound <= bpow radix2 29)%R ->
  exists r out,
    compress_results e p c data bound = Ok r /\
    compress_bounded e p c data bound = Ok (cr_data r) /\
    decompress e p c (length data) (cr_data r) = Ok out /\ length out = length data /\
    ((cr_error r = f0 /\ same_series out data) \/
     (cr_error r = f0 /\ exists f, decode_unwrap dec_poly (cr_data r) = Ok f /\ pl_points f = data) \/
     (calculate_error data out = Ok (cr_error r) /\
        (fis_nan (cr_error r) = true \/
         (finite (cr_error r) /\ (0 <= R64 (cr_error r) <= R64 bound + 6 / 10000)%R)))).
Proof.
  intros e p c data bound Hc Hne Hn Hs Hz Fb Rb. assert (Hlen := nonempty_len data Hne).
  assert (Hf := supported_forall_finite _ Hs).
  destruct (stats_facts data Hne Hf) as (st & Hst & Fn & Fx & Hle & [i Hmn] & [j Hmx]).
  set (t := ptype_of c).
  assert (Hr : compress_results e p c data bound = polynomial_allowed_error (e_idw e) p data bound t).
  { unfold compress_results. rewrite Hst. cbn [bind]. destruct Hc as [->| ->]; reflexivity. }
  assert (Hb : compress_bounded e p c data bound = do r <- compress_results e p c data bound; Ok (cr_data r)).
  { unfold compress_bounded, compress_results. rewrite Hst. cbn [bind]. destruct Hc as [->| ->]; reflexivity. }
  rewrite Hb, Hr.
  destruct (allowed_shape (e_idw e) p data bound t st Hst (conj Hlen Hn)) as [[E Ha]|[E (f & err & Ha & Hcase)]]; rewrite Ha; cbn [bind].
  - eexists. exists (repeat (st_max st) (length data)). split; [reflexivity|]. split; [reflexivity|]. cbn [cr_data cr_error].
    rewrite decompress_interp by exact Hc. unfold polynomial_decompress. rewrite decode_frame0. cbn [bind].
    unfold poly_to_data. cbn [frame0 poly_new pl_max pl_min]. rewrite E. split; [reflexivity|]. rewrite repeat_length. split; [reflexivity|].
    left. split; [reflexivity|]. now apply constant_series.
  - destruct Hcase as [(_ & _ & Hx)|(s & Hh & Hcase)]; [rewrite usable_bound in Hx by assumption; discriminate|].
    assert (Hd := holds_decode data st t f s Hs Hz Hst (conj Hlen Hn) Hh).
    assert (Hm : feq (pl_max f) (pl_min f) = false) by (destruct Hh as [_ ->]; exact E).
    assert (Hmin : pl_min f = st_min st) by (destruct Hh as [_ ->]; reflexivity).
    assert (Hmax : pl_max f = st_max st) by (destruct Hh as [_ ->]; reflexivity).
    destruct (method_total (e_idw e) p f (length data)) as (out & Ho & Hol).
    { rewrite (holds_step _ _ _ _ Hh). destruct Hh; lia. } { unfold len in Hlen. lia. } { lia. }
    assert (Hto : poly_to_data (e_idw e) p f (length data) = Ok out) by (unfold poly_to_data; rewrite Hm; exact Ho).
    eexists. exists out. split; [reflexivity|]. split; [reflexivity|]. cbn [cr_data cr_error].
    rewrite decompress_interp by exact Hc. unfold polynomial_decompress. rewrite Hd. cbn [bind].
    split; [exact Hto|]. split; [exact Hol|]. right.
    destruct Hcase as [[Hp Herr]|(out' & Ho' & He & Hx)]; [left; eauto|right].
    rewrite Ho in Ho'. apply ok_inj in Ho'. subst out'. split; [exact He|].
    eapply exit_error; try eassumption.
    assert (Hw : Forall (nan_or_within (pl_min f) (pl_max f)) out).
    { eapply poly_to_data_within; [rewrite Hmin; exact Fn|rewrite Hmax; exact Fx|rewrite Hmin, Hmax; exact Hle|exact Hto]. }
    rewrite Hmin, Hmax in Hw.
    assert (Bn : bnd 63 (st_min st)) by (apply supported_bnd; rewrite Forall_forall in Hs; apply Hs; eapply min_at_in; eauto).
    assert (Bx : bnd 63 (st_max st)) by (apply supported_bnd; rewrite Forall_forall in Hs; apply Hs; eapply max_at_in; eauto).
    eapply Forall_impl; [|exact Hw]. intros y [Hy|[Fy Hy]]; [now left|right]. split; [exact Fy|].
    destruct Bn as [_ Bn], Bx as [_ Bx]. apply Rabs_le_inv in Bn. apply Rabs_le_inv in Bx. apply Rabs_le. lra.
Qed.
Print Assumptions C18_error_control.

(** On series without a zero sample the Catmull-Rom compressor does enforce the bound: either the
    series is stored in full (or constant), or the error of the decompressed series is a number at
    most the bound + 0.0006. *)
Theorem C18_bound_enforced_without_zeros : forall e p data bound,
  data <> [] -> Z.of_nat (length data) <= 2 ^ 53 ->
  Forall supported data -> Forall (fun x => R64 x <> 0%R) data ->
  finite bound -> (0 <= R64 bound <= bpow radix2 29)%R ->
  exists r out,
    compress_results e p Polynomial data bound = Ok r /\
    decompress e p Polynomial (length data) (cr_data r) = Ok out /\
    (same_series out data \/
     (exists f, decode_unwrap dec_poly (cr_data r) = Ok f /\ pl_points f = data) \/
     (exists err, calculate_error data out = Ok err /\ cr_error r = err /\ finite err /\ (0 <= R64 err <= R64 bound + 6 / 10000)%R)).
Proof.
  intros e p data bound Hne Hn Hs Hnz Fb Rb.
  assert (Hz : Forall no_negative_zero data).
  { eapply Forall_impl; [|exact Hnz]. intros x Hx ->. apply Hx. reflexivity. }
  destruct (C18_error_control e p Polynomial data bound (or_introl eq_refl) Hne Hn Hs Hz Fb Rb) as (r & out & H1 & H2 & H3 & H4 & H5).
  exists r, out. split; [exact H1|]. split; [exact H3|].
  destruct H5 as [[_ H5]|[[_ H5]|[H5 H6]]]; auto. right. right. exists (cr_error r). split; [exact H5|]. split; [reflexivity|].
  destruct H6 as [H6|H6]; [exfalso|exact H6].
  destruct (C16_polynomial_output_finite e p data (cr_data r) Hne Hn Hs) as (out' & H7 & _ & H8).
  { right. exists bound. auto. }
  rewrite H3 in H7. apply ok_inj in H7. subst out'.
  apply (C22_mape_nan_iff data out) in H6; auto; [|now apply supported_forall_finite].
  destruct H6 as (k & o & g & Ho & _ & Hzero & _). rewrite Forall_forall in Hnz. apply (Hnz o); [|exact Hzero]. eapply nth_error_In; eauto.
Qed.
Print Assumptions C18_bound_enforced_without_zeros.

(** Integers are in the supported range, so the hypotheses are met by the series below. *)
Lemma supported_int z : Z.abs z <= 2 ^ 53 -> supported (int_as_f64 z).
Proof.
  intros Hz. destruct (int_as_f64_exact z Hz) as [R F]. split; [exact F|]. rewrite R. split.
  - destruct (Z.eq_dec z 0) as [->|Hnz]; [now left|right].
    apply Rle_trans with 1%R; [change 1%R with (bpow radix2 0); apply bpow_le; lia|]. rewrite <- abs_IZR. apply IZR_le. lia.
  - split; [apply IZR_le; lia|apply IZR_lt; lia].
Qed.
Lemma supported_ints l : Forall (fun z => Z.abs z <= 2 ^ 53) l -> Forall supported (ints l).
Proof. intros H. apply Forall_map. eapply Forall_impl; [|exact H]. apply supported_int. Qed.
Lemma nonneg_zero_ints l : Forall (fun z => Z.abs z <= 2 ^ 53) l -> Forall no_negative_zero (ints l).
Proof.
  intros H. apply Forall_map. eapply Forall_impl; [|exact H]. intros z Hz E. cbn beta in Hz.
  assert (S := Bsign_int z Hz). destruct (int_as_f64_exact z Hz) as [R _]. rewrite E in S, R. cbn in S, R. apply (eq_IZR 0) in R. lia.
Qed.

(** Instance: on 12 samples with bound 0.01 the loop ends with all samples stored or a small error. *)
Example C18_example : forall e p,
  let data := ints [3; 1; 4; 1; 5; 9; 2; 6; 5; 3; 5; 8] in
  exists r out, compress_results e p Polynomial data (fdiv (int_as_f64 1) (int_as_f64 100)) = Ok r /\
    decompress e p Polynomial 12 (cr_data r) = Ok out /\
    (same_series out data \/
     (exists f, decode_unwrap dec_poly (cr_data r) = Ok f /\ pl_points f = data) \/
     (exists err, calculate_error data out = Ok err /\ cr_error r = err /\ finite err /\
        (0 <= R64 err <= R64 (fdiv (int_as_f64 1) (int_as_f64 100)) + 6 / 10000)%R)).
Proof.
  intros e p data. apply (C18_bound_enforced_without_zeros e p data).
  - discriminate.
  - unfold data, ints. rewrite map_length. vm_compute. discriminate.
  - apply supported_ints. repeat (apply Forall_cons; [lia|]). apply Forall_nil.
  - unfold data, ints. apply Forall_map.
    assert (H : Forall (fun z => z <> 0 /\ Z.abs z <= 2 ^ 53) [3; 1; 4; 1; 5; 9; 2; 6; 5; 3; 5; 8]) by (repeat (apply Forall_cons; [lia|]); apply Forall_nil).
    eapply Forall_impl; [|exact H]. intros z [Hz1 Hz2]. destruct (int_as_f64_exact z Hz2) as [-> _]. intros H0. apply (eq_IZR z 0) in H0. auto.
  - reflexivity.
  - destruct (int_as_f64_exact 1) as [R1 F1]; [lia|]. destruct (int_as_f64_exact 100) as [R2 F2]; [lia|].
    assert (H : (0 <= rnd64 (R64 (int_as_f64 1) / R64 (int_as_f64 100)) <= 1)%R).
    { rewrite R1, R2. assert (M : forall a b, (a <= b)%R -> (rnd64 a <= rnd64 b)%R).
      { intros a b Hab. apply round_le; [apply FLT_exp_valid; reflexivity|apply valid_rnd_N|exact Hab]. }
      pose proof (M 0%R (1 / 100)%R ltac:(lra)) as M1. pose proof (M (1 / 100)%R 1%R ltac:(lra)) as M2.
      rewrite (rnd64_int 0) in M1 by lia. rewrite (rnd64_int 1) in M2 by lia. lra. }
    destruct (fdiv_R (int_as_f64 1) (int_as_f64 100) F1) as [R _].
    + rewrite R2. apply IZR_neq. lia.
    + rewrite Rabs_right by lra. apply Rle_lt_trans with 1%R; [lra|]. change 1%R with (bpow radix2 0). apply bpow_lt. lia.
    + rewrite R. change (bpow radix2 29) with 536870912%R. lra.
Qed.

(** With a zero sample the bound is not enforced: this series of integers up to 9 is accepted with
    bound 0.01 after the first round with error NaN, although 9 comes back as 0.25. *)
Theorem C18_nan_escapes_bound_refuted : forall e,
  let data := ints [0; 9; 9; 9; 1; 9; 9; 9; 1; 9; 9; 1] in
  Forall supported data /\ Forall no_negative_zero data /\
  (do r <- compress_results e Dev Polynomial data (fdiv (int_as_f64 1) (int_as_f64 100));
   do o <- decompress e Dev Polynomial 12 (cr_data r);
   Ok (fis_nan (cr_error r), map to_bits (firstn 2 o)))
  = Ok (true, map to_bits [int_as_f64 0; fdiv (int_as_f64 1) (int_as_f64 4)]).
Proof.
  intros e data. split; [|split; [|vm_compute; reflexivity]]; [apply supported_ints|apply nonneg_zero_ints];
  repeat (apply Forall_cons; [lia|]); apply Forall_nil.
Qed.
Print Assumptions C18_nan_escapes_bound_refuted.

(** With a bound so large that adding 1 does not change it, the loop is never entered: no sample
    is stored and every sample comes back as the minimum. *)
Theorem C18_huge_bound_stores_nothing_refuted : forall e,
  (do r <- compress_results e Dev Polynomial (ints [1; 5; 2; 7; 3]) (int_as_f64 (2 ^ 60));
   do f <- decode_unwrap dec_poly (cr_data r);
   do o <- decompress e Dev Polynomial 5 (cr_data r);
   Ok (length (pl_points f), map to_bits o))
  = Ok (0%nat, map to_bits (ints [1; 1; 1; 1; 1])).
Proof. intros. vm_compute. reflexivity. Qed.
Print Assumptions C18_huge_bound_stores_nothing_refuted.

(** *** C19 *)
(** When the frame stores as many values as there are samples, a series with at most five
    decimals (in particular integers up to 2^33 in magnitude) comes back exactly. *)
Theorem C19_stored_everything_exact : forall e p data bytes f,
  data <> [] -> Z.of_nat (length data) <= 2 ^ 53 ->
  Forall supported data -> Forall five_decimals data ->
  produced_usable e p Polynomial data bytes ->
  decode_unwrap dec_poly bytes = Ok f -> length (pl_points f) = length data ->
  exists out, decompress e p Polynomial (length data) bytes = Ok out /\ same_series out data.
Proof.
  intros e p data bytes f Hne Hn Hs Hfd Hp Hd Hl. assert (Hlen := nonempty_len data Hne).
  destruct (stats_facts data Hne (supported_forall_finite _ Hs)) as (st & Hst & Fn & Fx & Hle & [i Hmn] & [j Hmx]).
  destruct (feq (st_max st) (st_min st)) eqn:E.
  { destruct (C16_polynomial_output_finite e p data bytes Hne Hn Hs Hp) as (out & Ho & _). exists out. split; [exact Ho|].
    destruct (produced_shape e p Polynomial data bytes st (or_introl eq_refl) Hst (conj Hlen Hn)) as (g & -> & Hsh).
    { destruct Hp as [Hp|(b & _ & _ & Hp)]; [now left|right; eauto]. }
    cbn [decompress] in Ho. unfold polynomial_decompress in Ho. rewrite Hd in Ho. cbn [bind] in Ho.
    assert (G : pl_min f = st_min st /\ pl_max f = st_max st).
    { destruct Hsh as [->|[s Hh]].
      - rewrite decode_frame0 in Hd. apply ok_inj in Hd. subst f. split; reflexivity.
      - rewrite (decode_holds _ _ _ _ (conj Hlen Hn) Hh) in Hd. apply ok_inj in Hd. subst f. destruct Hh as [_ ->]. split; reflexivity. }
    destruct G as [G1 G2]. unfold poly_to_data in Ho. rewrite G1, G2, E in Ho. apply ok_inj in Ho. subst out.
    apply constant_series; auto. now apply supported_forall_finite. }
  destruct (produced_usable_shape e p Polynomial data bytes st (or_introl eq_refl) Hst (conj Hlen Hn) Hp E) as (g & s & -> & Hh).
  destruct (spline_frame e p data st g s Hs Hst (conj Hlen Hn) E Hh) as (out & H1 & H2 & _ & H4).
  exists out. split; [exact H1|].
  rewrite (decode_holds _ _ _ _ (conj Hlen Hn) Hh) in Hd. apply ok_inj in Hd. subst f.
  assert (Hgl : length (grid (len data) s) = length data).
  { destruct Hh as [_ ->]. cbn [conv_poly with_points pl_points] in Hl. unfold pick in Hl. now rewrite !map_length in Hl. }
  assert (Hsr : 1 <= s) by (destruct Hh; lia).
  assert (Hall : forall k, (k < length data)%nat -> In (Z.of_nat k) (grid (len data) s)).
  { intros k Hk.
    assert (Hincl : incl (grid (len data) s) (map Z.of_nat (seq 0 (length data)))).
    { intros z Hz. apply grid_bounds in Hz; [|lia|lia]. apply in_map_iff. exists (Z.to_nat z). unfold len in Hz. split; [lia|]. apply in_seq. lia. }
    assert (Hnd : NoDup (grid (len data) s)).
    { destruct (grid_spec (len data) s) as [Hsort _]; [lia|lia|]. clear -Hsort. induction Hsort as [|a l Hl IH Ha]; constructor; auto.
      intros Hin. rewrite Forall_forall in Ha. specialize (Ha a Hin). lia. }
    apply (NoDup_length_incl (l' := map Z.of_nat (seq 0 (length data))) Hnd); [rewrite map_length, seq_length; lia|exact Hincl|].
    apply in_map_iff. exists k. split; [reflexivity|]. apply in_seq. lia. }
  assert (Hkey : forall k x, nth_error data k = Some x -> exists y, nth_error out k = Some y /\ same_value y x).
  { intros k x Hx. assert (Hk : (k < length data)%nat) by (apply nth_error_Some; congruence).
    destruct (H4 (Z.of_nat k) x (Hall k Hk)) as (y & [_ Hy] & Fy & Ry); [split; [lia|now rewrite Nat2Z.id]|].
    rewrite Nat2Z.id in Hy. exists y. split; [exact Hy|].
    rewrite Forall_forall in Hfd. assert (Hin : In x data) by (eapply nth_error_In; eauto).
    destruct (Hfd x Hin) as (Fxx & z & Hz & Hzx). split; [exact Fy|]. split; [exact Fxx|]. rewrite Ry.
    rewrite (rd_five_decimals _ z Hz Hzx). unfold clamp.
    destruct Hmn as (_ & Hmn & _), Hmx as (_ & Hmx & _). rewrite Forall_forall in Hmn, Hmx.
    specialize (Hmn x Hin). specialize (Hmx x Hin). rewrite Rmax_left, Rmin_left; lra. }
  clear -Hkey H2. unfold same_series. revert out H2 Hkey. induction data as [|x data IH]; intros [|y out] H2 Hkey; try discriminate; constructor.
  - destruct (Hkey 0%nat x eq_refl) as (y' & Hy & Hv). cbn in Hy. injection Hy as <-. exact Hv.
  - apply IH; [now injection H2|]. intros k z Hz. exact (Hkey (S k) z Hz).
Qed.
Print Assumptions C19_stored_everything_exact.

Theorem C19_integer_series_exact : forall e p data bytes f,
  data <> [] -> Z.of_nat (length data) <= 2 ^ 53 ->
  Forall (fun x => exists z, is_int x z /\ Z.abs z <= 2 ^ 33) data ->
  produced_usable e p Polynomial data bytes ->
  decode_unwrap dec_poly bytes = Ok f -> length (pl_points f) = length data ->
  exists out, decompress e p Polynomial (length data) bytes = Ok out /\ same_series out data.
Proof.
  intros e p data bytes f Hne Hn Hi. apply C19_stored_everything_exact; auto; (eapply Forall_impl; [|exact Hi]); intros x (z & Hz & Hr).
  - destruct Hz as [F R]. split; [exact F|]. rewrite R. split.
    + destruct (Z.eq_dec z 0) as [->|Hnz]; [now left|right].
      apply Rle_trans with 1%R; [change 1%R with (bpow radix2 0); apply bpow_le; lia|]. rewrite <- abs_IZR. apply IZR_le. lia.
    + split; [apply IZR_le; lia|apply IZR_lt; lia].
  - eapply int_five_decimals; eauto.
Qed.
Print Assumptions C19_integer_series_exact.

(** Instance: the bound 0 forces everything to be stored. *)
Example C19_example : forall e,
  let data := ints [3; 1; 4; 1; 5; 9; 2; 6; 5; 3; 5; 8] in
  (do r <- compress_results e Dev Polynomial data (int_as_f64 0); do f <- decode_unwrap dec_poly (cr_data r);
   do o <- decompress e Dev Polynomial 12 (cr_data r); Ok (length (pl_points f), map to_bits o))
  = Ok (12%nat, map to_bits data).
Proof. intros. vm_compute. reflexivity. Qed.

(** More than five decimals are lost although everything is stored and the reported error is 0:
    0.123456789 comes back as 0.12346. *)
Theorem C19_fractional_refuted : forall e,
  let x := fdiv (int_as_f64 123456789) (int_as_f64 1000000000) in
  let data := [x; fdiv (int_as_f64 2) (int_as_f64 10); f_tenth] in
  (do r <- compress_results e Dev Polynomial data (int_as_f64 0); do f <- decode_unwrap dec_poly (cr_data r);
   do o <- decompress e Dev Polynomial 3 (cr_data r); Ok (length (pl_points f), to_bits (cr_error r), map to_bits (firstn 1 o)))
  = Ok (3%nat, to_bits f0, map to_bits [fdiv (int_as_f64 12346) (int_as_f64 100000)]) /\
  to_bits x <> to_bits (fdiv (int_as_f64 12346) (int_as_f64 100000)).
Proof. intros. split; [vm_compute; reflexivity|vm_compute; discriminate]. Qed.
Print Assumptions C19_fractional_refuted.
