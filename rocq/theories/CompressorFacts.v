(** Facts about noop, constant and RLE. *)
From Coq Require Import List ZArith Bool Lia Reals Lra Permutation Sorted.
From Coq Require Import ZifyBool.
From Flocq Require Import Core IEEE754.BinarySingleNaN IEEE754.Binary IEEE754.Bits.
From Verif Require Import Base Model_Float Model_Bincode Model_Stats Model_Compressors Spec
  FloatFacts BincodeFacts StatsFacts StreamFacts.
Import ListNotations.
Open Scope Z_scope.

(** * Samples stored at a given width *)
Definition conv (b : bitdepth) (x : f64) : f64 :=
  match b with
  | BU8 => int_as_f64 (f64_as_u8 x)
  | BI16 => int_as_f64 (f64_as_i16 x)
  | BI32 => int_as_f64 (f64_as_i32 x)
  | BF64 => x
  end.

Lemma f64_as_int_idem lo hi x : lo <= 0 <= hi -> - 2 ^ 53 <= lo -> hi <= 2 ^ 53 ->
  f64_as_int lo hi (int_as_f64 (f64_as_int lo hi x)) = f64_as_int lo hi x.
Proof.
  intros H1 H2 H3. pose proof (f64_as_int_range lo hi x H1) as Hr.
  destruct (int_as_f64_exact (f64_as_int lo hi x)) as [HR HF]; [lia|].
  apply f64_as_int_exact; try assumption.
Qed.

Lemma conv_idem b x : conv b (conv b x) = conv b x.
Proof.
  destruct b; cbn [conv]; [reflexivity| | |];
    unfold f64_as_i32, f64_as_i16, f64_as_u8; rewrite f64_as_int_idem; reflexivity || lia.
Qed.

Lemma enc_sample_conv b x : enc_sample b (conv b x) = enc_sample b x.
Proof.
  destruct b; cbn [conv enc_sample]; [reflexivity| | |];
    unfold f64_as_i32, f64_as_i16, f64_as_u8; rewrite f64_as_int_idem; reflexivity || lia.
Qed.

Lemma codec_sample b : codec (enc_sample b) (dec_sample b) (fun x => conv b x = x).
Proof.
  assert (H8 : forall x, byte_ok (f64_as_u8 x)).
  { intros x. unfold byte_ok, f64_as_u8. pose proof (f64_as_int_range 0 255 x). lia. }
  assert (H16 : forall x, in_s 16 (f64_as_i16 x)).
  { intros x. unfold in_s, f64_as_i16. pose proof (f64_as_int_range (- 2 ^ 15) (2 ^ 15 - 1) x). lia. }
  assert (H32 : forall x, in_s 32 (f64_as_i32 x)).
  { intros x. unfold in_s, f64_as_i32. pose proof (f64_as_int_range (- 2 ^ 31) (2 ^ 31 - 1) x). lia. }
  destruct b; cbn [enc_sample dec_sample conv].
  - eapply codec_weaken; [apply codec_f64|intros; exact I].
  - split; cbn [enc_sample].
    + intros x rest Hx. rewrite (bind_round _ _ _ _ _ _ codec_i32) by apply H32. unfold dret. now rewrite Hx.
    + intros x q Hx Hq. rewrite <- (app_nil_r (enc_i32 _)) in Hq.
      eapply (bind_prefix _ _ _ _ _ _ _ codec_i32 (H32 x) Hq). intros r Hr. now apply strict_prefix_nil in Hr.
    + intros x _. apply (cd_nonempty _ _ _ codec_i32), H32.
    + intros x _. apply (cd_bytes _ _ _ codec_i32), H32.
  - split; cbn [enc_sample].
    + intros x rest Hx. rewrite (bind_round _ _ _ _ _ _ codec_i16) by apply H16. unfold dret. now rewrite Hx.
    + intros x q Hx Hq. rewrite <- (app_nil_r (enc_i16 _)) in Hq.
      eapply (bind_prefix _ _ _ _ _ _ _ codec_i16 (H16 x) Hq). intros r Hr. now apply strict_prefix_nil in Hr.
    + intros x _. apply (cd_nonempty _ _ _ codec_i16), H16.
    + intros x _. apply (cd_bytes _ _ _ codec_i16), H16.
  - split; cbn [enc_sample].
    + intros x rest Hx. rewrite (bind_round _ _ _ _ _ _ codec_u8) by apply H8. unfold dret. now rewrite Hx.
    + intros x q Hx Hq. rewrite <- (app_nil_r (enc_u8 _)) in Hq.
      eapply (bind_prefix _ _ _ _ _ _ _ codec_u8 (H8 x) Hq). intros r Hr. now apply strict_prefix_nil in Hr.
    + intros x _. apply (cd_nonempty _ _ _ codec_u8), H8.
    + intros x _. apply (cd_bytes _ _ _ codec_u8), H8.
Qed.

Lemma dec_sample_round b x rest : dec_sample b (enc_sample b x ++ rest) = DOk (conv b x) rest.
Proof.
  rewrite <- enc_sample_conv. apply (cd_round _ _ _ (codec_sample b)). apply conv_idem.
Qed.

(** A width that holds the integer keeps the value. *)
Lemma conv_value b x : finite x ->
  (b <> BF64 -> exists z, is_int x z /\ width_range b z) -> same_value (conv b x) x.
Proof.
  intros Hx H. unfold same_value.
  assert (Hgo : forall lo hi z, lo <= 0 <= hi -> lo <= z <= hi -> - 2 ^ 53 <= lo -> hi <= 2 ^ 53 -> is_int x z ->
     finite (int_as_f64 (f64_as_int lo hi x)) /\ finite x /\ R64 (int_as_f64 (f64_as_int lo hi x)) = R64 x).
  { intros lo hi z H1 H2 H3 H4 [_ Hz]. rewrite (f64_as_int_exact lo hi x z) by assumption.
    destruct (int_as_f64_exact z) as [HR HF]; [lia|]. repeat split; [exact HF|exact Hx|congruence]. }
  destruct b; cbn [conv width_range] in *.
  - repeat split; assumption.
  - destruct (H ltac:(discriminate)) as (z & Hz & Hr). apply (Hgo _ _ z); try lia; assumption.
  - destruct (H ltac:(discriminate)) as (z & Hz & Hr). apply (Hgo _ _ z); try lia; assumption.
  - destruct (H ltac:(discriminate)) as (z & Hz & Hr). apply (Hgo _ _ z); try lia; assumption.
Qed.

Lemma stats_conv data st : Forall supported data -> data_stats data = Ok st ->
  Forall (fun x => same_value (conv (st_bitdepth st) x) x) data.
Proof.
  intros Hs H.
  assert (Hc : st_bitdepth st = BF64 \/ st_bitdepth st <> BF64) by (destruct (st_bitdepth st); [left|right..]; congruence).
  destruct Hc as [Hb|Hb].
  - rewrite Hb. eapply Forall_impl; [|exact Hs]. intros x Hx. apply conv_value; [apply Hx|congruence].
  - pose proof (bitdepth_safe data st Hs H Hb) as Hw. rewrite Forall_forall in *.
    intros x Hx. apply conv_value; [apply Hs, Hx|]. intros _. apply Hw, Hx.
Qed.

(** * Noop *)
Lemma noop_in_range x : in_s 64 (f64_as_i64 (fround x)).
Proof.
  unfold in_s, f64_as_i64. pose proof (f64_as_int_range (- 2 ^ 63) (2 ^ 63 - 1) (fround x)).
  change (64 - 1) with 63. lia.
Qed.

Lemma noop_roundtrip data n : Z.of_nat (length data) < 2 ^ 64 ->
  noop_to_data n (noop data) = Ok (map (fun x => int_as_f64 (f64_as_i64 (fround x))) data).
Proof.
  intros Hl. unfold noop_to_data, noop.
  rewrite (decode_unwrap_ok _ _ (noop_optimize data) []).
  - cbn [bind]. unfold noop_optimize. rewrite map_map. reflexivity.
  - unfold dec_noop. rewrite (bind_round _ _ _ _ _ _ codec_u8) by (unfold byte_ok, NOOP_COMPRESSOR_ID; lia).
    rewrite <- (app_nil_r (enc_vec _ _)).
    apply (cd_round _ _ _ (codec_vec _ _ _ codec_i64)). split.
    + unfold noop_optimize. apply Forall_map, Forall_forall. intros x _. apply noop_in_range.
    + unfold noop_optimize. now rewrite map_length.
Qed.

(** Nearest integer: ties away from zero. *)
Lemma ZnearestA_spec r : nearest_away r (ZnearestA r).
Proof.
  split.
  - rewrite Rabs_minus_sym. rewrite Rabs_minus_sym. apply Znearest_half.
  - intros Hh.
    unfold ZnearestA, Znearest in *.
    destruct (Req_dec r (IZR (Zfloor r))) as [Hi|Hni].
    { assert (IZR (Zceil r) = r) as Hc by (rewrite Hi at 1; rewrite Zceil_IZR; lra).
      destruct (Rcompare (r - IZR (Zfloor r)) (/ 2)); [destruct (Zle_bool 0 (Zfloor r))|..]; rewrite ?Hc, <- ?Hi in *; lra. }
    pose proof (Zceil_floor_neq r ltac:(intros HH; apply Hni; symmetry; exact HH)) as Hcf.
    pose proof (Zfloor_lb r). pose proof (Zfloor_ub r).
    assert (IZR (Zceil r) = IZR (Zfloor r) + 1)%R as Hc by (rewrite Hcf, plus_IZR; lra).
    destruct (Rcompare_spec (r - IZR (Zfloor r)) (/ 2)) as [Hl|He|Hg].
    + rewrite Rabs_pos_eq in Hh by lra. lra.
    + destruct (Zle_bool 0 (Zfloor r)) eqn:E.
      * apply Zle_bool_imp_le in E. apply IZR_le in E. rewrite !Rabs_pos_eq by lra. lra.
      * assert (Zfloor r <= -1) as E2 by (destruct (Z.leb_spec 0 (Zfloor r)); [unfold Zle_bool in E; congruence|lia]).
        apply IZR_le in E2. rewrite (Rabs_left (IZR (Zfloor r))) by lra.
        destruct (Rle_or_lt 0 r); [lra|]. rewrite Rabs_left by lra. lra.
    + rewrite Hc in Hh. rewrite Rabs_left1 in Hh by lra. lra.
Qed.

Lemma ZnearestA_IZR z : ZnearestA (IZR z) = z.
Proof. apply Zrnd_IZR. apply valid_rnd_N. Qed.

Lemma ZnearestA_bound r z : (Rabs r <= IZR z)%R -> Z.abs (ZnearestA r) <= z.
Proof.
  intros H. assert (- z <= ZnearestA r <= z); [|lia].
  assert (- IZR z <= r <= IZR z)%R as [H1 H2].
  { apply Rabs_le_inv. exact H. }
  split.
  - rewrite <- (ZnearestA_IZR (- z)). apply Zrnd_le; [apply valid_rnd_N|]. rewrite opp_IZR. exact H1.
  - rewrite <- (ZnearestA_IZR z). apply Zrnd_le; [apply valid_rnd_N|]. exact H2.
Qed.

(** What one sample becomes. *)
Definition noop_value (x : f64) : f64 := int_as_f64 (f64_as_i64 (fround x)).

Lemma noop_value_in_range x : finite x -> (IZR (- 2 ^ 63) <= R64 x < IZR (2 ^ 63))%R ->
  exists z, nearest_away (R64 x) z /\ is_int (noop_value x) z.
Proof.
  intros Hx [Hlo Hhi]. exists (ZnearestA (R64 x)). split; [apply ZnearestA_spec|].
  unfold noop_value, f64_as_i64.
  assert (Hf : fis_finite (fround x) = true) by (rewrite fround_finite; exact Hx).
  pose proof (fround_R x) as HR.
  assert (Hge : - 2 ^ 63 <= ZnearestA (R64 x)).
  { rewrite <- (ZnearestA_IZR (- 2 ^ 63)). apply Zrnd_le; [apply valid_rnd_N|exact Hlo]. }
  assert (Hle : ZnearestA (R64 x) <= 2 ^ 63 - 1).
  { (* x < 2^63 as a double is at most 2^63 - 1024 *)
    assert (R64 x <= IZR (2 ^ 63 - 1))%R.
    { destruct (Rle_or_lt (R64 x) (IZR (2 ^ 53))) as [Hs|Hb].
      { apply Rle_trans with (1 := Hs). apply IZR_le. lia. }
      (* above 2^53 every double is an integer *)
      destruct x as [s|s|s pl Hpl|s m e Hb2]; try discriminate.
      { change (IZR (2 ^ 53) < 0)%R in Hb. apply lt_IZR in Hb. lia. }
      rewrite finite_R in *. destruct (finite_bounds m e Hb2) as (He & Hm & _).
      assert (0 <= e).
      { destruct (Z_le_gt_dec 0 e) as [|Hn]; [assumption|]. exfalso.
        assert (IZR (signed s (Z.pos m)) * bpow radix2 e <= IZR (2 ^ 53) * 1)%R; [|lra].
        apply Rle_trans with (IZR (2 ^ 53) * bpow radix2 e)%R.
        - apply Rmult_le_compat_r; [apply bpow_ge_0|]. apply IZR_le. unfold signed. destruct s; lia.
        - apply Rmult_le_compat_l; [apply IZR_le; lia|]. change 1%R with (bpow radix2 0). apply bpow_le. lia. }
      rewrite <- IZR_pow2, <- mult_IZR in Hhi |- * by lia. apply lt_IZR in Hhi. apply IZR_le. lia. }
    rewrite <- (ZnearestA_IZR (2 ^ 63 - 1)). apply Zrnd_le; [apply valid_rnd_N|exact H]. }
  rewrite (f64_as_int_exact _ _ (fround x) (ZnearestA (R64 x))); [|lia|exact Hf|exact HR|lia].
  destruct (int_as_f64_correct (ZnearestA (R64 x))) as (H1 & H2 & _).
  { apply Z.le_trans with (2 ^ 63); [lia|]. apply Z.pow_le_mono_r; lia. }
  split; [exact H2|]. rewrite H1. rewrite <- HR. rewrite rnd64_R64. reflexivity.
Qed.

Lemma noop_value_big x : finite x -> (IZR (2 ^ 63) <= R64 x)%R -> is_int (noop_value x) (2 ^ 63).
Proof.
  intros Hx H. unfold noop_value, f64_as_i64.
  rewrite f64_as_int_R; [|lia|rewrite fround_finite; exact Hx].
  rewrite fround_R, Ztrunc_IZR.
  assert (2 ^ 63 <= ZnearestA (R64 x)).
  { rewrite <- (ZnearestA_IZR (2 ^ 63)). apply Zrnd_le; [apply valid_rnd_N|exact H]. }
  replace (Z.max (- 2 ^ 63) (Z.min (2 ^ 63 - 1) (ZnearestA (R64 x)))) with (2 ^ 63 - 1) by lia.
  split; [vm_compute; reflexivity|].
  replace (int_as_f64 (2 ^ 63 - 1)) with (B754_finite 53 1024 false 4503599627370496 11 eq_refl)
    by (apply to_bits_inj; vm_compute; reflexivity).
  rewrite finite_R. unfold signed. rewrite <- IZR_pow2, <- mult_IZR by lia. reflexivity.
Qed.

Lemma noop_value_small x : finite x -> (R64 x < IZR (- 2 ^ 63))%R -> is_int (noop_value x) (- 2 ^ 63).
Proof.
  intros Hx H. unfold noop_value, f64_as_i64.
  rewrite f64_as_int_R; [|lia|rewrite fround_finite; exact Hx].
  rewrite fround_R, Ztrunc_IZR.
  assert (ZnearestA (R64 x) <= - 2 ^ 63).
  { rewrite <- (ZnearestA_IZR (- 2 ^ 63)). apply Zrnd_le; [apply valid_rnd_N|lra]. }
  replace (Z.max (- 2 ^ 63) (Z.min (2 ^ 63 - 1) (ZnearestA (R64 x)))) with (- 2 ^ 63) by lia.
  split; [vm_compute; reflexivity|].
  replace (int_as_f64 (- 2 ^ 63)) with (B754_finite 53 1024 true 4503599627370496 11 eq_refl)
    by (apply to_bits_inj; vm_compute; reflexivity).
  rewrite finite_R. unfold signed. rewrite <- IZR_pow2, <- mult_IZR by lia. reflexivity.
Qed.

Lemma noop_value_special x : finite x \/
  (fis_nan x = true /\ noop_value x = int_as_f64 0) \/
  (x = B754_infinity 53 1024 false /\ noop_value x = int_as_f64 (2 ^ 63 - 1)) \/
  (x = B754_infinity 53 1024 true /\ noop_value x = int_as_f64 (- 2 ^ 63)).
Proof.
  destruct x as [s|s|s pl H|s m e H]; [left; reflexivity| |right; left; split; reflexivity|left; reflexivity].
  destruct s; [right; right; right|right; right; left]; split; reflexivity.
Qed.

(** * Constant *)
Lemma constant_roundtrip data st n :
  data_stats data = Ok st ->
  constant_to_data n (cr_data (constant_compressor data st)) = Ok (repeat (conv (st_bitdepth st) (st_min st)) n).
Proof.
  intros _. unfold constant_to_data, constant_compressor. cbn [cr_data]. unfold enc_constant.
  rewrite (decode_unwrap_ok _ _ (conv (st_bitdepth st) (st_min st)) []); [reflexivity|].
  unfold dec_constant.
  rewrite (bind_round _ _ _ _ _ _ codec_u8) by (unfold byte_ok, CONSTANT_COMPRESSOR_ID; lia).
  rewrite (bind_round _ _ _ _ _ _ codec_bitdepth) by trivial.
  rewrite <- (app_nil_r (enc_sample _ _)). apply dec_sample_round.
Qed.

Lemma same_value_trans x y z : same_value x y -> same_value y z -> same_value x z.
Proof. intros (H1 & H2 & H3) (H4 & H5 & H6). repeat split; try assumption. congruence. Qed.
Lemma same_value_sym x y : same_value x y -> same_value y x.
Proof. intros (H1 & H2 & H3). repeat split; congruence. Qed.
Lemma same_value_feq x y : finite x -> feq x y = true <-> same_value x y.
Proof.
  intros Hx. split.
  - intros H. assert (Hy := feq_finite_l x y H Hx). apply feq_R in H; auto. repeat split; assumption.
  - intros (H1 & H2 & H3). apply feq_R; assumption.
Qed.

Lemma constant_lossless data c : data <> [] -> supported c -> Forall (fun x => same_value x c) data ->
  exists st out, data_stats data = Ok st /\
    constant_to_data (length data) (cr_data (constant_compressor data st)) = Ok out /\
    same_series out data.
Proof.
  intros Hne Hc Hd. destruct (data_stats_total data Hne) as [st Hst].
  exists st, (repeat (conv (st_bitdepth st) (st_min st)) (length data)).
  split; [exact Hst|]. split; [now apply constant_roundtrip|].
  assert (Hs : Forall supported data).
  { eapply Forall_impl; [|exact Hd]. intros x (H1 & H2 & H3). destruct Hc as (Hc1 & Hc2 & Hc3).
    unfold supported. rewrite H3. auto. }
  assert (Hfin : Forall finite data) by (eapply Forall_impl; [|exact Hs]; apply supported_finite).
  destruct (data_stats_ok data st Hfin Hst) as (_ & Hmin & _).
  apply min_at_in in Hmin.
  pose proof (stats_conv data st Hs Hst) as Hconv. rewrite Forall_forall in Hconv, Hd.
  assert (Hcc : same_value (conv (st_bitdepth st) (st_min st)) c)
    by (eapply same_value_trans; [apply Hconv, Hmin|apply Hd, Hmin]).
  generalize (conv (st_bitdepth st) (st_min st)) Hcc. intros k Hk.
  clear - Hd Hk. assert (Hd' : Forall (fun x => same_value x c) data) by (apply Forall_forall; exact Hd).
  clear Hd. induction Hd' as [|x l Hx Hl IH]; cbn [length repeat]; constructor; [|exact IH].
  eapply same_value_trans; [exact Hk|]. apply same_value_sym, Hx.
Qed.

(** * RLE *)

(** Runs in order: (start, last value). *)
Fixpoint runs (data : list f64) (i cur : Z) : list (Z * f64) :=
  match data with
  | [] => []
  | v :: rest =>
      let ends := match rest with [] => true | next :: _ => fne next v end in
      if ends then (cur, v) :: runs rest (i + 1) (i + 1) else runs rest (i + 1) cur
  end.

Definition flat {A} (l : list (A * list Z)) : list (Z * A) :=
  flat_map (fun '(v, idx) => map (fun i => (i, v)) idx) l.

Lemma bt_push_perm key idx m :
  Permutation (flat (bt_push key idx m)) ((idx, key) :: flat m).
Proof.
  induction m as [|[k l] m IH]; cbn [bt_push].
  - reflexivity.
  - destruct (key <? k); [reflexivity|]. destruct (Z.eqb_spec key k) as [->|Hne].
    + cbn [flat flat_map]. fold (@flat Z). rewrite map_app. cbn [map].
      rewrite <- app_assoc. cbn [app]. apply Permutation_sym, Permutation_middle.
    + cbn [flat flat_map]. fold (@flat Z). change (flat_map _ (bt_push key idx m)) with (flat (bt_push key idx m)).
      rewrite IH. apply Permutation_sym, Permutation_middle.
Qed.

Lemma rle_scan_perm data i cur m :
  Permutation (flat (rle_scan data i cur m)) (map (fun '(j, v) => (j, to_bits v)) (runs data i cur) ++ flat m).
Proof.
  revert i cur m. induction data as [|v rest IH]; intros i cur m; cbn [rle_scan runs].
  - reflexivity.
  - destruct (match rest with [] => true | next :: _ => fne next v end).
    + rewrite IH. rewrite bt_push_perm. cbn [map app]. apply Permutation_sym, Permutation_middle.
    + apply IH.
Qed.

Lemma flat_map_fst {A B} (g : A -> B) (l : list (A * list Z)) :
  flat (map (fun '(v, idx) => (g v, idx)) l) = map (fun '(j, v) => (j, g v)) (flat l).
Proof.
  induction l as [|[v idx] l IH]; [reflexivity|].
  cbn [map flat flat_map]. rewrite map_app. unfold flat in IH. rewrite IH. f_equal.
  rewrite map_map. reflexivity.
Qed.

(** The decoded map: runs with the stored value. *)
Lemma flat_decoded b data :
  Permutation (flat (map (fun '(v, idx) => (conv b v, idx)) (rle_new data)))
    (map (fun '(j, v) => (j, conv b v)) (runs data 0 0)).
Proof.
  rewrite flat_map_fst. unfold rle_new. rewrite flat_map_fst. rewrite rle_scan_perm.
  cbn [flat flat_map]. rewrite app_nil_r. rewrite !map_map.
  erewrite map_ext; [reflexivity|]. intros [j v]. now rewrite from_bits_to_bits.
Qed.

(** Sorting. *)
Definition by_index (a b : Z * f64) : Prop := fst a < fst b.

Lemma insert_perm e l : Permutation (insert_by_index e l) (e :: l).
Proof.
  induction l as [|h l IH]; cbn [insert_by_index]; [reflexivity|].
  destruct (fst e <=? fst h); [reflexivity|]. rewrite IH. apply perm_swap.
Qed.
Lemma sort_perm l : Permutation (sort_by_index l) l.
Proof.
  induction l as [|e l IH]; cbn; [reflexivity|]. rewrite insert_perm. now constructor.
Qed.
Lemma insert_sorted e l : StronglySorted (fun a b => fst a <= fst b) l ->
  StronglySorted (fun a b => fst a <= fst b) (insert_by_index e l).
Proof.
  induction 1 as [|h l Hs IH Hf]; cbn [insert_by_index].
  - repeat constructor.
  - destruct (fst e <=? fst h) eqn:E.
    + constructor; [constructor; assumption|]. constructor; [lia|].
      eapply Forall_impl; [|exact Hf]. cbn. intros a Ha. lia.
    + constructor; [exact IH|]. rewrite Forall_forall in *. intros x Hx.
      apply (Permutation_in _ (insert_perm e l)) in Hx. destruct Hx as [<-|Hx]; [lia|]. now apply Hf.
Qed.
Lemma sort_sorted l : StronglySorted (fun a b => fst a <= fst b) (sort_by_index l).
Proof. induction l; cbn; [constructor|now apply insert_sorted]. Qed.

Lemma sorted_unique l1 l2 : StronglySorted by_index l1 ->
  StronglySorted (fun a b : Z * f64 => fst a <= fst b) l2 -> Permutation l1 l2 -> l1 = l2.
Proof.
  intros H1. revert l2. induction H1 as [|a l1 Hs IH Hf]; intros l2 H2 Hp.
  - symmetry. now apply Permutation_nil.
  - destruct H2 as [|b l2 Hs2 Hf2].
    { apply Permutation_sym, Permutation_nil in Hp. discriminate. }
    assert (a = b).
    { rewrite Forall_forall in Hf, Hf2.
      assert (Ha : In a (b :: l2)) by (eapply Permutation_in; [exact Hp|now left]).
      assert (Hb : In b (a :: l1)) by (eapply Permutation_in; [apply Permutation_sym; exact Hp|now left]).
      destruct Ha as [->|Ha]; [reflexivity|]. destruct Hb as [->|Hb]; [reflexivity|].
      specialize (Hf b Hb). specialize (Hf2 a Ha). unfold by_index in Hf. cbn in Hf2. lia. }
    subst b. f_equal. apply IH; [exact Hs2|]. now apply Permutation_cons_inv in Hp.
Qed.

Lemma runs_ge data i cur : 0 <= cur <= i -> Forall (fun p => cur <= fst p) (runs data i cur).
Proof.
  revert i cur. induction data as [|v rest IH]; intros i cur H; cbn [runs]; [constructor|].
  destruct (match rest with [] => true | next :: _ => fne next v end).
  - constructor; [cbn; lia|]. eapply Forall_impl; [|apply IH; lia]. cbn. intros; lia.
  - apply IH. lia.
Qed.

Lemma runs_sorted data i cur : 0 <= cur <= i -> StronglySorted by_index (runs data i cur).
Proof.
  revert i cur. induction data as [|v rest IH]; intros i cur H; cbn [runs]; [constructor|].
  destruct (match rest with [] => true | next :: _ => fne next v end).
  - constructor; [apply IH; lia|]. eapply Forall_impl; [|apply runs_ge; lia]. unfold by_index. cbn. intros; lia.
  - apply IH. lia.
Qed.

Lemma sort_runs (g : f64 -> f64) data l :
  Permutation l (map (fun '(j, v) => (j, g v)) (runs data 0 0)) ->
  sort_by_index l = map (fun '(j, v) => (j, g v)) (runs data 0 0).
Proof.
  intros H. symmetry. apply sorted_unique.
  - pose proof (runs_sorted data 0 0 ltac:(lia)) as Hs. revert Hs. generalize (runs data 0 0). intros r.
    induction 1 as [|[j v] r Hr IH Hf]; cbn [map]; constructor; [exact IH|].
    apply Forall_map. eapply Forall_impl; [|exact Hf]. intros [j' v']. exact (fun x => x).
  - apply sort_sorted.
  - rewrite <- H. apply Permutation_sym, sort_perm.
Qed.

(** Filling. *)
Lemma fill_range_length {A} i lo hi (v : A) l : length (fill_range i lo hi v l) = length l.
Proof. revert i; induction l; intros; cbn; auto. Qed.
Lemma fill_range_nth {A} i lo hi (v : A) l j x : nth_error l j = Some x ->
  nth_error (fill_range i lo hi v l) j =
  Some (if (lo <=? i + Z.of_nat j) && (i + Z.of_nat j <? hi) then v else x).
Proof.
  revert i j. induction l as [|a l IH]; intros i [|j] H; try discriminate.
  - cbn in H. injection H as ->. cbn. now rewrite Z.add_0_r.
  - cbn [fill_range nth_error] in *. rewrite (IH (i + 1) j H).
    replace (i + 1 + Z.of_nat j) with (i + Z.of_nat (S j)) by lia. reflexivity.
Qed.

Definition eqv (x y : f64) : Prop := feq x y = true \/ x = y.
Lemma eqv_feq x y z : eqv x y -> feq y z = true -> eqv x z.
Proof. intros [H| ->] H2; left; [eapply feq_trans; eauto|exact H2]. Qed.

Lemma runs_head data i cur : data <> [] -> exists v r, runs data i cur = (cur, v) :: r.
Proof.
  revert i cur. induction data as [|v rest IH]; intros i cur H; [congruence|]. cbn [runs].
  destruct rest as [|w rest]; [eauto|]. destruct (fne w v); [eauto|]. apply IH. discriminate.
Qed.

Lemma rle_fill_length N rs D : length (rle_fill N rs D) = length D.
Proof.
  revert D. induction rs as [|[s v] rs IH]; intros D; cbn [rle_fill]; [reflexivity|].
  rewrite IH. apply fill_range_length.
Qed.

Lemma rle_fill_spec (g : f64 -> f64) data : forall i cur D,
  0 <= cur <= i -> Z.of_nat (length D) = i + Z.of_nat (length data) ->
  let R := rle_fill (Z.of_nat (length D)) (map (fun '(j, v) => (j, g v)) (runs data i cur)) D in
  (forall j, Z.of_nat j < cur -> nth_error R j = nth_error D j) /\
  (forall j d0 rest, data = d0 :: rest -> cur <= Z.of_nat j < i ->
     exists v, In v data /\ nth_error R j = Some (g v) /\ eqv v d0) /\
  (forall j x, nth_error data j = Some x ->
     exists v, In v data /\ nth_error R (Z.to_nat i + j) = Some (g v) /\ eqv v x).
Proof.
  induction data as [|v rest IH]; intros i cur D Hc Hl R.
  - cbn in R. subst R. repeat split; intros; try discriminate. destruct j; discriminate.
  - cbn [length] in Hl. rewrite Nat2Z.inj_succ in Hl.
    remember (match rest with [] => true | next :: _ => fne next v end) as ends eqn:Ee.
    destruct ends.
    + (* the run ends here *)
      assert (HR : R = rle_fill (Z.of_nat (length D)) (map (fun '(j, v) => (j, g v)) (runs rest (i + 1) (i + 1)))
                 (fill_range 0 cur (i + 1) (g v) D)).
      { subst R. cbn [runs]. rewrite <- Ee. cbn [map rle_fill]. f_equal. f_equal.
        destruct rest as [|w rest'].
        - cbn in *. lia.
        - destruct (runs_head (w :: rest') (i + 1) (i + 1) ltac:(discriminate)) as (v' & r' & ->). reflexivity. }
      rewrite HR. clear R HR.
      specialize (IH (i + 1) (i + 1) (fill_range 0 cur (i + 1) (g v) D) ltac:(lia)).
      rewrite fill_range_length in IH. specialize (IH ltac:(lia)). cbv zeta in IH.
      destruct IH as (IH1 & _ & IH3).
      assert (HD : forall j, Z.of_nat j < i + 1 -> exists x, nth_error D j = Some x).
      { intros j Hj. destruct (nth_error D j) eqn:E; [eauto|]. apply nth_error_None in E. lia. }
      repeat split.
      * intros j Hj. rewrite IH1 by lia. destruct (HD j ltac:(lia)) as [x Hx].
        rewrite (fill_range_nth 0 cur (i + 1) (g v) D j x Hx), Hx. cbn [Z.add].
        assert ((cur <=? Z.of_nat j) && (Z.of_nat j <? i + 1) = false) as -> by lia. reflexivity.
      * intros j d0 rest0 Heq Hj. injection Heq as <- <-. exists v. split; [now left|]. split; [|right; reflexivity].
        rewrite IH1 by lia. destruct (HD j ltac:(lia)) as [x Hx].
        rewrite (fill_range_nth 0 cur (i + 1) (g v) D j x Hx). cbn [Z.add].
        assert ((cur <=? Z.of_nat j) && (Z.of_nat j <? i + 1) = true) as -> by lia. reflexivity.
      * intros [|j] x Hx.
        -- cbn in Hx. injection Hx as <-. exists v. split; [now left|]. split; [|right; reflexivity].
           rewrite Nat.add_0_r. rewrite IH1 by lia. destruct (HD (Z.to_nat i) ltac:(lia)) as [x Hx].
           rewrite (fill_range_nth 0 cur (i + 1) (g v) D (Z.to_nat i) x Hx). cbn [Z.add].
           assert ((cur <=? Z.of_nat (Z.to_nat i)) && (Z.of_nat (Z.to_nat i) <? i + 1) = true) as -> by lia.
           reflexivity.
        -- cbn [nth_error] in Hx. destruct (IH3 j x Hx) as (v' & Hv' & Hn & Hq).
           exists v'. split; [now right|]. split; [|exact Hq].
           replace (Z.to_nat i + S j)%nat with (Z.to_nat (i + 1) + j)%nat by lia. exact Hn.
    + (* the run goes on *)
      destruct rest as [|w rest']; [discriminate|].
      assert (Hwv : feq w v = true) by (unfold fne in Ee; destruct (feq w v); [reflexivity|discriminate]).
      assert (HR : R = rle_fill (Z.of_nat (length D)) (map (fun '(j, v) => (j, g v)) (runs (w :: rest') (i + 1) cur)) D).
      { subst R. cbn [runs]. cbn [runs] in *. rewrite <- Ee. reflexivity. }
      rewrite HR. clear R HR.
      specialize (IH (i + 1) cur D ltac:(lia) ltac:(lia)). cbv zeta in IH.
      destruct IH as (IH1 & IH2 & IH3).
      repeat split.
      * exact IH1.
      * intros j d0 rest0 Heq Hj. injection Heq as <- <-.
        destruct (IH2 j w rest' eq_refl ltac:(lia)) as (v' & Hv' & Hn & Hq).
        exists v'. split; [now right|]. split; [exact Hn|]. eapply eqv_feq; eauto.
      * intros [|j] x Hx.
        -- cbn in Hx. injection Hx as <-.
           destruct (IH2 (Z.to_nat i) w rest' eq_refl ltac:(lia)) as (v' & Hv' & Hn & Hq).
           exists v'. split; [now right|]. rewrite Nat.add_0_r. split; [exact Hn|]. eapply eqv_feq; eauto.
        -- cbn [nth_error] in Hx. destruct (IH3 j x Hx) as (v' & Hv' & Hn & Hq).
           exists v'. split; [now right|]. split; [|exact Hq].
           replace (Z.to_nat i + S j)%nat with (Z.to_nat (i + 1) + j)%nat by lia. exact Hn.
Qed.

Lemma Forall2_nth {A B} (P : A -> B -> Prop) l1 l2 : length l1 = length l2 ->
  (forall j x, nth_error l2 j = Some x -> exists y, nth_error l1 j = Some y /\ P y x) ->
  Forall2 P l1 l2.
Proof.
  revert l2. induction l1 as [|a l1 IH]; intros [|b l2] Hl H; try discriminate; constructor.
  - destruct (H 0%nat b eq_refl) as (y & Hy & Hp). cbn in Hy. congruence.
  - apply IH; [cbn in Hl; lia|]. intros j x Hj. exact (H (S j) x Hj).
Qed.

(** Storing at width [b] and expanding: every sample comes from a stored value equal to it. *)
Lemma rle_expand_spec b data :
  Forall2 (fun y x => exists v, In v data /\ y = conv b v /\ eqv v x)
    (rle_expand (map (fun '(v, idx) => (conv b v, idx)) (rle_new data)) (length data)) data.
Proof.
  unfold rle_expand. fold (@flat f64).
  change (flat_map _ (map (fun '(v, idx) => (conv b v, idx)) (rle_new data)))
    with (flat (map (fun '(v, idx) => (conv b v, idx)) (rle_new data))).
  rewrite (sort_runs (conv b) data _ (flat_decoded b data)).
  apply Forall2_nth.
  - rewrite rle_fill_length, repeat_length. reflexivity.
  - intros j x Hx.
    pose proof (rle_fill_spec (conv b) data 0 0 (repeat f0 (length data)) ltac:(lia)) as H.
    rewrite repeat_length in H. specialize (H ltac:(lia)). cbv zeta in H. destruct H as (_ & _ & H).
    destruct (H j x Hx) as (v & Hv & Hn & Hq). exists (conv b v). split; [exact Hn|]. eauto.
Qed.

(** The wire format. *)
Definition rle_ok (b : bitdepth) (e : f64 * list Z) : Prop :=
  conv b (fst e) = fst e /\ vec_ok (in_u 64) (snd e).

Lemma codec_rle_entry b : codec (enc_rle_entry b) (dec_rle_entry b) (rle_ok b).
Proof.
  pose proof (codec_vec _ _ _ codec_usize) as HV.
  split.
  - intros [v idx] rest [Hv Hi]. cbn [fst snd] in *. unfold enc_rle_entry, dec_rle_entry. cbn [fst snd].
    rewrite <- app_assoc. rewrite (bind_round _ _ _ _ _ _ (codec_sample b)) by exact Hv.
    rewrite (bind_round _ _ _ _ _ _ HV) by exact Hi. reflexivity.
  - intros [v idx] p [Hv Hi] Hp. cbn [fst snd] in *. unfold enc_rle_entry in Hp. cbn [fst snd] in Hp.
    unfold dec_rle_entry.
    eapply (bind_prefix _ _ _ _ _ _ _ (codec_sample b) Hv Hp). intros q Hq.
    rewrite <- (app_nil_r (enc_vec enc_usize idx)) in Hq.
    eapply (bind_prefix _ _ _ _ _ _ _ HV Hi Hq). intros r Hr. now apply strict_prefix_nil in Hr.
  - intros [v idx] [Hv Hi]. unfold enc_rle_entry. apply bind_nonempty, (cd_nonempty _ _ _ (codec_sample b)), Hv.
  - intros [v idx] [Hv Hi]. unfold enc_rle_entry, bytes_ok. apply Forall_app. split.
    + apply (cd_bytes _ _ _ (codec_sample b)), Hv.
    + apply (cd_bytes _ _ _ HV), Hi.
Qed.

Lemma runs_lt data i cur : 0 <= cur <= i ->
  Forall (fun p => 0 <= fst p < i + Z.of_nat (length data)) (runs data i cur).
Proof.
  revert i cur. induction data as [|v rest IH]; intros i cur H; cbn [runs]; [constructor|].
  cbn [length]. destruct (match rest with [] => true | next :: _ => fne next v end).
  - constructor; [cbn; lia|]. eapply Forall_impl; [|apply (IH (i + 1) (i + 1)); lia]. cbn. intros; lia.
  - eapply Forall_impl; [|apply (IH (i + 1) cur); lia]. cbn. intros; lia.
Qed.
Lemma runs_length data i cur : (length (runs data i cur) <= length data)%nat.
Proof.
  revert i cur. induction data as [|v rest IH]; intros i cur; cbn [runs]; [apply le_n|].
  destruct (match rest with [] => true | next :: _ => fne next v end); cbn [length].
  - specialize (IH (i + 1) (i + 1)). lia.
  - specialize (IH (i + 1) cur). lia.
Qed.

Lemma bt_push_nonempty key idx m : Forall (fun e => snd e <> []) m ->
  Forall (fun e : Z * list Z => snd e <> []) (bt_push key idx m).
Proof.
  induction 1 as [|[k l] m Hl Hm IH]; cbn [bt_push].
  - constructor; [discriminate|constructor].
  - destruct (key <? k); [constructor; [discriminate|constructor; assumption]|].
    destruct (key =? k); constructor; cbn [snd] in *; try assumption. now apply bind_nonempty.
Qed.
Lemma rle_scan_nonempty data i cur m : Forall (fun e => snd e <> []) m ->
  Forall (fun e : Z * list Z => snd e <> []) (rle_scan data i cur m).
Proof.
  revert i cur m. induction data as [|v rest IH]; intros i cur m H; cbn [rle_scan]; [exact H|].
  destruct (match rest with [] => true | next :: _ => fne next v end); apply IH; [now apply bt_push_nonempty|exact H].
Qed.

Lemma flat_length_ge {A} (l : list (A * list Z)) : Forall (fun e => snd e <> []) l -> (length l <= length (flat l))%nat.
Proof.
  induction 1 as [|[v idx] l Hi Hl IH]; [cbn; lia|]. cbn [flat flat_map length]. rewrite app_length, map_length.
  cbn in Hi. destruct idx; [congruence|]. cbn [length]. unfold flat in IH. lia.
Qed.
Lemma flat_entry_le {A} (l : list (A * list Z)) e : In e l -> (length (snd e) <= length (flat l))%nat.
Proof.
  induction l as [|[v idx] l IH]; intros H; [destruct H|]. cbn [flat flat_map]. rewrite app_length, map_length.
  destruct H as [<-|H]; [cbn; lia|]. specialize (IH H). unfold flat in IH. lia.
Qed.
Lemma flat_in {A} (l : list (A * list Z)) v idx j : In (v, idx) l -> In j idx -> In (j, v) (flat l).
Proof.
  intros H Hj. unfold flat. apply in_flat_map. exists (v, idx). split; [exact H|]. apply in_map_iff. eauto.
Qed.

Lemma rle_map_ok b data : Z.of_nat (length data) < 2 ^ 64 ->
  vec_ok (rle_ok b) (map (fun '(v, idx) => (conv b v, idx)) (rle_new data)).
Proof.
  intros Hl.
  pose proof (flat_decoded b data) as HP.
  pose proof (Permutation_length HP) as HPl. rewrite map_length in HPl.
  pose proof (runs_length data 0 0) as Hrl.
  split.
  - apply Forall_forall. intros [v idx] Hin. split.
    + cbn [fst]. apply in_map_iff in Hin. destruct Hin as ([v0 idx0] & Heq & _). injection Heq as <- <-. apply conv_idem.
    + cbn [snd]. split.
      * apply Forall_forall. intros j Hj. pose proof (flat_in _ v idx j Hin Hj) as Hf.
        apply (Permutation_in _ HP) in Hf. apply in_map_iff in Hf. destruct Hf as ([j0 v0] & Heq & Hr).
        injection Heq as <- <-. pose proof (runs_lt data 0 0 ltac:(lia)) as Hlt. rewrite Forall_forall in Hlt.
        specialize (Hlt _ Hr). cbn [fst] in Hlt. unfold in_u. clear - Hlt Hl. lia.
      * pose proof (flat_entry_le _ _ Hin) as He. cbn [snd] in He. lia.
  - assert (Hne : Forall (fun e : f64 * list Z => snd e <> []) (map (fun '(v, idx) => (conv b v, idx)) (rle_new data))).
    { unfold rle_new. rewrite map_map. apply Forall_map.
      pose proof (rle_scan_nonempty data 0 0 [] ltac:(constructor)) as H.
      eapply Forall_impl; [|exact H]. intros [k l]. exact (fun x => x). }
    pose proof (flat_length_ge _ Hne) as Hg. lia.
Qed.

Lemma enc_rle_conv b rle :
  enc_rle b (map (fun '(v, idx) => (conv b v, idx)) rle) = enc_rle b rle.
Proof.
  unfold enc_rle. do 2 f_equal. unfold enc_vec. rewrite map_length. f_equal.
  induction rle as [|[v idx] rle IH]; [reflexivity|]. cbn [map flat_map]. rewrite IH. f_equal.
  unfold enc_rle_entry. cbn [fst snd]. now rewrite enc_sample_conv.
Qed.

Lemma rle_roundtrip data st n : Z.of_nat (length data) < 2 ^ 64 ->
  rle_to_data n (cr_data (rle_compressor data st)) =
  Ok (rle_expand (map (fun '(v, idx) => (conv (st_bitdepth st) v, idx)) (rle_new data)) n).
Proof.
  intros Hl. unfold rle_to_data, rle_compressor. cbn [cr_data]. rewrite <- enc_rle_conv. unfold enc_rle.
  rewrite (decode_unwrap_ok _ _ (map (fun '(v, idx) => (conv (st_bitdepth st) v, idx)) (rle_new data)) []).
  - reflexivity.
  - unfold dec_rle.
    rewrite (bind_round _ _ _ _ _ _ codec_u8) by (unfold byte_ok, RLE_COMPRESSOR_ID; lia).
    rewrite (bind_round _ _ _ _ _ _ codec_bitdepth) by trivial.
    rewrite <- (app_nil_r (enc_vec _ _)).
    apply (cd_round _ _ _ (codec_vec _ _ _ (codec_rle_entry (st_bitdepth st)))).
    now apply rle_map_ok.
Qed.

Lemma Forall2_impl_in {A B} (P Q : A -> B -> Prop) l1 l2 :
  (forall a b, In b l2 -> P a b -> Q a b) -> Forall2 P l1 l2 -> Forall2 Q l1 l2.
Proof.
  intros H HF. induction HF as [|a b l1 l2 Hab Hl IH]; constructor.
  - apply H; [now left|exact Hab].
  - apply IH. intros a' b' Hb'. apply H. now right.
Qed.

Lemma rle_lossless data st : Z.of_nat (length data) < 2 ^ 64 -> Forall supported data ->
  data_stats data = Ok st ->
  exists out, rle_to_data (length data) (cr_data (rle_compressor data st)) = Ok out /\ same_series out data.
Proof.
  intros Hl Hs Hst. eexists. split; [now apply rle_roundtrip|].
  pose proof (stats_conv data st Hs Hst) as Hc. rewrite Forall_forall in Hc, Hs.
  eapply Forall2_impl_in; [|apply rle_expand_spec]. cbn beta.
  intros y x Hx (v & Hv & -> & Hq).
  eapply same_value_trans; [apply Hc, Hv|].
  destruct Hq as [Hq| ->].
  - apply same_value_feq; [apply Hs, Hv|exact Hq].
  - apply same_value_feq; [apply Hs, Hx|]. apply feq_refl_finite, Hs, Hx.
Qed.

(** With full-width storage the result is right for every double, NaN included. *)
Lemma rle_lossless_f64 data st : Z.of_nat (length data) < 2 ^ 64 -> st_bitdepth st = BF64 ->
  exists out, rle_to_data (length data) (cr_data (rle_compressor data st)) = Ok out /\
    Forall2 (fun y x => feq y x = true \/ y = x) out data.
Proof.
  intros Hl Hb. eexists. split; [now apply rle_roundtrip|]. rewrite Hb.
  eapply Forall2_impl_in; [|apply rle_expand_spec]. cbn beta.
  intros y x Hx (v & Hv & -> & Hq). exact Hq.
Qed.
