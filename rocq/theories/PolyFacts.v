(** Facts about the polynomial / IDW compressor: sampling grid, wire format, shape of the
    result of compress_hinted. *)
From Coq Require Import List ZArith Bool Lia Reals Lra Sorted ZifyBool.
From Flocq Require Import Core IEEE754.BinarySingleNaN IEEE754.Binary IEEE754.Bits.
From Verif Require Import Base Model_Float Model_Bincode BincodeFacts Spec FloatFacts Model_Utils Model_Stats
  Model_Compressors Model_Polynomial StatsFacts StreamFacts CompressorFacts.
Import ListNotations.
Open Scope Z_scope.
Local Ltac Zify.zify_post_hook ::= Z.div_mod_to_equations.

(** The sampling positions, computed on integers. *)
Definition grid (n s : Z) : list Z :=
  step_range n s ++ (if (n - 1) mod s =? 0 then [] else [n - 1]).

Lemma last_opt_snoc {A} (l : list A) x : last_opt (l ++ [x]) = Some x.
Proof. unfold last_opt. rewrite rev_app_distr. reflexivity. Qed.

Lemma last_opt_map {A B} (f : A -> B) l : last_opt (map f l) = option_map f (last_opt l).
Proof. unfold last_opt. rewrite <- map_rev. destruct (rev l); reflexivity. Qed.

Lemma step_range_count n s : 1 <= n -> 1 <= s -> (n + s - 1) / s = (n - 1) / s + 1.
Proof.
  intros Hn Hs. replace (n + s - 1) with (n - 1 + 1 * s) by lia. rewrite Z.div_add by lia. reflexivity.
Qed.

Lemma step_range_snoc n s : 1 <= n -> 1 <= s -> exists l,
  step_range n s = l ++ [(n - 1) / s * s].
Proof.
  intros Hn Hs. unfold step_range. rewrite step_range_count by assumption.
  assert (0 <= (n - 1) / s) by (apply Z.div_pos; lia).
  rewrite Z2Nat.inj_add by lia. rewrite seq_app, map_app. cbn [Z.to_nat Pos.to_nat Pos.iter_op seq map].
  eexists. f_equal. cbn [Nat.add]. change (Pos.to_nat 1) with 1%nat. cbn [seq map]. do 2 f_equal. lia.
Qed.

Lemma step_range_last n s : 1 <= n -> 1 <= s -> last_opt (step_range n s) = Some ((n - 1) / s * s).
Proof. intros Hn Hs. destruct (step_range_snoc n s Hn Hs) as [l ->]. apply last_opt_snoc. Qed.

Lemma step_last_eq n s : 1 <= n -> 1 <= s -> ((n - 1) / s * s =? n - 1) = ((n - 1) mod s =? 0).
Proof.
  intros Hn Hs. pose proof (Z.div_mod (n - 1) s ltac:(lia)). apply Bool.eq_true_iff_eq.
  rewrite !Z.eqb_eq. nia.
Qed.

Lemma in_step_range n s i : 1 <= n -> 1 <= s -> In i (step_range n s) <-> 0 <= i < n /\ (s | i).
Proof.
  intros Hn Hs. unfold step_range. rewrite in_map_iff. rewrite step_range_count by assumption.
  assert (Hq : 0 <= (n - 1) / s) by (apply Z.div_pos; lia).
  pose proof (Z.mul_div_le (n - 1) s ltac:(lia)) as Hle.
  split.
  - intros (k & <- & Hk). apply in_seq in Hk. split; [|now exists (Z.of_nat k)].
    assert (Z.of_nat k <= (n - 1) / s) by lia. nia.
  - intros [Hi [q ->]]. exists (Z.to_nat q). assert (0 <= q) by nia. split; [lia|]. apply in_seq.
    assert (q <= (n - 1) / s); [|lia]. apply Z.div_le_lower_bound; nia.
Qed.

Lemma seq_mul_sorted a m s : 1 <= s -> StronglySorted Z.lt (map (fun k => Z.of_nat k * s) (seq a m)).
Proof.
  intros Hs. revert a. induction m as [|m IH]; intros a; cbn [seq map]; constructor; [apply IH|].
  apply Forall_forall. intros x Hx. apply in_map_iff in Hx. destruct Hx as (k & <- & Hk). apply in_seq in Hk. nia.
Qed.

Lemma sorted_snoc l x : StronglySorted Z.lt l -> Forall (fun y => y < x) l -> StronglySorted Z.lt (l ++ [x]).
Proof.
  induction 1 as [|a l Hs IH Hf]; intros Hx; cbn [app]; [repeat constructor|].
  inversion Hx; subst. constructor; [auto|]. apply Forall_app. split; [assumption|]. repeat constructor; assumption.
Qed.

Lemma grid_spec n s : 1 <= n -> 1 <= s -> sampling_grid n s (grid n s).
Proof.
  intros Hn Hs. unfold grid. destruct (Z.eqb_spec ((n - 1) mod s) 0) as [E|E].
  - rewrite app_nil_r. split; [now apply seq_mul_sorted|]. intros i. rewrite in_step_range by assumption.
    assert (Hd : (s | n - 1)) by (apply Z.mod_divide; lia). intuition (subst; auto).
  - assert (Hnd : ~ (s | n - 1)) by (intros Hd; apply Z.mod_divide in Hd; lia).
    split.
    + apply sorted_snoc; [now apply seq_mul_sorted|]. apply Forall_forall. intros y Hy.
      change (In y (step_range n s)) in Hy. apply in_step_range in Hy; try assumption. destruct Hy as [Hy Hd].
      assert (y <> n - 1) by congruence. lia.
    + intros i. rewrite in_app_iff, in_step_range by assumption. cbn [In].
      split; [intros [H|[<-|[]]]|intros [H [H'|H']]]; auto; [tauto|split; auto; lia].
Qed.

(** The characterisation of the grid determines it. *)
Lemma sampling_grid_unique n s l1 l2 : sampling_grid n s l1 -> sampling_grid n s l2 -> l1 = l2.
Proof.
  intros [S1 I1] [S2 I2].
  assert (Hin : forall i, In i l1 <-> In i l2) by (intros i; rewrite I1, I2; reflexivity).
  clear I1 I2. revert l2 S2 Hin. induction S1 as [|a l1 S1 IH F1]; intros l2 S2 Hin.
  - destruct l2 as [|b l2]; [reflexivity|]. destruct (proj2 (Hin b)); now left.
  - destruct S2 as [|b l2 S2 F2]; [destruct (proj1 (Hin a)); now left|].
    rewrite Forall_forall in F1, F2.
    assert (a = b).
    { destruct (proj1 (Hin a) (or_introl eq_refl)) as [->|Ha]; [reflexivity|].
      destruct (proj2 (Hin b) (or_introl eq_refl)) as [->|Hb]; [reflexivity|].
      specialize (F1 _ Hb). specialize (F2 _ Ha). lia. }
    subst b. f_equal. apply IH; [assumption|]. intros i. split; intros Hi.
    + destruct (proj1 (Hin i) (or_intror Hi)) as [<-|]; [specialize (F1 _ Hi); lia|assumption].
    + destruct (proj2 (Hin i) (or_intror Hi)) as [<-|]; [specialize (F2 _ Hi); lia|assumption].
Qed.

Lemma get_positions_grid p c n : 1 <= n < 2 ^ 64 -> 1 <= pl_step c -> get_positions p c n = Ok (grid n (pl_step c)).
Proof.
  intros Hn Hs. unfold get_positions, grid.
  replace (pl_step c =? 0) with false by lia.
  assert (Ha : arith_u p 64 (n - 1) = Ok (n - 1)).
  { unfold arith_u. replace (in_ub 64 (n - 1)) with true; [reflexivity|]. unfold in_ub. lia. }
  rewrite Ha. cbn [bind]. rewrite step_range_last by lia. rewrite step_last_eq by lia.
  destruct ((n - 1) mod pl_step c =? 0); rewrite ?app_nil_r; reflexivity.
Qed.

Lemma int_as_f64_inj a b : Z.abs a <= 2 ^ 53 -> Z.abs b <= 2 ^ 53 -> feq (int_as_f64 a) (int_as_f64 b) = (a =? b).
Proof.
  intros Ha Hb. destruct (int_as_f64_exact a Ha) as [Ra Fa]. destruct (int_as_f64_exact b Hb) as [Rb Fb].
  apply Bool.eq_true_iff_eq. rewrite feq_R by assumption. rewrite Ra, Rb, Z.eqb_eq. split; [apply eq_IZR|congruence].
Qed.

Lemma Bsign_int z : Z.abs z <= 2 ^ 53 -> Binary.Bsign 53 1024 (int_as_f64 z) = (z <? 0).
Proof. intros H. apply int_as_f64_correct. assert (2 ^ 53 <= 2 ^ 1000) by (vm_compute; discriminate). lia. Qed.

(** Two finite doubles with the same value and sign are the same double. *)
Lemma f64_ext x y : finite x -> finite y -> R64 x = R64 y ->
  Binary.Bsign 53 1024 x = Binary.Bsign 53 1024 y -> x = y.
Proof. intros Hx Hy HR HS. exact (Binary.B2R_Bsign_inj 53 1024 x y Hx Hy HR HS). Qed.

Lemma last_position n : 1 <= n <= 2 ^ 53 -> fsub (int_as_f64 n) f1 = int_as_f64 (n - 1).
Proof.
  intros Hn. destruct (int_as_f64_exact n) as [Rn Fn]; [lia|].
  destruct (int_as_f64_exact (n - 1)) as [Rm Fm]; [lia|].
  assert (Hv : (R64 (int_as_f64 n) - R64 f1)%R = IZR (n - 1)) by (rewrite Rn, f1_R, minus_IZR; reflexivity).
  pose proof (Binary.Bminus_correct 53 1024 eq_refl eq_refl binop_nan_pl64 mode_NE (int_as_f64 n) f1 Fn f1_finite) as H.
  cbn [round_mode] in H. fold (R64 (int_as_f64 n)) (R64 f1) in H.
  change (Binary.B2R 53 1024 (int_as_f64 n)) with (R64 (int_as_f64 n)) in H.
  change (Binary.B2R 53 1024 f1) with (R64 f1) in H.
  rewrite Hv in H.
  rewrite rnd64_int in H by lia.
  rewrite Rlt_bool_true in H.
  2:{ rewrite <- Rm. apply Binary.abs_B2R_lt_emax. }
  destruct H as (H1 & H2 & H3). apply f64_ext; [exact H2|exact Fm|unfold R64 at 1, fsub, b64_minus; rewrite H1; symmetry; exact Rm|].
  unfold fsub, b64_minus. rewrite H3. rewrite (Bsign_int (n - 1)) by lia. rewrite (Bsign_int n) by lia.
  replace (n - 1 <? 0) with false by lia. replace (n <? 0) with false by lia.
  destruct (Rcompare_spec (IZR (n - 1)) 0) as [Hc|Hc|Hc]; try reflexivity.
  apply (lt_IZR _ 0) in Hc. lia.
Qed.

Lemma hinted_positions_grid n s : 1 <= n <= 2 ^ 53 -> 1 <= s -> hinted_positions n s = map int_as_f64 (grid n s).
Proof.
  intros Hn Hs. unfold hinted_positions, grid. rewrite last_position by assumption.
  rewrite last_opt_map, step_range_last by lia. cbn [option_map].
  assert (0 <= (n - 1) / s * s <= n - 1).
  { pose proof (Z.mul_div_le (n - 1) s ltac:(lia)). assert (0 <= (n - 1) / s) by (apply Z.div_pos; lia). nia. }
  rewrite int_as_f64_inj by lia. rewrite step_last_eq by lia.
  destruct ((n - 1) mod s =? 0); rewrite ?map_app, ?app_nil_r; reflexivity.
Qed.

Lemma usize_of_int z : 0 <= z <= 2 ^ 53 -> f64_as_usize (int_as_f64 z) = z.
Proof.
  intros Hz. destruct (int_as_f64_exact z) as [HR HF]; [lia|]. apply f64_as_int_exact; auto; lia.
Qed.

Lemma map_res_ok {A B} (f : A -> res B) (g : A -> B) l : (forall a, In a l -> f a = Ok (g a)) -> map_res f l = Ok (map g l).
Proof.
  induction l as [|a l IH]; intros H; [reflexivity|]. cbn [map_res map]. rewrite H by now left.
  rewrite IH by (intros; apply H; now right). reflexivity.
Qed.

Lemma map_res_map {A B C} (f : B -> res C) (h : A -> B) l : map_res f (map h l) = map_res (fun a => f (h a)) l.
Proof. induction l as [|a l IH]; [reflexivity|]. cbn [map map_res]. now rewrite IH. Qed.

Lemma grid_bounds n s i : 1 <= n -> 1 <= s -> In i (grid n s) -> 0 <= i < n.
Proof. intros Hn Hs Hi. apply (grid_spec n s Hn Hs) in Hi. apply Hi. Qed.

Definition pick (data : list f64) (ps : list Z) : list f64 := map (fun i => nth (Z.to_nat i) data f0) ps.

Lemma hinted_values data s : 1 <= Z.of_nat (length data) <= 2 ^ 53 -> 1 <= s ->
  map_res (fun f => index data (f64_as_usize f)) (hinted_positions (Z.of_nat (length data)) s)
  = Ok (pick data (grid (Z.of_nat (length data)) s)).
Proof.
  intros Hn Hs. rewrite hinted_positions_grid by assumption. rewrite map_res_map. apply map_res_ok.
  intros i Hi. apply grid_bounds in Hi; try lia. rewrite usize_of_int by lia. unfold index.
  rewrite (nth_error_nth' data f0) by lia. reflexivity.
Qed.

Lemma pick_sample_at data s : 1 <= Z.of_nat (length data) -> 1 <= s ->
  Forall2 (sample_at data) (grid (Z.of_nat (length data)) s) (pick data (grid (Z.of_nat (length data)) s)).
Proof.
  intros Hn Hs. assert (H : forall i, In i (grid (Z.of_nat (length data)) s) -> 0 <= i < Z.of_nat (length data))
    by (intros i; now apply grid_bounds).
  induction (grid (Z.of_nat (length data)) s) as [|i l IH]; cbn [pick map]; constructor.
  - specialize (H i (or_introl eq_refl)). split; [lia|]. apply nth_error_nth'. lia.
  - apply IH. intros j Hj. apply H. now right.
Qed.

Definition with_points (c : poly) (pts : list f64) (step : Z) : poly :=
  {| pl_id := pl_id c; pl_points := pts; pl_min := pl_min c; pl_max := pl_max c;
     pl_step := step; pl_error := pl_error c; pl_bitdepth := pl_bitdepth c |}.

Definition hint_step (data : list f64) (points : Z) : Z := Z.max (Z.of_nat (length data) / points) 1.

Lemma compress_hinted_ok c data points : feq (pl_max c) (pl_min c) = false ->
  1 <= Z.of_nat (length data) <= 2 ^ 53 -> 1 <= points ->
  compress_hinted c data points =
  Ok (with_points c (pick data (grid (Z.of_nat (length data)) (hint_step data points))) (wrap_u 8 (hint_step data points))).
Proof.
  intros Hm Hn Hp. unfold compress_hinted. rewrite Hm. replace (points =? 0) with false by lia.
  fold (hint_step data points).
  rewrite hinted_values by (unfold hint_step; lia). reflexivity.
Qed.

(** The step of the default point count and of every later round fits a byte. *)
Lemma hint_step_small data points : 1 <= Z.of_nat (length data) ->
  baseline_points (Z.of_nat (length data)) <= points -> 1 <= hint_step data points <= 133.
Proof.
  intros Hn Hp. unfold hint_step, baseline_points in *. set (n := Z.of_nat (length data)) in *.
  split; [lia|]. apply Z.max_lub; [|lia].
  assert (n / points <= 133); [|lia].
  destruct (n / 100 <=? 3) eqn:E; apply Z.div_le_upper_bound; try lia; nia.
Qed.

(** Wire format. *)
Lemma codec_ptype : codec enc_ptype dec_ptype (fun _ => True).
Proof. apply codec_tag; intros []; cbn; try lia; reflexivity. Qed.

Definition conv_poly (c : poly) : poly :=
  {| pl_id := pl_id c; pl_points := map (conv (pl_bitdepth c)) (pl_points c); pl_min := pl_min c; pl_max := pl_max c;
     pl_step := pl_step c; pl_error := None; pl_bitdepth := pl_bitdepth c |}.

Lemma enc_vec_conv b l : enc_vec (enc_sample b) (map (conv b) l) = enc_vec (enc_sample b) l.
Proof.
  unfold enc_vec. rewrite map_length. f_equal. induction l as [|x l IH]; [reflexivity|]. cbn [map flat_map].
  rewrite IH, enc_sample_conv. reflexivity.
Qed.

Lemma dec_enc_poly c rest : Z.of_nat (length (pl_points c)) < 2 ^ 64 -> 0 <= pl_step c < 256 ->
  dec_poly (enc_poly c ++ rest) = DOk (conv_poly c) rest.
Proof.
  intros Hl Hs. unfold enc_poly, dec_poly. rewrite <- enc_vec_conv. rewrite <- !app_assoc.
  rewrite (bind_round _ _ _ _ _ _ codec_ptype) by exact I.
  rewrite (bind_round _ _ _ _ _ _ codec_bitdepth) by exact I.
  rewrite (bind_round _ _ _ _ _ _ (codec_vec _ _ _ (codec_sample (pl_bitdepth c)))).
  2:{ split; [|rewrite map_length; exact Hl]. apply Forall_map. apply Forall_forall. intros x _. apply conv_idem. }
  rewrite (bind_round _ _ _ _ _ _ codec_f64) by exact I.
  rewrite (bind_round _ _ _ _ _ _ codec_f64) by exact I.
  rewrite (bind_round _ _ _ _ _ _ codec_u8) by (unfold byte_ok; exact Hs).
  reflexivity.
Qed.

Lemma decode_poly c : Z.of_nat (length (pl_points c)) < 2 ^ 64 -> 0 <= pl_step c < 256 ->
  decode_unwrap dec_poly (enc_poly c) = Ok (conv_poly c).
Proof.
  intros Hl Hs. apply (decode_unwrap_ok _ _ _ []). rewrite <- (app_nil_r (enc_poly c)) at 1. now apply dec_enc_poly.
Qed.

Lemma grid_length n s : 1 <= n -> 1 <= s -> Z.of_nat (length (grid n s)) <= n.
Proof.
  intros Hn Hs.
  assert (Hi : incl (grid n s) (map Z.of_nat (seq 0 (Z.to_nat n)))).
  { intros i Hi. apply grid_bounds in Hi; auto. apply in_map_iff. exists (Z.to_nat i). split; [lia|]. apply in_seq. lia. }
  apply NoDup_incl_length in Hi.
  - rewrite map_length, seq_length in Hi. lia.
  - clear Hi. destruct (grid_spec n s Hn Hs) as [Hss _]. induction Hss as [|a l Hl IH Hf]; constructor; [|assumption].
    intros Ha. rewrite Forall_forall in Hf. specialize (Hf _ Ha). lia.
Qed.

Lemma grid_one n : 1 <= n -> grid n 1 = map Z.of_nat (seq 0 (Z.to_nat n)).
Proof.
  intros Hn. unfold grid, step_range. rewrite Z.mod_1_r. cbn. rewrite app_nil_r.
  replace ((n + 1 - 1) / 1) with n by (rewrite Z.div_1_r; lia). apply map_ext. intros; lia.
Qed.

Lemma pick_all data : pick data (map Z.of_nat (seq 0 (length data))) = data.
Proof.
  unfold pick. rewrite map_map. rewrite (map_ext _ (fun i => nth i data f0)) by (intros; f_equal; lia).
  induction data as [|a l IH]; [reflexivity|]. cbn [length seq map nth]. f_equal.
  rewrite <- seq_shift, map_map. cbn [nth]. exact IH.
Qed.

(** All samples are stored exactly when the step is one (for two samples or more). *)
Lemma pick_full data s : 1 <= s -> 1 <= Z.of_nat (length data) ->
  length (pick data (grid (Z.of_nat (length data)) s)) = length data ->
  pick data (grid (Z.of_nat (length data)) s) = data.
Proof.
  intros Hs Hn Hl. set (n := Z.of_nat (length data)) in *.
  assert (grid n s = grid n 1).
  { apply (sampling_grid_unique n 1); [|apply grid_spec; lia].
    destruct (grid_spec n s Hn Hs) as [Hss Hin]. split; [exact Hss|]. intros i. rewrite Hin.
    split; [intros [H _]; split; [exact H|left; apply Z.divide_1_l]|]. intros [H _].
    apply Hin.
    assert (Hincl : incl (grid n s) (map Z.of_nat (seq 0 (Z.to_nat n)))).
    { intros j Hj. apply grid_bounds in Hj; auto. apply in_map_iff. exists (Z.to_nat j). split; [lia|]. apply in_seq. lia. }
    assert (Hnd : NoDup (grid n s)).
    { clear -Hss. induction Hss as [|a l Hl IH Hf]; constructor; [|assumption].
      intros Ha. rewrite Forall_forall in Hf. specialize (Hf _ Ha). lia. }
    assert (Hback : incl (map Z.of_nat (seq 0 (Z.to_nat n))) (grid n s)).
    { apply NoDup_length_incl; [exact Hnd| |exact Hincl]. unfold pick in Hl. rewrite map_length in Hl.
      rewrite map_length, seq_length, Hl. unfold n. lia. }
    apply Hback. apply in_map_iff. exists (Z.to_nat i). split; [lia|]. apply in_seq. lia. }
  rewrite H, grid_one by lia. unfold n. rewrite Nat2Z.id. apply pick_all.
Qed.
