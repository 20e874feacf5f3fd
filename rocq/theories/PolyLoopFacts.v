(** Polynomial / IDW frames: shape of the compressed frame, error control loop, decompression. *)
From Coq Require Import List ZArith Bool Lia Reals Lra Sorted ZifyBool.
From Flocq Require Import Core IEEE754.BinarySingleNaN IEEE754.Binary IEEE754.Bits.
From Verif Require Import Base Model_Float Model_Bincode BincodeFacts Spec FloatFacts ArithFacts RoundFacts Model_Utils Model_Stats
  Model_Compressors Model_Polynomial StatsFacts CompressorFacts PolyFacts SplineFacts.
Import ListNotations.
Open Scope Z_scope.

Definition len (data : list f64) : Z := Z.of_nat (length data).

(** A frame holding the samples of [data] on the grid of step [s]. *)
Definition holds (data : list f64) (c0 c : poly) (s : Z) : Prop :=
  1 <= s <= 133 /\ c = with_points c0 (pick data (grid (len data) s)) s.

Lemma holds_step data c0 c s : holds data c0 c s -> pl_step c = s.
Proof. intros [_ ->]. reflexivity. Qed.

Lemma hinted_holds c0 c data points : c = c0 \/ (exists s, holds data c0 c s) ->
  feq (pl_max c0) (pl_min c0) = false -> 1 <= len data <= 2 ^ 53 -> baseline_points (len data) <= points ->
  exists c', compress_hinted c data points = Ok c' /\ holds data c0 c' (hint_step data points).
Proof.
  intros Hc Hm Hn Hp.
  assert (Hb := hint_step_small data points (proj1 Hn) Hp).
  assert (Hp1 : 1 <= points).
  { unfold baseline_points in Hp. destruct (len data / 100 <=? 3) eqn:E in Hp; lia. }
  assert (Hm' : feq (pl_max c) (pl_min c) = false) by (destruct Hc as [->|(s & _ & ->)]; exact Hm).
  rewrite (compress_hinted_ok c data points Hm' Hn Hp1). eexists. split; [reflexivity|].
  split; [exact Hb|]. unfold wrap_u. rewrite Z.mod_small by lia.
  destruct Hc as [->|(s & _ & ->)]; reflexivity.
Qed.

Section Idw.
Variable idw : list f64 -> list f64 -> f64 -> f64.

Lemma method_total p c n : 1 <= pl_step c -> (1 <= n)%nat -> Z.of_nat n < 2 ^ 64 ->
  exists out, method_to_data idw p c n = Ok out /\ length out = n.
Proof.
  intros Hs Hn Hn2. unfold method_to_data, idw_to_data, polynomial_to_data.
  rewrite get_positions_grid by lia. cbn [bind]. destruct (pl_id c); eexists; (split; [reflexivity|]).
  - now rewrite sample_loop_length, range_length.
  - now rewrite map_length, range_length.
Qed.

Lemma mape_total data out : length out = length data -> exists e, calculate_error data out = Ok e.
Proof.
  intros H. unfold calculate_error, method_error, error_mape. rewrite H, Nat.eqb_refl. cbn. eauto.
Qed.

(** How the error control loop ends. *)
Definition loop_post p data target c0 (c : poly) (err : f64) : Prop :=
  exists s, holds data c0 c s /\
    ((pl_points c = data /\ err = f0) \/
     (exists out, method_to_data idw p c (length data) = Ok out /\ calculate_error data out = Ok err /\
        flt target (round_f64 err 4) = false)).

Lemma bounded_loop_spec p data target c0 :
  feq (pl_max c0) (pl_min c0) = false -> 1 <= len data <= 2 ^ 53 ->
  forall fuel it c err jump, 0 <= it <= 22 -> Z.of_nat fuel = 24 - it -> 0 <= jump ->
    c = c0 \/ (exists s out, holds data c0 c s /\ method_to_data idw p c (length data) = Ok out /\ calculate_error data out = Ok err) ->
    exists c' err', bounded_loop idw p fuel data target c err jump it = Ok (c', err') /\
      ((c' = c /\ err' = err /\ flt target (round_f64 err 4) = false) \/ loop_post p data target c0 c' err').
Proof.
  intros Hm Hn. induction fuel as [|fuel IH]; intros it c err jump Hit Hfuel Hjump Hc; [lia|].
  cbn [bounded_loop]. destruct (flt target (round_f64 err 4)) eqn:Ec; cbn [negb].
  2:{ exists c, err. split; [reflexivity|]. left. auto. }
  cbv zeta. fold (len data).
  destruct (hinted_holds c0 c data (baseline_points (len data) + jump)) as (c1 & Hc1 & Hh1); auto; try lia.
  { destruct Hc as [->|(s & out & H & _)]; eauto. }
  rewrite Hc1. cbn [bind].
  assert (Hs1 := holds_step _ _ _ _ Hh1). pose proof (proj1 Hh1) as Hs1r. unfold len in Hn.
  destruct (method_total p c1 (length data)) as (out & Ho & Hol); [lia|lia|lia|].
  rewrite Ho. cbn [bind]. destruct (mape_total data out Hol) as [e1 He1]. rewrite He1. cbn [bind].
  destruct (jump_increment (it + 1) (len data)) as [inc|] eqn:Ej.
  - destruct (length (pl_points c1) =? length data)%nat eqn:El.
    + exists c1, f0. split; [reflexivity|]. right. exists (hint_step data (baseline_points (len data) + jump)).
      split; [exact Hh1|]. left. split; [|reflexivity]. destruct Hh1 as [_ ->]. cbn [with_points pl_points] in *.
      apply pick_full; [lia|lia|]. apply Nat.eqb_eq. exact El.
    + assert (Hinc : 1 <= inc /\ it + 1 <= 22).
      { unfold jump_increment in Ej. destruct (it + 1 <=? 17) eqn:E1; [injection Ej as <-; lia|].
        destruct (it + 1 <=? 22) eqn:E2; [injection Ej as <-; lia|discriminate]. }
      destruct (IH (it + 1) c1 e1 (jump + inc)) as (c' & err' & Hr & Hp); [lia|lia|lia|right; eauto 6|].
      exists c', err'. split; [exact Hr|]. destruct Hp as [(-> & -> & Hx)|Hp]; [|right; exact Hp].
      right. exists (hint_step data (baseline_points (len data) + jump)). split; [exact Hh1|]. right. eauto.
  - destruct (fgt target (round_f64 e1 4)) eqn:Eg.
    + exists c1, e1. split; [reflexivity|]. right. exists (hint_step data (baseline_points (len data) + jump)).
      split; [exact Hh1|]. right. exists out. repeat split; auto.
      unfold fgt in Eg. unfold flt. destruct (fcmp target (round_f64 e1 4)) as [[]|]; congruence.
    + assert (Hfull : exists c2, compress_hinted c1 data (len data) = Ok c2 /\ holds data c0 c2 1).
      { assert (Hm1 : feq (pl_max c1) (pl_min c1) = false) by (destruct Hh1 as [_ ->]; exact Hm).
        rewrite (compress_hinted_ok c1 data (len data) Hm1 Hn) by (unfold len; lia). eexists. split; [reflexivity|]. split; [lia|].
        unfold hint_step. fold (len data). rewrite Z.div_same by (unfold len; lia). change (Z.max 1 1) with 1.
        destruct Hh1 as [_ ->]. reflexivity. }
      destruct Hfull as (c2 & H2 & Hh2). rewrite H2. cbn [bind]. exists c2, f0. split; [reflexivity|]. right.
      exists 1. split; [exact Hh2|]. left. split; [|reflexivity]. destruct Hh2 as [_ ->]. cbn [with_points pl_points].
      unfold len. rewrite grid_one by lia. rewrite Nat2Z.id. apply pick_all.
Qed.

Definition set_error (c : poly) (e : f64) : poly :=
  {| pl_id := pl_id c; pl_points := pl_points c; pl_min := pl_min c; pl_max := pl_max c;
     pl_step := pl_step c; pl_error := Some e; pl_bitdepth := pl_bitdepth c |}.

(** compress_bounded never panics; the three ways it ends. *)
Lemma compress_bounded_spec p c0 data e : 1 <= len data <= 2 ^ 53 ->
  (feq (pl_max c0) (pl_min c0) = true /\ poly_compress_bounded idw p c0 data e = Ok c0) \/
  (feq (pl_max c0) (pl_min c0) = false /\ exists c err, poly_compress_bounded idw p c0 data e = Ok (set_error c err) /\
     ((c = c0 /\ err = fadd e f1 /\ flt (round_f64 e 3) (round_f64 (fadd e f1) 4) = false) \/
      loop_post p data (round_f64 e 3) c0 c err)).
Proof.
  intros Hn. unfold poly_compress_bounded. destruct (feq (pl_max c0) (pl_min c0)) eqn:E; [now left|right].
  split; [reflexivity|].
  destruct (bounded_loop_spec p data (round_f64 e 3) c0 E Hn 24 0 c0 (fadd e f1) 0) as (c & err & Hr & Hp); try lia; [now left|].
  rewrite Hr. cbn [bind]. exists c, err. split; [reflexivity|]. exact Hp.
Qed.
End Idw.

(** Range of decompressed samples. *)
Definition nan_or_within (mn mx : f64) (y : f64) : Prop :=
  fis_nan y = true \/ (finite y /\ (R64 mn <= R64 y <= R64 mx)%R).

Lemma limit_within x mn mx d : finite mn -> finite mx -> (R64 mn <= R64 mx)%R ->
  nan_or_within mn mx (round_and_limit_f64 x mn mx d).
Proof.
  intros Fn Fx H. assert (Hle : fle mn mx = true) by (apply fle_R; assumption).
  destruct (round_and_limit_range x mn mx d Hle) as [H1|[H1 H2]]; [now left|right].
  now apply between_finite.
Qed.

Lemma poly_to_data_within idw p c n out : finite (pl_min c) -> finite (pl_max c) -> (R64 (pl_min c) <= R64 (pl_max c))%R ->
  poly_to_data idw p c n = Ok out -> Forall (nan_or_within (pl_min c) (pl_max c)) out.
Proof.
  intros Fn Fx H. unfold poly_to_data. destruct (feq (pl_max c) (pl_min c)) eqn:E.
  - intros Ho. apply ok_inj in Ho. subst out. apply Forall_forall. intros y Hy. apply repeat_spec in Hy. subst y.
    right. split; [exact Fx|]. lra.
  - unfold method_to_data, idw_to_data, polynomial_to_data.
    destruct (get_positions p c (Z.of_nat n)) as [ps|] eqn:Eg; [|destruct (pl_id c); discriminate].
    cbn [bind]. destruct (pl_id c); intros Ho; apply ok_inj in Ho; subst out.
    + apply (sample_loop_forall _ (fun _ => True)); auto. intros x _. now apply limit_within.
    + apply Forall_map. apply Forall_forall. intros z _. now apply limit_within.
Qed.

(** Exactness of the wire width on data without negative zeros. *)
Definition no_negative_zero (x : f64) : Prop := x <> B754_zero 53 1024 true.

Lemma conv_exact b x : no_negative_zero x -> same_value (conv b x) x -> conv b x = x.
Proof.
  intros Hz (F1 & F2 & HR). destruct b; [reflexivity| | |]; cbn [conv] in *;
  (destruct x as [s|s|s pl H|s m e H]; try discriminate;
   [destruct s; [exfalso; apply Hz; reflexivity|]; reflexivity|]);
  (apply (Binary.B2R_inj 53 1024); [|reflexivity|exact HR]);
  (set (y := int_as_f64 _) in *; destruct y as [s'|s'|s' pl' H'|s' m' e' H']; try discriminate; try reflexivity);
  exfalso; cbn in HR; symmetry in HR; apply eq_0_F2R in HR; destruct s; discriminate.
Qed.

Lemma conv_exact_all b l : Forall no_negative_zero l -> Forall (fun x => same_value (conv b x) x) l -> map (conv b) l = l.
Proof.
  intros H1 H2. induction l as [|x l IH]; [reflexivity|]. inversion H1; inversion H2; subst. cbn [map].
  rewrite conv_exact by assumption. f_equal. now apply IH.
Qed.

Lemma pick_in data ps x : In x (pick data ps) -> (forall i, In i ps -> 0 <= i < len data) -> In x data.
Proof.
  unfold pick. rewrite in_map_iff. intros (i & <- & Hi) H. specialize (H i Hi). unfold len in H. apply nth_In. lia.
Qed.

Lemma pick_forall (P : f64 -> Prop) data s : Forall P data -> 1 <= len data -> 1 <= s -> Forall P (pick data (grid (len data) s)).
Proof.
  intros H Hn Hs. rewrite Forall_forall in *. intros x Hx. apply H. eapply pick_in; [exact Hx|]. intros i. now apply grid_bounds.
Qed.
