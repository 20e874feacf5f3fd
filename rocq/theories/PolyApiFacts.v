(** Polynomial / IDW frames at the level of the public functions. *)
From Coq Require Import List ZArith Bool Lia Reals Lra Sorted ZifyBool.
From Flocq Require Import Core IEEE754.BinarySingleNaN IEEE754.Binary IEEE754.Bits.
From Verif Require Import Base Model_Float Model_Bincode BincodeFacts Spec FloatFacts ArithFacts RoundFacts Model_Utils Model_Stats
  Model_Compressors Model_Polynomial StatsFacts CompressorFacts PolyFacts SplineFacts PolyLoopFacts MetricFacts.
Import ListNotations.
Open Scope Z_scope.

(** The error bounds for which the loop is entered. *)
Lemma usable_bound e : finite e -> (0 <= R64 e <= bpow radix2 29)%R ->
  flt (round_f64 e 3) (round_f64 (fadd e f1) 4) = true.
Proof.
  intros Fe [H0 H1].
  assert (Be : bnd 29 e) by (split; [exact Fe|rewrite Rabs_right; lra]).
  assert (Bs : bnd 30 (fadd e f1)).
  { eapply bnd_weaken; [|apply (bnd_add 29 0 _ _ Be f1_bnd); lia]. lia. }
  destruct (round_f64_R 29 e 3 ltac:(lia) ltac:(lia) Be) as (F3 & R3 & _).
  destruct (round_f64_R 30 (fadd e f1) 4 ltac:(lia) ltac:(lia) Bs) as (F4 & R4 & _).
  apply flt_R; [exact F3|exact F4|]. rewrite R3, R4.
  change (bpow radix2 29) with 536870912%R in *.
  assert (N3 := rd_near 3 (R64 e) ltac:(lia)). assert (N4 := rd_near 4 (R64 (fadd e f1)) ltac:(lia) (proj2 Bs)).
  change (bpow radix2 30) with 1073741824%R in *.
  rewrite Rabs_right in N3 by lra. specialize (N3 ltac:(lra)).
  change (IZR (10 ^ 3)) with 1000%R in N3. change (IZR (10 ^ 4)) with 10000%R in N4.
  change (bpow radix2 (-23)) with (/ 8388608)%R in *.
  destruct (fadd_R e f1 Fe f1_finite) as [Rs _].
  { apply (rnd_bnd 30); [lia|]. rewrite f1_R. rewrite Rabs_right by lra. change (bpow radix2 30) with 1073741824%R. lra. }
  assert (Ns : (Rabs (rnd64 (R64 e + R64 f1) - (R64 e + R64 f1)) <= bpow radix2 (30 - 54))%R).
  { apply rnd_err; [lia|]. rewrite f1_R. rewrite Rabs_right by lra. change (bpow radix2 30) with 1073741824%R. lra. }
  rewrite <- Rs, f1_R in Ns. change (bpow radix2 (30 - 54)) with (/ 16777216)%R in Ns.
  apply Rabs_le_inv in N3. apply Rabs_le_inv in N4. apply Rabs_le_inv in Ns. lra.
Qed.

(** Leaving the loop bounds the error. *)
Lemma exit_bound e err : finite e -> (0 <= R64 e <= bpow radix2 29)%R -> bnd 183 err ->
  flt (round_f64 e 3) (round_f64 err 4) = false -> (R64 err <= R64 e + 6 / 10000)%R.
Proof.
  intros Fe [H0 H1] Berr Hx.
  assert (Be : bnd 29 e) by (split; [exact Fe|rewrite Rabs_right; lra]).
  destruct (round_f64_R 29 e 3 ltac:(lia) ltac:(lia) Be) as (F3 & R3 & _).
  destruct (round_f64_R 183 err 4 ltac:(lia) ltac:(lia) Berr) as (F4 & R4 & _).
  assert (Hle : (rd 4 (R64 err) <= rd 3 (R64 e))%R).
  { apply Rnot_lt_le. intros H. rewrite <- R3, <- R4 in H. apply flt_R in H; [congruence|assumption..]. }
  change (bpow radix2 29) with 536870912%R in *.
  assert (N3 := rd_near 3 (R64 e) ltac:(lia)).
  assert (N4 := fun r => rd_near 4 r ltac:(lia)).
  change (bpow radix2 30) with 1073741824%R in *.
  rewrite Rabs_right in N3 by lra. specialize (N3 ltac:(lra)).
  change (IZR (10 ^ 3)) with 1000%R in N3. change (IZR (10 ^ 4)) with 10000%R in N4.
  change (bpow radix2 (-23)) with (/ 8388608)%R in *.
  apply Rabs_le_inv in N3.
  destruct (Rle_dec (R64 err) 1073741824) as [Hs|Hb].
  - destruct (Rle_dec (-1073741824) (R64 err)) as [Hs2|Hb2]; [|lra].
    specialize (N4 (R64 err) ltac:(apply Rabs_le; lra)). apply Rabs_le_inv in N4. lra.
  - exfalso. specialize (N4 1073741824%R ltac:(rewrite Rabs_right; lra)). apply Rabs_le_inv in N4.
    assert (rd 4 1073741824 <= rd 4 (R64 err))%R by (apply rd_le; [lia|lra]). lra.
Qed.

(** The MAPE of a series of supported samples against outputs that are NaN or bounded. *)
Definition inf_or_nan (x : f64) : Prop := fis_nan x = true \/ x = B754_infinity 53 1024 false.

Lemma inf_or_nan_fadd x y : nneg x -> nneg y -> inf_or_nan x \/ inf_or_nan y -> inf_or_nan (fadd x y).
Proof.
  intros Hx Hy [[H|H]|[H|H]].
  - left. now apply nan_fadd_l.
  - subst x. destruct y as [s|s|s pl H|s m e H]; try (right; reflexivity); try (left; reflexivity).
    destruct Hy as [Hy|Hy]; [discriminate|]. cbn in Hy. subst s. right. reflexivity.
  - left. now apply nan_fadd_r.
  - subst y. destruct x as [s|s|s pl H|s m e H]; try (right; reflexivity); try (left; reflexivity).
    destruct Hx as [Hx|Hx]; [discriminate|]. cbn in Hx. subst s. right. reflexivity.
Qed.

Lemma inf_or_nan_fold l acc : nneg acc -> Forall nneg l -> inf_or_nan acc \/ Exists inf_or_nan l -> inf_or_nan (fold_left fadd l acc).
Proof.
  intros Ha Hl. revert acc Ha. induction Hl as [|x l Hx Hl IH]; intros acc Ha [H|H]; cbn [fold_left].
  - exact H.
  - inversion H.
  - apply IH; [now apply nneg_fadd|]. left. apply inf_or_nan_fadd; auto.
  - apply IH; [now apply nneg_fadd|]. inversion H; subst; [left; apply inf_or_nan_fadd; auto|now right].
Qed.

Lemma supported_bnd x : supported x -> bnd 63 x.
Proof.
  intros (F & _ & Hlo & Hhi). split; [exact F|]. rewrite <- (IZR_Zpower radix2) by lia. change (radix2 ^ 63)%Z with (2 ^ 63)%Z.
  rewrite opp_IZR in Hlo. apply Rabs_le. lra.
Qed.

Definition nan_or_bnd (x : f64) : Prop := fis_nan x = true \/ bnd 63 x.

Lemma nan_fsub_l x y : fis_nan x = true -> fis_nan (fsub x y) = true.
Proof. destruct x as [s|s|s pl H|s m e H]; try discriminate. destruct y; reflexivity. Qed.

Lemma mape_term o g : supported o -> nan_or_bnd g ->
  inf_or_nan (fabs (fdiv (fsub g o) o)) \/ bnd 128 (fabs (fdiv (fsub g o) o)).
Proof.
  intros Ho [Hg|Hg].
  - left. left. apply nan_fabs, nan_fdiv_l. now apply nan_fsub_l.
  - assert (Bo := supported_bnd o Ho). assert (Bs := bnd_sub _ _ _ _ Hg Bo ltac:(lia)).
    change (Z.max 63 63 + 1) with 64 in Bs.
    destruct Ho as (Fo & Hz & _). destruct Hz as [Hz|Hz].
    + left. assert (exists s, o = B754_zero 53 1024 s) as [s ->].
      { destruct o as [s|s|s pl H|s m e H]; try discriminate; [eauto|]. unfold R64 in Hz. cbn in Hz. apply eq_0_F2R in Hz. destruct s; discriminate. }
      destruct Bs as [Fs _]. set (d := fsub g _) in *. destruct d as [s'|s'|s' pl' H'|s' m' e' H']; try discriminate;
        [left; reflexivity|right; reflexivity].
    + right. apply bnd_abs. exact (bnd_div 64 (-64) _ _ Bs Hz ltac:(lia)).
Qed.

Lemma mape_class data out err : data <> [] -> Z.of_nat (length data) <= 2 ^ 53 -> Forall supported data -> Forall nan_or_bnd out ->
  calculate_error data out = Ok err ->
  fis_nan err = true \/ err = B754_infinity 53 1024 false \/ (bnd 183 err /\ (0 <= R64 err)%R).
Proof.
  intros Hne Hl Hd Ho H. assert (Hnn : nneg err) by (eapply (method_error_nneg Mape); [|exact H]; lia).
  unfold calculate_error, method_error, error_mape in H.
  destruct (negb (length data =? length out)%nat) eqn:El; [discriminate|]. apply ok_inj in H.
  set (terms := zip_map (fun o g => fabs (fdiv (fsub g o) o)) data out) in *.
  assert (Ht : Forall (fun t => inf_or_nan t \/ bnd 128 t) terms /\ (length terms <= length data)%nat).
  { unfold terms. clear H El terms Hl Hne. revert out Ho. induction Hd as [|o data Hos Hd IH]; intros out Ho; cbn [zip_map length]; [split; [constructor|lia]|].
    destruct Ho as [|g out Hg Ho]; [split; [constructor|cbn; lia]|]. destruct (IH out Ho) as [IH1 IH2]. cbn [length].
    split; [constructor; [now apply mape_term|exact IH1]|lia]. }
  destruct Ht as [Ht Htl].
  assert (Hn : Forall nneg terms) by (apply zip_map_forall; intros; apply nneg_fabs).
  destruct (len_pos data Hne Hl) as [Fl Rl].
  assert (Hc : Exists inf_or_nan terms \/ Forall (bnd 128) terms).
  { clear -Ht. induction Ht as [|t l [H|H] Hl [IH|IH]]; auto. }
  destruct Hc as [Hc|Hc].
  - assert (Hs : inf_or_nan (fsum terms)) by (apply inf_or_nan_fold; auto using nneg_f0).
    destruct Hs as [Hs|Hs]; subst err; [left; now apply nan_fdiv_l|]. right. left. rewrite Hs.
    assert (Sl : Binary.Bsign 53 1024 (len_f64 data) = false).
    { destruct (int_as_f64_correct (Z.of_nat (length data))) as (_ & _ & S); [|unfold len_f64; rewrite S; lia].
      assert (2 ^ 53 <= 2 ^ 1000) by (vm_compute; discriminate). lia. }
    destruct (len_f64 data) as [s|s|s pl Hp|s m e Hp]; try discriminate; cbn in Sl; subst s; reflexivity.
  - assert (Hs := fsum_bnd 128 terms ltac:(lia) ltac:(lia) Hc).
    assert (Hb : bnd 183 err).
    { subst err. eapply bnd_weaken; [|apply (bnd_div 181 0 _ _ Hs)]; [lia| |lia]. change (bpow radix2 0) with 1%R.
      rewrite Rabs_right; lra. }
    right. right. split; [exact Hb|]. destruct Hnn as [Hnn|Hnn]; [destruct Hb as [F _]; apply fis_finite_not_nan in F; congruence|].
    apply sign_R; [apply Hb|exact Hnn].
Qed.

Lemma inf_round d : 3 <= d <= 5 -> round_f64 (B754_infinity 53 1024 false) d = B754_infinity 53 1024 false.
Proof. intros H. assert (d = 3 \/ d = 4 \/ d = 5) as [->|[->| ->]] by lia; reflexivity. Qed.

Lemma flt_inf x : finite x -> flt x (B754_infinity 53 1024 false) = true.
Proof. destruct x as [s|s|s pl H|s m e H]; intros F; try discriminate; [reflexivity|destruct s; reflexivity]. Qed.

(** The real-number reading of leaving the loop. *)
Lemma exit_error data out e err : data <> [] -> Z.of_nat (length data) <= 2 ^ 53 -> Forall supported data -> Forall nan_or_bnd out ->
  finite e -> (0 <= R64 e <= bpow radix2 29)%R -> calculate_error data out = Ok err ->
  flt (round_f64 e 3) (round_f64 err 4) = false ->
  fis_nan err = true \/ (finite err /\ (0 <= R64 err <= R64 e + 6 / 10000)%R).
Proof.
  intros Hne Hl Hd Ho Fe He Hc Hx. destruct (mape_class data out err Hne Hl Hd Ho Hc) as [H|[H|[H1 H2]]]; [now left| |].
  - exfalso. subst err. rewrite inf_round in Hx by lia.
    destruct (round_f64_R 29 e 3) as (F3 & _); try lia.
    { split; [exact Fe|]. rewrite Rabs_right; lra. }
    rewrite flt_inf in Hx by exact F3. discriminate.
  - right. split; [apply H1|]. split; [exact H2|]. now apply exit_bound.
Qed.

(** Shape of a compressed frame. *)
Definition frame0 (st : stats) (t : ptype) : poly := poly_new (st_min st) (st_max st) t (st_bitdepth st).

Lemma enc_set_error c e : enc_poly (set_error c e) = enc_poly c. Proof. reflexivity. Qed.
Lemma conv_set_error c e : conv_poly (set_error c e) = conv_poly c. Proof. reflexivity. Qed.

Lemma decode_frame0 st t : decode_unwrap dec_poly (enc_poly (frame0 st t)) = Ok (frame0 st t).
Proof. rewrite decode_poly; [reflexivity|cbn; lia|cbn; lia]. Qed.

Lemma decode_holds data c0 c s : 1 <= len data <= 2 ^ 53 -> holds data c0 c s ->
  decode_unwrap dec_poly (enc_poly c) = Ok (conv_poly c).
Proof.
  intros Hn [Hs ->]. apply decode_poly; cbn [with_points pl_points pl_step]; [|lia].
  unfold pick. rewrite map_length. assert (Hg := grid_length (len data) s ltac:(lia) ltac:(lia)). lia.
Qed.

Lemma polynomial_shape data t st : data_stats data = Ok st -> 1 <= len data <= 2 ^ 53 ->
  (feq (st_max st) (st_min st) = true /\ polynomial data t = Ok (enc_poly (frame0 st t))) \/
  (feq (st_max st) (st_min st) = false /\ exists c, polynomial data t = Ok (enc_poly c) /\
     holds data (frame0 st t) c (hint_step data (baseline_points (len data)))).
Proof.
  intros Hst Hn. unfold polynomial. rewrite Hst. cbn [bind]. unfold poly_compress.
  destruct (feq (st_max st) (st_min st)) eqn:E.
  - left. split; [reflexivity|]. unfold compress_hinted. cbn [poly_new pl_max pl_min]. rewrite E. reflexivity.
  - right. split; [reflexivity|].
    destruct (hinted_holds (frame0 st t) (frame0 st t) data (baseline_points (len data))) as (c & Hc & Hh); auto; try lia.
    exists c. unfold frame0, len in *. rewrite Hc. split; [reflexivity|exact Hh].
Qed.

Lemma allowed_shape idw p data e t st : data_stats data = Ok st -> 1 <= len data <= 2 ^ 53 ->
  (feq (st_max st) (st_min st) = true /\
   polynomial_allowed_error idw p data e t = Ok {| cr_data := enc_poly (frame0 st t); cr_error := f0 |}) \/
  (feq (st_max st) (st_min st) = false /\ exists c err,
     polynomial_allowed_error idw p data e t = Ok {| cr_data := enc_poly c; cr_error := err |} /\
     ((c = frame0 st t /\ err = fadd e f1 /\ flt (round_f64 e 3) (round_f64 (fadd e f1) 4) = false) \/
      loop_post idw p data (round_f64 e 3) (frame0 st t) c err)).
Proof.
  intros Hst Hn. unfold polynomial_allowed_error. rewrite Hst. cbn [bind].
  destruct (compress_bounded_spec idw p (frame0 st t) data e Hn) as [[E H]|[E (c & err & H & Hp)]]; unfold frame0 in *; cbn [poly_new pl_max pl_min] in E;
    rewrite H; cbn [bind].
  - left. split; [exact E|]. reflexivity.
  - right. split; [exact E|]. exists c, err. split; [reflexivity|]. exact Hp.
Qed.

(** Statistics of finite data. *)
Lemma stats_facts data : data <> [] -> Forall finite data -> exists st, data_stats data = Ok st /\
  finite (st_min st) /\ finite (st_max st) /\ (R64 (st_min st) <= R64 (st_max st))%R /\
  (exists i, min_at data (st_min st) i) /\ (exists i, max_at data (st_max st) i).
Proof.
  intros Hne Hf. destruct (data_stats_total data Hne) as [st Hst]. exists st. split; [exact Hst|].
  destruct (data_stats_ok data st Hf Hst) as (Hmax & Hmin & _ & _).
  assert (F1 : finite (st_min st)) by (rewrite Forall_forall in Hf; apply Hf; eapply min_at_in; eauto).
  assert (F2 : finite (st_max st)) by (rewrite Forall_forall in Hf; apply Hf; eapply max_at_in; eauto).
  repeat split; eauto. destruct Hmin as (_ & Hm & _). rewrite Forall_forall in Hm. apply Hm. eapply max_at_in; eauto.
Qed.

Lemma constant_series data st : Forall finite data -> data_stats data = Ok st -> feq (st_max st) (st_min st) = true ->
  same_series (repeat (st_max st) (length data)) data.
Proof.
  intros Hf Hst E. destruct (data_stats_ok data st Hf Hst) as ((_ & Hmax & _) & (_ & Hmin & _) & _ & _).
  destruct (data_stats_ok data st Hf Hst) as (Hmaxa & Hmina & _ & _).
  assert (F2 : finite (st_max st)) by (rewrite Forall_forall in Hf; apply Hf; eapply max_at_in; eauto).
  assert (F1 : finite (st_min st)) by (rewrite Forall_forall in Hf; apply Hf; eapply min_at_in; eauto).
  apply feq_R in E; try assumption. clear Hst Hmaxa Hmina.
  induction Hf as [|x l Fx Hf IH]; [constructor|]. inversion Hmax; inversion Hmin; subst. cbn [length repeat]. constructor; [|now apply IH].
  repeat split; try assumption. lra.
Qed.

(** Catmull-Rom decompression of a frame on a grid. *)
Definition clamp (lo hi r : R) : R := Rmin (Rmax r lo) hi.

Lemma clamp_near lo hi r x : (lo <= x <= hi)%R -> (Rabs (clamp lo hi r - x) <= Rabs (r - x))%R.
Proof.
  intros H. unfold clamp, Rmin, Rmax. repeat destruct (Rle_dec _ _); unfold Rabs; repeat destruct (Rcase_abs _); lra.
Qed.

Lemma spline_decompress p c n s : 1 <= s -> pl_step c = s -> pl_id c = PPolynomial -> feq (pl_max c) (pl_min c) = false ->
  (1 <= n)%nat -> Z.of_nat n <= 2 ^ 53 -> length (pl_points c) = length (grid (Z.of_nat n) s) -> values_ok (pl_points c) ->
  finite (pl_min c) -> finite (pl_max c) -> (R64 (pl_min c) <= R64 (pl_max c))%R -> bnd 400 (pl_min c) ->
  forall idw, exists out, poly_to_data idw p c n = Ok out /\ length out = n /\ Forall finite out /\
    forall j z v, nth_error (grid (Z.of_nat n) s) j = Some z -> nth_error (pl_points c) j = Some v ->
      exists y, nth_error out (Z.to_nat z) = Some y /\ finite y /\
        R64 y = clamp (R64 (pl_min c)) (R64 (pl_max c)) (rd 5 (R64 v)).
Proof.
  intros Hs Hstep Hid Hm Hn1 Hn2 Hlen Hv Fn Fx Hle Bn idw.
  unfold poly_to_data, method_to_data, polynomial_to_data. rewrite Hm, Hid.
  rewrite get_positions_grid by lia. rewrite Hstep. cbn [bind].
  set (ps := grid (Z.of_nat n) s) in *. set (vs := pl_points c) in *.
  assert (Hps : positions_ok ps).
  { split; [apply grid_spec; lia|]. apply Forall_forall. intros z Hz. apply grid_bounds in Hz; lia. }
  eexists. split; [reflexivity|].
  split; [now rewrite sample_loop_length, range_length|]. split.
  - apply (sample_loop_forall _ (bnd 400)).
    + intros x Bx. apply (round_and_limit_R 400); auto; lia.
    + intros z x Hz Hx. apply range_in in Hz. eapply (clamped_bnd ps vs); eauto. apply bnd_int; lia.
    + exact Bn.
  - intros j z v Hz Hvj.
    assert (Hzr : 0 <= z < Z.of_nat n) by (apply (grid_bounds _ s); [lia|lia|]; eapply nth_error_In; eauto).
    destruct (clamped_at_key ps vs Hps Hv (eq_sym Hlen) j z v Hz Hvj) as (w & Hw & (Fw & Fv & Rw)).
    assert (Bw : bnd 400 w) by (eapply (clamped_bnd ps vs); eauto; apply bnd_int; lia).
    eexists. split.
    + apply (sample_loop_nth _ _ _ _ _ _ z); [|exact Hw]. rewrite range_nth by lia. f_equal. lia.
    + destruct (round_and_limit_R 400 w (pl_min c) (pl_max c) ltac:(lia) Bw Fn Fx Hle) as [F R].
      split; [exact F|]. change DECIMAL_PRECISION with 5. rewrite R, Rw. reflexivity.
Qed.
