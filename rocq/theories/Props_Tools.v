(** C39, C40: time of day, and the metric (values plus index) of csv-compressor. *)
From Coq Require Import List ZArith Bool Lia ZifyBool Sorting.Sorted.
From Verif Require Import Base Model_Float Model_Bincode BincodeFacts Model_Vsri Spec_Vsri VsriFacts VsriLookup Props_Vsri Model_Wavbrro Props_Wavbrro Model_Csv Model_Stream Model_Cli.
Import ListNotations.
Open Scope Z_scope.

Lemma sorted_range_length ys : forall lo hi, StronglySorted Z.lt ys -> Forall (fun y => lo <= y < hi) ys -> lo <= hi -> Z.of_nat (length ys) <= hi - lo.
Proof.
  induction ys as [|y ys IH]; intros lo hi Hs Hf Hl; [cbn; lia|]. inversion Hs as [|? ? Hs' Hy]; subst. inversion Hf as [|? ? Hy1 Hf']; subst.
  specialize (IH (y + 1) hi Hs'). cbn [length]. assert (Z.of_nat (length ys) <= hi - (y + 1)); [apply IH; [|lia]|lia].
  apply Forall_forall. intros z Hz. rewrite Forall_forall in Hy, Hf'. specialize (Hy z Hz). specialize (Hf' z Hz). cbn beta in *. lia.
Qed.
Lemma day_length ys : day_points ys -> Z.of_nat (length ys) <= 86400.
Proof. intros [H1 H2]. assert (L := sorted_range_length ys 0 86400 H1 H2). lia. Qed.
Lemma regular_day a d n : 0 <= a -> 0 < d -> a + d * (Z.of_nat n - 1) < 86400 -> day_points (map (fun i => a + d * Z.of_nat i) (seq 0 n)).
Proof.
  intros Ha Hd Hb. split; [now apply regular_sorted|]. rewrite Forall_map. apply Forall_forall. intros i Hi. apply in_seq in Hi. nia.
Qed.
Lemma list_ext {A} (a : list A) : forall b, (forall k, nth_error a k = nth_error b k) -> a = b.
Proof.
  induction a as [|x a IH]; intros [|y b] H; [reflexivity|discriminate (H 0%nat)|discriminate (H 0%nat)|].
  f_equal; [assert (X := H 0%nat); cbn in X; congruence|]. apply IH. intros k. exact (H (S k)).
Qed.

(** * C40 *)
(** Within the range of chrono's calendar (years -262143 to 262142) the second of the day is the remainder by 86400, also for
    timestamps before 1970, and subtracting it gives midnight of that day; outside the call panics. *)
Theorem C40_second_of_day : forall t,
  (chrono_min <= t <= chrono_max -> day_elapsed_seconds t = Ok (t mod 86400)) /\
  (t < chrono_min \/ chrono_max < t -> day_elapsed_seconds t = Panic PUnwrap) /\
  start_day_ts t = 86400 * (t / 86400).
Proof.
  intros t. assert (E : hour_of t * 3600 + minute_of t * 60 + second_of t = t mod 86400).
  { unfold hour_of, minute_of, second_of. Z.to_euclidean_division_equations. lia. }
  unfold day_elapsed_seconds, start_day_ts. rewrite E. split; [|split].
  - intros H. replace (_ && _) with true by lia. reflexivity.
  - intros H. replace (_ && _) with false by lia. reflexivity.
  - assert (D := Z.div_mod t 86400 ltac:(lia)). lia.
Qed.
Print Assumptions C40_second_of_day.
Theorem C40_range : forall t r, day_elapsed_seconds t = Ok r -> 0 <= r < 86400 /\ start_day_ts t <= t < start_day_ts t + 86400 /\ t = start_day_ts t + r.
Proof.
  intros t r H. destruct (C40_second_of_day t) as (H1 & H2 & H3). assert (M := Z.mod_pos_bound t 86400 ltac:(lia)). assert (D := Z.div_mod t 86400 ltac:(lia)).
  assert (t mod 86400 = r) by (destruct (Z_lt_le_dec t chrono_min); [rewrite H2 in H by lia; discriminate H|]; destruct (Z_lt_le_dec chrono_max t); [rewrite H2 in H by lia; discriminate H|];
    rewrite H1 in H by lia; now apply ok_inj in H). lia.
Qed.
Print Assumptions C40_range.
Example C40_example : day_elapsed_seconds (-1) = Ok 86399 /\ day_elapsed_seconds 1704067199 = Ok 86399 /\ day_elapsed_seconds 1704067200 = Ok 0 /\ start_day_ts 1704070861 = 1704067200.
Proof. repeat split; reflexivity. Qed.

(** * C39 *)
(** The second of the day of a sample; its timestamp is in milliseconds (division truncates toward zero). *)
Definition sample_second (s : sample) : Z := Z.quot (sm_ts s) 1000 mod 86400.
Definition datable (s : sample) : Prop := chrono_min <= Z.quot (sm_ts s) 1000 <= chrono_max.
Definition seconds (l : list sample) : list Z := map sample_second l.
Definition values (l : list sample) : list f64 := map sm_val l.

Lemma seconds_range l : Forall (fun y => 0 <= y < 86400) (seconds l).
Proof. unfold seconds. rewrite Forall_map. apply Forall_forall. intros s _. apply Z.mod_pos_bound. lia. Qed.
Lemma sample_day_second s : datable s -> day_elapsed_seconds (Z.quot (sm_ts s) 1000) = Ok (sample_second s).
Proof. intros H. now apply C40_second_of_day. Qed.

Lemma append_good p samples : forall w v v' rest,
  Forall datable samples -> update_all p v (seconds samples) = Ok (v', repeat true (length samples)) ->
  well_chunked (wb_chunks w) -> 0 <= wb_count w -> wb_count w + Z.of_nat (length samples) < 2 ^ 32 ->
  exists w', append_samples p (Metric w v) (samples ++ rest) = append_samples p (Metric w' v') rest /\
    wb_samples w' = wb_samples w ++ values samples /\ well_chunked (wb_chunks w') /\ wb_count w' = wb_count w + Z.of_nat (length samples) /\ wb_bitdepth w' = wb_bitdepth w.
Proof.
  induction samples as [|s samples IH]; intros w v v' rest Hd Hu Hw H0 Hn.
  - cbn in Hu. apply ok_inj in Hu. injection Hu as <-. exists w. cbn [app values map length]. rewrite app_nil_r. split; [reflexivity|]. split; [reflexivity|]. split; [exact Hw|]. split; [cbn; lia|reflexivity].
  - inversion Hd as [|? ? Hs Hd']; subst. cbn [seconds map update_all] in Hu. destruct (update_for_point p v (sample_second s)) as [[v1 b]|] eqn:E1; [|discriminate Hu]. cbn [bind] in Hu.
    destruct (update_all p v1 (map sample_second samples)) as [[v2 bs]|] eqn:E2; [|discriminate Hu]. cbn [bind] in Hu. apply ok_inj in Hu. cbn [length repeat] in Hu.
    assert (b = true /\ v2 = v' /\ bs = repeat true (length samples)) as (-> & -> & ->) by (repeat split; congruence).
    cbn [length] in Hn. destruct (wb_add_spec p w (sm_val s) Hw H0) as (cs & Ea & Hcs & Hcc); [lia|].
    destruct (IH (WB (wb_count w + 1) (wb_bitdepth w) cs) v1 v' rest Hd' E2) as (w' & I1 & I2 & I3 & I4 & I5); [exact Hcs|cbn [wb_count]; lia|cbn [wb_count]; lia|].
    exists w'. split; [|split; [|split; [exact I3|split; [rewrite I4; cbn [wb_count length]; lia|exact I5]]]].
    + cbn [app append_samples]. rewrite sample_day_second by exact Hs. cbn [bind]. cbn [mt_vsri mt_wbro]. rewrite E1. cbn [bind]. rewrite Ea. cbn [bind]. exact I1.
    + rewrite I2. unfold wb_samples at 1. cbn [wb_chunks]. rewrite Hcc, <- app_assoc. reflexivity.
Qed.

Lemma answers_sorted ys : forall mx, StronglySorted Z.le ys -> Forall (fun y => mx <= y) ys -> answers_for mx ys = repeat true (length ys) /\ accepted mx ys = ys.
Proof.
  induction ys as [|y ys IH]; intros mx Hs Hm; [split; reflexivity|]. inversion Hs as [|? ? Hs' Hy]; subst. inversion Hm as [|? ? Hm1 Hm2]; subst.
  cbn [answers_for accepted length repeat]. replace (y <? mx) with false by lia. destruct (IH y Hs' Hy) as [-> ->]. split; reflexivity.
Qed.

(** The metric built from samples whose seconds never decrease holds all values in order, and the index of their seconds. *)
Theorem C39_built : forall p samples v answers,
  Forall datable samples -> Z.of_nat (length samples) < 2 ^ 32 -> StronglySorted Z.le (seconds samples) ->
  update_all p vsri_new (seconds samples) = Ok (v, answers) ->
  exists w, from_samples p samples = Ok (MetricOk (Metric w v)) /\ wb_samples w = values samples /\ wb_count w = Z.of_nat (length samples) /\ w = wb_from_slice (values samples).
Proof.
  intros p samples v answers Hd Hn Hs Hu. destruct (C27_history _ _ _ _ Hu) as (Ha & _ & _).
  destruct (answers_sorted (seconds samples) 0 Hs) as [A _]; [eapply Forall_impl; [|apply seconds_range]; cbn; intros; lia|]. rewrite A in Ha. subst answers.
  unfold seconds at 2 in Hu. rewrite map_length in Hu.
  destruct (append_good p samples wb_new vsri_new v [] Hd Hu) as (w & I1 & I2 & I3 & I4 & I5); [now left|cbn; lia|cbn [wb_new wb_count]; lia|].
  rewrite app_nil_r in I1. exists w. unfold from_samples, metric_default. rewrite I1. cbn [append_samples bind]. split; [reflexivity|]. split; [exact I2|]. split; [exact I4|].
  destruct (slice_chunks_spec (length (values samples)) (values samples) (le_n _)) as [W C].
  assert (L : length (values samples) = length samples) by apply map_length.
  destruct w as [c b cs]. cbn [wb_count wb_bitdepth wb_chunks wb_new] in *. unfold wb_from_slice, wrap_u. rewrite Z.mod_small by lia.
  f_equal; [rewrite L; exact I4|exact I5|]. apply well_chunked_unique; [exact I3|exact W|]. rewrite C. exact I2.
Qed.
Print Assumptions C39_built.

(** In a release build this needs no further condition; in a dev build it is enough that the seconds increase (see C52 for what
    happens otherwise). *)
Theorem C39_release_never_panics : forall samples,
  Forall datable samples -> Z.of_nat (length samples) < 2 ^ 32 -> StronglySorted Z.le (seconds samples) ->
  exists m, from_samples Release samples = Ok (MetricOk m) /\ wb_samples (mt_wbro m) = values samples.
Proof.
  intros samples Hd Hn Hs. destruct (C27_release_never_panics (seconds samples)) as (v & ans & Hu); [eapply Forall_impl; [|apply seconds_range]; cbn; intros; lia|].
  destruct (C39_built _ _ _ _ Hd Hn Hs Hu) as (w & E & V & _). exists (Metric w v). split; [exact E|exact V].
Qed.
Print Assumptions C39_release_never_panics.

Lemma day_points_le ys : day_points ys -> StronglySorted Z.le ys.
Proof.
  intros [H _]. induction H as [|y ys H IH F]; [constructor|]. constructor; [exact IH|]. eapply Forall_impl; [|exact F]. cbn; intros; lia.
Qed.
Theorem C39_increasing : forall p samples,
  Forall datable samples -> day_points (seconds samples) ->
  exists w v, from_samples p samples = Ok (MetricOk (Metric w v)) /\ wb_samples w = values samples /\ index_of p (seconds samples) v /\ w = wb_from_slice (values samples).
Proof.
  intros p samples Hd Hp. destruct (C28_counts p _ Hp) as (v & _ & Hu & _).
  assert (L : Z.of_nat (length samples) < 2 ^ 32) by (rewrite <- (map_length sample_second); assert (B := day_length _ Hp); fold (seconds samples); lia).
  destruct (C39_built p samples v _ Hd L (day_points_le _ Hp) Hu) as (w & E & V & _ & W).
  exists w, v. split; [exact E|]. split; [exact V|]. split; [eexists; exact Hu|exact W].
Qed.
Print Assumptions C39_increasing.

(** The first sample whose second of the day is lower than the one before it stops the construction with an error naming that sample,
    whatever follows: a series that runs past midnight cannot be stored. *)
Theorem C39_decreasing_refused : forall p good prev s rest v answers,
  Forall datable (good ++ [prev]) -> datable s -> Z.of_nat (length (good ++ [prev])) < 2 ^ 32 ->
  StronglySorted Z.le (seconds (good ++ [prev])) -> sample_second s < sample_second prev ->
  update_all p vsri_new (seconds (good ++ [prev])) = Ok (v, answers) ->
  from_samples p ((good ++ [prev]) ++ s :: rest) = Ok (UpdateForPointError s).
Proof.
  intros p good prev s rest v answers Hd Hds Hn Hs Hlt Hu. destruct (C27_history _ _ _ _ Hu) as (Ha & _ & Hmx).
  destruct (answers_sorted (seconds (good ++ [prev])) 0 Hs) as [A B]; [eapply Forall_impl; [|apply seconds_range]; cbn; intros; lia|]. rewrite A in Ha. subst answers. rewrite B in Hmx.
  assert (Hmx' : vs_max v = sample_second prev) by (rewrite Hmx; unfold seconds; rewrite map_app; cbn [map]; apply last_last). clear Hmx A B.
  unfold seconds at 2 in Hu. rewrite map_length in Hu.
  destruct (append_good p _ wb_new vsri_new v (s :: rest) Hd Hu) as (w & I1 & _); [now left|cbn; lia|cbn [wb_new wb_count]; lia|].
  unfold from_samples, metric_default. rewrite I1. cbn [append_samples]. rewrite sample_day_second by exact Hds. cbn [bind mt_vsri]. unfold update_for_point. rewrite Hmx'.
  replace (sample_second s <? sample_second prev) with true by lia. reflexivity.
Qed.
Print Assumptions C39_decreasing_refused.
(** Ten to midnight, then ten past. *)
Example C39_midnight : from_samples Dev [Sample 1704066600000 (from_bits 0); Sample 1704067800000 (from_bits 0)] = Ok (UpdateForPointError (Sample 1704067800000 (from_bits 0))).
Proof. vm_compute. reflexivity. Qed.

(** Reading back: value i comes with the index's time for sample i, for every increasing day, without panic. *)
Lemma pair_samples_spec p v vals : forall i, Z.of_nat (i + length vals) <= 2 ^ 31 ->
  (forall k, (i <= k < i + length vals)%nat -> exists t, get_time p v (Z.of_nat k) = Ok (Some t)) ->
  exists out, pair_samples p v i vals = Ok out /\ values out = vals /\
    forall k s, nth_error out k = Some s -> get_time p v (Z.of_nat (i + k)) = Ok (Some (sm_ts s)).
Proof.
  induction vals as [|x vals IH]; intros i Hn H; [exists []; split; [reflexivity|]; split; [reflexivity|]; intros [|k] s E; discriminate E|].
  cbn [pair_samples length] in *. assert (W : wrap_s 32 (Z.of_nat i) = Z.of_nat i) by (unfold wrap_s; change (32 - 1) with 31; rewrite Z.mod_small by lia; lia). rewrite W.
  destruct (H i ltac:(lia)) as [t Ht]. rewrite Ht. cbn [bind]. destruct (IH (S i)) as (out & E & V & T); [lia|intros k Hk; apply H; lia|]. rewrite E. cbn [bind].
  exists (Sample t x :: out). split; [reflexivity|]. split; [cbn [values map]; f_equal; exact V|]. intros [|k] s Es; cbn [nth_error] in Es.
  - assert (s = Sample t x) as -> by congruence. cbn [sm_ts]. now rewrite Nat.add_0_r.
  - replace (i + S k)%nat with (S i + k)%nat by lia. now apply T.
Qed.

Theorem C39_read_back : forall p samples w v, day_points (seconds samples) -> index_of p (seconds samples) v -> wb_samples w = values samples ->
  exists out, get_samples p (Metric w v) = Ok out /\ values out = values samples /\
    forall k s, nth_error out k = Some s -> get_time p v (Z.of_nat k) = Ok (Some (sm_ts s)).
Proof.
  intros p samples w v Hd Hv Hw. unfold get_samples. cbn [mt_vsri mt_wbro]. rewrite Hw.
  assert (L : length (values samples) = length (seconds samples)) by (unfold values, seconds; now rewrite !map_length).
  assert (B := day_length _ Hd). apply (pair_samples_spec p v (values samples) 0); [lia|].
  intros k Hk. destruct (C31_get_time p _ v (Z.of_nat k) Hd Hv) as (T0 & _ & _ & T1). destruct k as [|k]; [rewrite T0 by reflexivity; eauto|].
  destruct T1 as (s & _ & _ & ->); [lia|]. eauto.
Qed.
Print Assumptions C39_read_back.

(** A series with a constant period (or a single sample) comes back with its seconds. *)
Theorem C39_regular_exact : forall p samples a d n, 0 <= a -> 0 < d -> a + d * (Z.of_nat n - 1) < 86400 ->
  Forall datable samples -> length samples = n -> (1 <= n)%nat -> seconds samples = map (fun i => a + d * Z.of_nat i) (seq 0 n) ->
  exists m, from_samples p samples = Ok (MetricOk m) /\ get_samples p m = Ok (map (fun s => Sample (sample_second s) (sm_val s)) samples).
Proof.
  intros p samples a d n Ha Hd Hb Hdat Hn H1 Hsec. assert (Hp : day_points (seconds samples)) by (rewrite Hsec; now apply regular_day).
  destruct (C39_increasing p samples Hdat Hp) as (w & v & E & V & I & _). exists (Metric w v). split; [exact E|].
  destruct (C39_read_back p samples w v Hp I V) as (out & Eo & Vo & To). rewrite Eo. f_equal.
  assert (T : forall k, (k < n)%nat -> get_time p v (Z.of_nat k) = Ok (Some (a + d * Z.of_nat k))).
  { intros k Hk. destruct (C31_get_time p _ v (Z.of_nat k) Hp I) as (T0 & _ & _ & T1). destruct k as [|k].
    - rewrite T0 by reflexivity. rewrite Hsec. destruct n; [lia|]. reflexivity.
    - destruct T1 as (s & T1 & T2 & ->); [unfold seconds; rewrite map_length; lia|].
      destruct (C29_regular_series_exact p a d n Ha Hd ltac:(lia) Hb) as (v2 & I2 & S2 & _). rewrite <- Hsec in I2.
      assert (v2 = v) as -> by (destruct I as [x1 I], I2 as [x2 I2]; rewrite I in I2; apply ok_inj in I2; congruence).
      rewrite S2 in T1. destruct T1 as [<-|[]]. cbn [sg_y sg_m sg_x]. do 2 f_equal. lia. }
  assert (Lo : length out = length samples) by (rewrite <- (map_length sm_val out); fold (values out); rewrite Vo; unfold values; apply map_length).
  apply list_ext. intros k. rewrite nth_error_map. destruct (nth_error samples k) as [s|] eqn:Es.
  - assert (Lk : (k < n)%nat) by (rewrite <- Hn; apply nth_error_Some; congruence).
    destruct (nth_error out k) as [o|] eqn:Eok; [|apply nth_error_None in Eok; lia]. cbn [option_map]. f_equal.
    assert (To' := To k o Eok). rewrite T in To' by exact Lk. apply ok_inj in To'. destruct o as [ot ov]. cbn [sm_ts] in To'.
    assert (ov = sm_val s). { assert (X : nth_error (values out) k = nth_error (values samples) k) by now rewrite Vo. unfold values in X. rewrite !nth_error_map, Eok, Es in X. cbn in X. congruence. }
    assert (sample_second s = a + d * Z.of_nat k).
    { assert (X : nth_error (seconds samples) k = Some (sample_second s)) by (unfold seconds; rewrite nth_error_map, Es; reflexivity). rewrite Hsec, nth_error_map in X.
      rewrite (nth_error_nth' _ 0%nat) in X by (rewrite seq_length; lia). rewrite seq_nth in X by lia. cbn in X. congruence. }
    subst ov. f_equal. congruence.
  - apply nth_error_None in Es. cbn [option_map]. apply nth_error_None. lia.
Qed.
Print Assumptions C39_regular_exact.

(** Non-vacuity: five samples a minute apart on a day of 2024, and what comes back. *)
Definition minute_samples : list sample := map (fun i => Sample (1704070861000 + 60000 * Z.of_nat i) (int_as_f64 (Z.of_nat i * 3 - 5))) (seq 0 5).
Example C39_example : Forall datable minute_samples /\ seconds minute_samples = map (fun i => 3661 + 60 * Z.of_nat i) (seq 0 5) /\
  day_points (seconds minute_samples) /\ StronglySorted Z.le (seconds minute_samples).
Proof.
  assert (E : seconds minute_samples = map (fun i => 3661 + 60 * Z.of_nat i) (seq 0 5)) by reflexivity.
  assert (D : day_points (seconds minute_samples)) by (rewrite E; apply regular_day; lia).
  split; [unfold minute_samples, datable, chrono_min, chrono_max; rewrite Forall_map; apply Forall_forall; intros i Hi; apply in_seq in Hi; cbn [sm_ts]; Z.to_euclidean_division_equations; lia|].
  split; [exact E|]. split; [exact D|now apply day_points_le].
Qed.

(** Times in a later segment of the index come back wrong: the sixth of these samples was taken at second 105; it comes back at 125. *)
Definition irregular_samples : list sample := map (fun y => Sample (1704067200000 + 1000 * y) (int_as_f64 y)) [0; 10; 25; 31; 100; 105; 110; 200].
Theorem C39_wrong_time_refuted : seconds irregular_samples = [0; 10; 25; 31; 100; 105; 110; 200] /\
  (do r <- from_samples Dev irregular_samples; match r with MetricOk m => do out <- get_samples Dev m; Ok (map (fun s => (sm_ts s, to_bits (sm_val s))) out) | _ => Ok [] end)
  = Ok (map (fun '(t, y) => (t, to_bits (int_as_f64 y))) [(0, 0); (10, 10); (20, 25); (30, 31); (120, 100); (125, 105); (130, 110); (200, 200)]).
Proof. split; vm_compute; reflexivity. Qed.
Print Assumptions C39_wrong_time_refuted.

(** Four or more samples within one second: the metric is built, but reading it back panics. *)
Theorem C39_same_second_panics : forall p samples y, Forall datable samples -> (4 <= length samples)%nat -> Z.of_nat (length samples) < 2 ^ 31 ->
  Forall (fun s => sample_second s = y) samples ->
  exists m, from_samples p samples = Ok (MetricOk m) /\ get_samples p m = Panic PUnwrap.
Proof.
  intros p samples y Hd H4 Hn Hy. assert (Es : seconds samples = repeat y (length samples)).
  { clear - Hy. induction Hy as [|s l H _ IH]; [reflexivity|]. cbn [seconds map length repeat]. rewrite H. f_equal. exact IH. }
  assert (Ry : 0 <= y < 86400). { assert (R := seconds_range samples). rewrite Es in R. destruct samples; [cbn in H4; lia|]. cbn [length repeat] in R. now inversion R. }
  assert (Hu := same_second_index p y (length samples) Ry ltac:(lia)). rewrite <- Es in Hu. set (v := Vsri y y [Seg 0 0 y 2]) in *. assert (Hc : get_sample_count p v = Ok 2) by reflexivity.
  assert (Hs : StronglySorted Z.le (seconds samples)).
  { rewrite Es. clear. induction (length samples) as [|n IH]; [constructor|]. cbn [repeat]. constructor; [exact IH|]. apply Forall_forall. intros z Hz. apply repeat_spec in Hz. lia. }
  destruct (C39_built p samples v _ Hd ltac:(lia) Hs Hu) as (w & E & V & _). exists (Metric w v). split; [exact E|].
  unfold get_samples. cbn [mt_vsri mt_wbro]. rewrite V.
  assert (W : forall i : nat, Z.of_nat i < 4 -> wrap_s 32 (Z.of_nat i) = Z.of_nat i) by (intros i Hi; unfold wrap_s; change (32 - 1) with 31; rewrite Z.mod_small by lia; lia).
  assert (L : length (values samples) = length samples) by apply map_length.
  destruct (values samples) as [|x0 [|x1 [|x2 [|x3 r]]]]; cbn [length] in L; try lia. cbn [pair_samples]. rewrite !W by (cbn; lia).
  assert (T3 : get_time p v 3 = Ok None) by (unfold get_time; rewrite Hc; reflexivity).
  change (Z.of_nat 3) with 3. rewrite T3. cbn [bind].
  assert (T0 : get_time p v (Z.of_nat 0) = Ok (Some y)) by reflexivity. assert (T2 : get_time p v (Z.of_nat 2) = Ok (Some y)) by reflexivity.
  assert (T1 : get_time p v (Z.of_nat 1) = Ok (Some y)).
  { unfold get_time. rewrite Hc. cbn [bind]. unfold v. cbn [vs_segs Z.of_nat Z.eqb Z.ltb Z.compare Pos.compare Pos.compare_cont get_time_in sg_x sg_n sg_m sg_y]. unfold calculate_b. cbn [sg_m sg_x sg_y].
    cbn. rewrite ?arith32 by lia. cbn. rewrite ?arith32 by lia. cbn. rewrite ?arith32 by lia. cbn. f_equal. f_equal. lia. }
  rewrite T0, T1, T2. reflexivity.
Qed.
Print Assumptions C39_same_second_panics.
