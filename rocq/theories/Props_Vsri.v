(** C27-C33, C35: the VSRI index in memory. *)
From Coq Require Import List ZArith Bool Lia ZifyBool Sorting.Sorted.
From Verif Require Import Base Model_Vsri Spec_Vsri VsriFacts VsriLookup.
Import ListNotations.
Open Scope Z_scope.

(** * C27: accepted points *)

(** One call: accepted exactly when not below the maximum; a refusal changes nothing. *)
Theorem C27_update : forall p v y v' ok,
  update_for_point p v y = Ok (v', ok) ->
  (ok = true <-> vs_max v <= y) /\ (ok = false -> v' = v) /\
  (ok = true -> vs_max v' = y /\ vs_min v' = (match vs_segs v with [] => y | _ => vs_min v end) /\ vs_segs v' <> []).
Proof.
  intros p v y v' ok H. unfold update_for_point in H. destruct (y <? vs_max v) eqn:E.
  - apply ok_inj in H. injection H as <- <-. split; [split; [discriminate|lia]|]. split; [reflexivity|discriminate].
  - destruct (vs_segs v) as [|s0 r] eqn:Es.
    + cbn in H. apply ok_inj in H. injection H as <- <-. split; [split; [lia|reflexivity]|]. split; [discriminate|]. intros _. cbn. split; [reflexivity|split; [reflexivity|discriminate]].
    + assert (Hl : forall l s, set_last l s <> []) by (intros l s; unfold set_last; destruct (removelast l); discriminate).
      assert (G : exists segs, v' = Vsri (vs_min v) y segs /\ ok = true /\ segs <> []).
      { destruct (is_fake_segment _).
        - destruct (generate_segment p _ y) as [s|]; [|discriminate H]. cbn [bind] in H. apply ok_inj in H. injection H as <- <-. eauto.
        - destruct (fits_segment p _ y) as [f|]; [|discriminate H]. cbn [bind] in H. destruct f.
          + destruct (arith_s p 32 _) as [n|]; [|discriminate H]. cbn [bind] in H. apply ok_inj in H. injection H as <- <-. eauto.
          + destruct (create_fake_segment p _ y) as [s|]; [|discriminate H]. cbn [bind] in H. apply ok_inj in H. injection H as <- <-.
            eexists. split; [reflexivity|]. split; [reflexivity|]. discriminate. }
      destruct G as (segs & -> & -> & Hne). cbn. split; [split; [lia|reflexivity]|]. split; [discriminate|]. auto.
Qed.
Print Assumptions C27_update.

(** Whole histories, in any order: the answers, the minimum and the maximum are those of the accepted points. *)
Theorem C27_history : forall p ys v ans,
  update_all p vsri_new ys = Ok (v, ans) ->
  ans = answers_for 0 ys /\ vs_min v = hd 0 (accepted 0 ys) /\ vs_max v = last (accepted 0 ys) 0.
Proof.
  intros p ys v ans.
  assert (G : forall ys v0 v ans, update_all p v0 ys = Ok (v, ans) ->
    ans = answers_for (vs_max v0) ys /\
    vs_min v = (match vs_segs v0 with [] => hd (vs_min v0) (accepted (vs_max v0) ys) | _ => vs_min v0 end) /\
    vs_max v = last (accepted (vs_max v0) ys) (vs_max v0)).
  { clear. induction ys as [|y ys IH]; intros v0 v ans H; cbn [update_all] in H.
    - apply ok_inj in H. injection H as <- <-. cbn. destruct (vs_segs v0); auto.
    - destruct (update_for_point p v0 y) as [[v1 b]|] eqn:E; [|discriminate H]. cbn [bind] in H.
      destruct (update_all p v1 ys) as [[v2 bs]|] eqn:E2; [|discriminate H]. cbn [bind] in H. apply ok_inj in H. injection H as <- <-.
      destruct (IH _ _ _ E2) as (I1 & I2 & I3). destruct (C27_update _ _ _ _ _ E) as (U1 & U2 & U3). cbn [answers_for accepted].
      destruct (y <? vs_max v0) eqn:Ey.
      + assert (b = false) by (destruct b; [specialize (proj1 U1 eq_refl); lia|reflexivity]). subst b. specialize (U2 eq_refl). subst v1. rewrite I1. auto.
      + assert (b = true) by (apply U1; lia). subst b. destruct (U3 eq_refl) as (V1 & V2 & V3). rewrite V1 in *. split; [now rewrite I1|]. split.
        * rewrite I2. destruct (vs_segs v1) as [|? ?]; [congruence|]. rewrite V2. now destruct (vs_segs v0).
        * rewrite I3. generalize (accepted y ys). intros l. destruct l; [reflexivity|]. cbn [last]. clear. revert z. induction l as [|c l IH]; intros z; [reflexivity|]. cbn [last] in *. destruct l; [reflexivity|apply (IH c)]. }
  intros H. exact (G ys vsri_new v ans H).
Qed.
Print Assumptions C27_history.

Definition i32_points (ys : list Z) : Prop := Forall (fun y => - 2 ^ 31 <= y < 2 ^ 31) ys.

(** In a release build no history of 32-bit points makes indexing panic. *)
Theorem C27_release_never_panics : forall ys, i32_points ys -> exists v ans, update_all Release vsri_new ys = Ok (v, ans).
Proof.
  assert (A : forall z, exists w, arith_s Release 32 z = Ok w) by (intros z; unfold arith_s; destruct (in_sb 32 z); eauto).
  assert (G : forall ys v, i32_points ys -> 0 <= vs_max v -> 0 <= sg_m (current_segment v) -> 0 <= sg_y (current_segment v) <= vs_max v ->
    exists v' ans, update_all Release v ys = Ok (v', ans)).
  { induction ys as [|y ys IH]; intros v Hy H1 H2 H3; [cbn; eauto|]. inversion Hy as [|? ? Hy1 Hy2]; subst.
    assert (S : exists v1 b, update_for_point Release v y = Ok (v1, b) /\ 0 <= vs_max v1 /\ 0 <= sg_m (current_segment v1) /\ 0 <= sg_y (current_segment v1) <= vs_max v1).
    { unfold update_for_point. destruct (y <? vs_max v) eqn:E; [exists v, false; auto|].
      destruct (vs_segs v) as [|s0 r] eqn:Es.
      - exists (Vsri y y [Seg 0 0 y 1]), true. cbn. split; [reflexivity|]. lia.
      - destruct (exists_last (l := s0 :: r) ltac:(discriminate)) as (ss & s & Ess). rewrite Ess in *.
        assert (Ec : current_segment v = s) by (unfold current_segment; rewrite Es; apply last_last). rewrite Ec in *.
        unfold is_fake_segment, generate_segment, fits_segment, create_fake_segment, calculate_b. rewrite current_snoc.
        destruct (sg_m s =? 0) eqn:Em; cbn [negb].
        + rewrite (arith_s_ok _ 32 (y - sg_y s)) by (try lia; unfold in_s; lia). cbn [bind]. rewrite set_last_snoc. eexists _, true. split; [reflexivity|].
          rewrite current_snoc. cbn [vs_max sg_m sg_y]. lia.
        + destruct (A (sg_m s * sg_x s)) as [w1 ->]. cbn [bind]. destruct (A (sg_y s - w1)) as [w2 ->]. cbn [bind]. destruct (A (y - w2)) as [w3 ->]. cbn [bind].
          unfold i32_div. rewrite Em. replace (sg_m s =? -1) with false by lia. rewrite andb_false_r. cbn [bind]. destruct (A (sg_n s + sg_x s)) as [w4 ->]. cbn [bind].
          destruct (_ =? w4).
          * destruct (A (sg_n s + 1)) as [w5 ->]. cbn [bind]. rewrite set_last_snoc. eexists _, true. split; [reflexivity|]. rewrite current_snoc. cbn [vs_max sg_m sg_y]. lia.
          * destruct (A (sg_x s + sg_n s)) as [w5 ->]. cbn [bind]. eexists _, true. split; [reflexivity|]. rewrite current_snoc. cbn [vs_max sg_m sg_y]. lia. }
    destruct S as (v1 & b & S & S1 & S2 & S3). destruct (IH v1 Hy2 S1 S2 S3) as (v2 & bs & E2). cbn [update_all]. rewrite S. cbn [bind]. rewrite E2. cbn [bind]. eauto. }
  intros ys Hy. apply G; auto; cbn; lia.
Qed.
Print Assumptions C27_release_never_panics.

(** A dev build can panic on points beyond one day. *)
Theorem C27_dev_overflow_refuted : update_all Dev vsri_new [0; 1; 3; 2147483646; 2147483647] = Panic POverflow.
Proof. vm_compute. reflexivity. Qed.
Print Assumptions C27_dev_overflow_refuted.

Example C27_example : update_all Dev vsri_new [5; 3; 10; -1; 10; 15] = Ok (Vsri 5 15 [Seg 5 0 5 2; Seg 5 2 10 2], [true; false; true; false; true; true]).
Proof. reflexivity. Qed.
(** Negative points are refused by a new index. *)
Example C27_negative : update_all Dev vsri_new [-5; 7] = Ok (Vsri 7 7 [Seg 0 0 7 1], [false; true]).
Proof. reflexivity. Qed.

(** * C28: every sample is counted *)
Theorem C28_counts : forall p ys, day_points ys ->
  exists v ts, update_all p vsri_new ys = Ok (v, repeat true (length ys)) /\
    get_sample_count p v = Ok (Z.of_nat (length ys)) /\
    tiles 0 (vs_segs v) (Z.of_nat (length ys)) /\
    get_all_timestamps p v = Ok ts /\ length ts = length ys.
Proof.
  intros p ys Hd. destruct (build p ys Hd) as (segs & H1 & H2). assert (Ho := describes_ok _ _ Hd H2). assert (Ht := describes_tiles _ _ H2).
  exists (summary ys segs), (concat (map listed segs)). split; [exact H1|]. split; [rewrite count_ok by exact Ho; f_equal; now apply tiles_count|].
  split; [exact Ht|]. split; [now apply timestamps_ok|now apply describes_listed_length].
Qed.
Print Assumptions C28_counts.
(** Repeated points lose samples. *)
Theorem C28_repeated_points_refuted :
  (do (v, _) <- update_all Dev vsri_new [5; 5; 10]; do c <- get_sample_count Dev v; do ts <- get_all_timestamps Dev v; Ok (c, ts)) = Ok (2, [5; 10]).
Proof. reflexivity. Qed.
Print Assumptions C28_repeated_points_refuted.

Lemma same_second_index p y k : 0 <= y < 86400 -> (2 <= k)%nat -> update_all p vsri_new (repeat y k) = Ok (Vsri y y [Seg 0 0 y 2], repeat true k).
Proof.
  intros Hy Hk.
  assert (S2 : forall n, update_all p (Vsri y y [Seg 0 0 y 2]) (repeat y n) = Ok (Vsri y y [Seg 0 0 y 2], repeat true n)).
  { induction n as [|n IH]; [reflexivity|]. cbn [repeat update_all]. unfold update_for_point. cbn [vs_max vs_segs vs_min]. replace (y <? y) with false by lia.
    unfold is_fake_segment, generate_segment, current_segment. cbn [vs_segs last sg_m Z.eqb negb sg_x sg_y]. rewrite arith32 by lia. cbn [bind]. rewrite Z.sub_diag.
    unfold set_last. cbn [removelast app]. rewrite IH. reflexivity. }
  destruct k as [|[|k]]; [lia|lia|]. cbn [repeat update_all]. unfold update_for_point at 1. cbn [vs_max vs_segs vs_min vsri_new]. replace (y <? 0) with false by lia.
  unfold create_fake_segment, current_segment. cbn [vs_segs last sg_x sg_n Z.add]. rewrite arith32 by lia. cbn [bind].
  unfold update_for_point at 1. cbn [vs_max vs_segs vs_min]. replace (y <? y) with false by lia.
  unfold is_fake_segment, generate_segment, current_segment. cbn [vs_segs last sg_m Z.eqb negb sg_x sg_y]. rewrite arith32 by lia. cbn [bind]. rewrite Z.sub_diag.
  unfold set_last. cbn [removelast app]. rewrite S2. reflexivity.
Qed.

(** However often the same second is repeated at the start, at most two samples are counted for it. *)
Theorem C28_same_second_refuted : forall p y k, 0 <= y < 86400 -> (2 <= k)%nat ->
  exists v, update_all p vsri_new (repeat y k) = Ok (v, repeat true k) /\ get_sample_count p v = Ok 2.
Proof. intros p y k Hy Hk. exists (Vsri y y [Seg 0 0 y 2]). split; [now apply same_second_index|reflexivity]. Qed.
Print Assumptions C28_same_second_refuted.

Definition sample_day : list Z := [0; 10; 25; 31; 100; 105; 110; 200].
Lemma sample_day_ok : day_points sample_day.
Proof. split; [repeat (constructor; [|repeat (constructor; [reflexivity|]); constructor]); constructor|repeat (constructor; [split; [discriminate|reflexivity]|]); constructor]. Qed.
Definition sample_index : vsri := Vsri 0 200 [Seg 10 0 0 4; Seg 5 4 100 3; Seg 0 7 200 1].
Example C28_example : day_points sample_day /\ index_of Dev sample_day sample_index /\
  get_all_timestamps Dev sample_index = Ok [0; 10; 20; 30; 100; 105; 110; 200].
Proof. split; [apply sample_day_ok|]. split; [eexists; vm_compute; reflexivity|reflexivity]. Qed.

(** * C29: listed times are accurate to one period *)
Theorem C29_accuracy : forall p ys v, day_points ys -> index_of p ys v ->
  exists ts, get_all_timestamps p v = Ok ts /\ length ts = length ys /\
    forall i t t', nth_error ys i = Some t -> nth_error ts i = Some t' ->
      exists s, In s (vs_segs v) /\ in_segment s (Z.of_nat i) /\ t' <= t /\ (t = t' \/ t < t' + sg_m s) /\ (Z.of_nat i < sg_x s + 2 -> t = t').
Proof.
  intros p ys v Hd Hv. destruct (index_facts p ys v Hd Hv) as (segs & -> & H1 & H2 & H3 & H4 & H5). exists (concat (map listed segs)).
  split; [now apply timestamps_ok|]. split; [now apply describes_listed_length|]. intros i t t' Hi Hi'.
  destruct (describes_nth segs ys i t H1 Hi) as (s & N1 & N2 & N3 & N4 & N5 & N6). assert (Et : t' = sg_y s + sg_m s * (Z.of_nat i - sg_x s)) by congruence.
  exists s. split; [exact N1|]. split; [exact N2|]. split; [lia|]. split; [|intros H; specialize (N6 H); lia].
  rewrite Forall_forall in H2. specialize (H2 s N1). unfold seg_ok in H2. destruct (Z.eq_dec (sg_m s) 0) as [E|E]; [|right; specialize (N5 ltac:(lia)); lia].
  left. unfold in_segment in N2. assert (sg_n s = 1) by lia. specialize (N6 ltac:(lia)). lia.
Qed.
Print Assumptions C29_accuracy.

Lemma regular_sorted a d n : 0 < d -> StronglySorted Z.lt (map (fun i => a + d * Z.of_nat i) (seq 0 n)).
Proof.
  intros Hd. generalize 0%nat. induction n as [|n IH]; intros k; cbn [seq map]; constructor; [apply IH|]. apply Forall_forall. intros z Hz. apply in_map_iff in Hz.
  destruct Hz as (i & <- & Hi). apply in_seq in Hi. nia.
Qed.

Lemma regular_build p a d : 0 <= a -> 0 < d -> forall n, (2 <= n)%nat -> a + d * (Z.of_nat n - 1) < 86400 ->
  update_all p vsri_new (map (fun i => a + d * Z.of_nat i) (seq 0 n)) = Ok (Vsri a (a + d * (Z.of_nat n - 1)) [Seg d 0 a (Z.of_nat n)], repeat true n).
Proof.
  intros Ha Hd n Hn. induction n as [|n IH]; [lia|]. intros Hb. destruct (Nat.eq_dec n 1) as [->|Hn1].
  - cbn [seq map]. replace (a + d * Z.of_nat 0) with a by lia. replace (a + d * Z.of_nat 1) with (a + d) by lia.
    cbn [update_all]. unfold update_for_point at 1. cbn [vs_max vs_segs vs_min vsri_new]. replace (a <? 0) with false by lia.
    unfold create_fake_segment, current_segment. cbn [vs_segs last sg_x sg_n Z.add]. rewrite arith32 by lia. cbn [bind].
    unfold update_for_point at 1. cbn [vs_max vs_segs vs_min]. replace (a + d <? a) with false by lia.
    unfold is_fake_segment, generate_segment, current_segment. cbn [vs_segs last sg_m Z.eqb negb sg_x sg_y]. rewrite arith32 by lia. cbn [bind].
    unfold set_last. cbn [removelast app]. do 4 f_equal; [lia|]. f_equal. lia.
  - rewrite seq_S, map_app, update_all_app, IH by lia. cbn [bind map update_all Nat.add]. unfold update_for_point. cbn [vs_max vs_segs vs_min].
    set (y := a + d * Z.of_nat n). replace (y <? a + d * (Z.of_nat n - 1)) with false by (unfold y; lia).
    assert (Hok : seg_ok (Seg d 0 a (Z.of_nat n))) by (unfold seg_ok, last_time; cbn [sg_m sg_x sg_y sg_n]; nia).
    unfold is_fake_segment, fits_segment, current_segment. cbn [vs_segs last sg_m]. replace (d =? 0) with false by lia.
    assert (LP := line_position p (Seg d 0 a (Z.of_nat n)) y Hok ltac:(cbn; lia) ltac:(cbn [sg_y]; unfold y; lia)). cbn [sg_m sg_x sg_y] in LP.
    destruct (calculate_b p _) as [b|]; [|discriminate LP]. cbn [bind] in *. destruct (arith_s p 32 (y - b)) as [yb|]; [|discriminate LP]. cbn [bind] in *. rewrite LP. cbn [bind sg_n sg_x].
    assert (Z.of_nat n < 86400) by nia.
    rewrite arith32 by lia. cbn [bind]. replace ((y - a) / d) with (Z.of_nat n) by (unfold y; replace (a + d * Z.of_nat n - a) with (Z.of_nat n * d) by lia; now rewrite Z.div_mul by lia).
    replace (0 + Z.of_nat n =? Z.of_nat n + 0) with true by lia. rewrite arith32 by lia. cbn [bind]. unfold set_last. cbn [removelast app sg_y].
    change (repeat true (S n)) with (true :: repeat true n). rewrite repeat_cons. do 3 f_equal; [unfold y; lia|]. do 2 f_equal. lia.
Qed.

(** A series with a constant period is listed exactly and takes one segment. *)
Theorem C29_regular_series_exact : forall p a d n, 0 <= a -> 0 < d -> (2 <= n)%nat -> a + d * (Z.of_nat n - 1) < 86400 ->
  let ys := map (fun i => a + d * Z.of_nat i) (seq 0 n) in
  exists v, index_of p ys v /\ vs_segs v = [Seg d 0 a (Z.of_nat n)] /\ get_all_timestamps p v = Ok ys.
Proof.
  intros p a d n Ha Hd Hn Hb ys. eexists. split; [eexists; now apply regular_build|]. split; [reflexivity|].
  rewrite timestamps_ok.
  - cbn [vs_segs map concat listed sg_n sg_y sg_m]. unfold listed. cbn [sg_n sg_y sg_m]. now rewrite app_nil_r, Nat2Z.id.
  - constructor; [|constructor]. unfold seg_ok, last_time; cbn [sg_m sg_x sg_y sg_n]. nia.
Qed.
Print Assumptions C29_regular_series_exact.
Example C29_example : let ys := map (fun i => 15 + 60 * Z.of_nat i) (seq 0 100) in exists v, index_of Dev ys v /\ vs_segs v = [Seg 60 0 15 100] /\ get_all_timestamps Dev v = Ok ys.
Proof. apply (C29_regular_series_exact Dev 15 60 100); lia. Qed.

(** * C30: lookup by time *)

(** Complete description for every query time: nothing outside the spans of the segments, the sample number inside,
    and a division by zero on the only time of a single-sample segment. *)
Theorem C30_get_sample : forall p ys v y, day_points ys -> index_of p ys v ->
  ((forall s, In s (vs_segs v) -> ~ (sg_y s <= y <= last_time s)) /\ get_sample p v y = Ok None) \/
  (exists s, In s (vs_segs v) /\ sg_n s = 1 /\ y = sg_y s /\ get_sample p v y = Panic PDivZero) \/
  (exists s, In s (vs_segs v) /\ 2 <= sg_n s /\ sg_y s <= y <= last_time s /\
     exists i, in_segment s i /\ get_sample p v y = Ok (Some i) /\ sg_y s + sg_m s * (i - sg_x s) <= y < sg_y s + sg_m s * (i - sg_x s) + sg_m s).
Proof.
  intros p ys v y Hd Hv. destruct (index_facts p ys v Hd Hv) as (segs & -> & H1 & H2 & H3 & H4 & H5). unfold get_sample. cbn [vs_segs summary].
  rewrite (get_sample_pure p segs y H2). destruct (sample_cases segs y) as [(s & S1 & S2)|S]; [right|left; split; [exact S|now apply sample_miss]].
  rewrite (sample_hit segs s y H2 H4 S1 S2). rewrite Forall_forall in H2. assert (Hs := H2 s S1). pose proof (seg_ok_mx s Hs) as B. unfold seg_ok in Hs. unfold lookup_line.
  destruct (Z.eq_dec (sg_n s) 1) as [E|E].
  - left. exists s. split; [exact S1|]. split; [exact E|]. assert (sg_m s = 0) by tauto. unfold last_time in *. split; [nia|]. now rewrite H.
  - right. exists s. split; [exact S1|]. split; [lia|]. split; [exact S2|]. assert (Hm : 0 < sg_m s) by (apply Hs; lia).
    exists (sg_x s + (y - sg_y s) / sg_m s). replace (sg_m s =? 0) with false by lia.
    pose proof (Z.div_mod (y - sg_y s) (sg_m s) ltac:(lia)) as M. pose proof (Z.mod_pos_bound (y - sg_y s) (sg_m s) Hm) as M2.
    assert (0 <= (y - sg_y s) / sg_m s) by (apply Z.div_pos; lia).
    assert ((y - sg_y s) / sg_m s < sg_n s) by (apply Z.div_lt_upper_bound; unfold last_time in *; nia).
    split; [unfold in_segment; lia|]. split; [reflexivity|]. replace (sg_x s + (y - sg_y s) / sg_m s - sg_x s) with ((y - sg_y s) / sg_m s) by lia. lia.
Qed.
Print Assumptions C30_get_sample.

(** Every listed time of a segment with two samples or more is found at its position in the list. *)
Theorem C30_listed_found : forall p ys v ts i t', day_points ys -> index_of p ys v ->
  get_all_timestamps p v = Ok ts -> nth_error ts i = Some t' ->
  (forall s, In s (vs_segs v) -> in_segment s (Z.of_nat i) -> 2 <= sg_n s) ->
  get_sample p v t' = Ok (Some (Z.of_nat i)).
Proof.
  intros p ys v ts i t' Hd Hv Hts Hi Hn. destruct (index_facts p ys v Hd Hv) as (segs & -> & H1 & H2 & H3 & H4 & H5). rewrite timestamps_ok in Hts by exact H2.
  apply ok_inj in Hts. subst ts. cbn [vs_segs summary] in *.
  assert (exists t, nth_error ys i = Some t) as [t Ht].
  { destruct (nth_error ys i) eqn:E; [eauto|]. apply nth_error_None in E. rewrite <- (describes_listed_length _ _ H1) in E. apply nth_error_None in E. congruence. }
  destruct (describes_nth segs ys i t H1 Ht) as (s & N1 & N2 & N3 & _). rewrite N3 in Hi. injection Hi as <-.
  specialize (Hn s N1 N2). unfold get_sample. cbn [vs_segs summary]. rewrite (get_sample_pure p segs _ H2).
  assert (Hs : seg_ok s) by (rewrite Forall_forall in H2; now apply H2). unfold seg_ok in Hs. unfold in_segment in N2. assert (Hm : 0 < sg_m s) by (apply Hs; lia).
  rewrite (sample_hit segs s _ H2 H4 N1) by (unfold last_time; nia). unfold lookup_line. replace (sg_m s =? 0) with false by lia. do 2 f_equal.
  replace (sg_y s + sg_m s * (Z.of_nat i - sg_x s) - sg_y s) with ((Z.of_nat i - sg_x s) * sg_m s) by lia. rewrite Z.div_mul by lia. lia.
Qed.
Print Assumptions C30_listed_found.

(** Every indexed point is found at its own position, except the last of a segment: that one is found only if it
    was exactly on time; a late one is not found, and a lone one makes the lookup panic. *)
Theorem C30_points : forall p ys v i t, day_points ys -> index_of p ys v -> nth_error ys i = Some t ->
  exists s, In s (vs_segs v) /\ in_segment s (Z.of_nat i) /\
  ((Z.of_nat i < sg_x s + sg_n s - 1 \/ (2 <= sg_n s /\ t = last_time s)) -> get_sample p v t = Ok (Some (Z.of_nat i))) /\
  (Z.of_nat i = sg_x s + sg_n s - 1 -> 2 <= sg_n s -> t <> last_time s -> get_sample p v t = Ok None) /\
  (sg_n s = 1 -> get_sample p v t = Panic PDivZero).
Proof.
  intros p ys v i t Hd Hv Ht. destruct (index_facts p ys v Hd Hv) as (segs & -> & H1 & H2 & H3 & H4 & H5). cbn [vs_segs summary] in *.
  destruct (describes_nth segs ys i t H1 Ht) as (s & N1 & N2 & N3 & N4 & N5 & N6). exists s. split; [exact N1|]. split; [exact N2|].
  assert (Hs : seg_ok s) by (rewrite Forall_forall in H2; now apply H2). unfold seg_ok in Hs. unfold in_segment in N2.
  unfold get_sample. cbn [vs_segs summary]. rewrite (get_sample_pure p segs _ H2). split; [|split].
  - intros C. assert (Hn : 2 <= sg_n s) by lia. assert (Hm : 0 < sg_m s) by (apply Hs; lia). specialize (N5 Hm).
    assert (Hin : sg_y s <= t <= last_time s) by (split; [nia|]; destruct C as [C|[_ ->]]; [unfold last_time; nia|lia]).
    rewrite (sample_hit segs s _ H2 H4 N1 Hin). unfold lookup_line. replace (sg_m s =? 0) with false by lia. do 2 f_equal.
    enough ((t - sg_y s) / sg_m s = Z.of_nat i - sg_x s) by lia. symmetry. apply (Z.div_unique _ _ _ (t - sg_y s - sg_m s * (Z.of_nat i - sg_x s))); [left; lia|lia].
  - intros E Hn Hne. apply sample_miss. intros s' Hs' Hin.
    assert (Hm : 0 < sg_m s) by (apply Hs; lia). specialize (N5 Hm). assert (Hlt : last_time s < t) by (unfold last_time in *; replace (sg_n s - 1) with (Z.of_nat i - sg_x s) in * by lia; lia).
    (* the other segments start at later points, or end before *)
    destruct (In_nth_error _ _ N1) as [a Ha]. destruct (In_nth_error _ _ Hs') as [b Hb].
    destruct (lt_eq_lt_dec a b) as [[L|L]|L].
    + assert (t < sg_y s') by (apply (describes_before segs ys Hd H1 a b s s' i t); auto). lia.
    + subst b. assert (s' = s) by congruence. subst s'. lia.
    + assert (after s' s) by (apply (sorted_after_nth segs H4 b a); auto). unfold after in *. assert (sg_y s <= t) by nia. lia.
  - intros E. assert (Hm : sg_m s = 0) by tauto. assert (Et : t = sg_y s) by (specialize (N6 ltac:(lia)); rewrite Hm in N6; lia).
    rewrite (sample_hit segs s _ H2 H4 N1) by (unfold last_time; nia). unfold lookup_line. now rewrite Hm.
Qed.
Print Assumptions C30_points.
Example C30_example : map (get_sample Dev sample_index) [0; 12; 25; 31; 50; 105; 110; 200] =
  [Ok (Some 0); Ok (Some 1); Ok (Some 2); Ok None; Ok None; Ok (Some 5); Ok (Some 6); Panic PDivZero].
Proof. vm_compute. reflexivity. Qed.

Lemma describes_nonempty segs pts : describes segs pts -> segs <> [] -> pts <> [].
Proof.
  intros H Hne. destruct (describes_inv _ _ H Hne) as (ss & s & pp & g & _ & -> & _ & _ & Sg). assert (L := segment_of_nonempty _ _ _ Sg).
  destruct g; [cbn in L; lia|]. destruct pp; discriminate.
Qed.
Lemma summary_count p ys segs : Forall seg_ok segs -> tiles 0 segs (Z.of_nat (length ys)) -> get_sample_count p (summary ys segs) = Ok (Z.of_nat (length ys)).
Proof. intros H1 H2. rewrite count_ok by exact H1. f_equal. now apply tiles_count. Qed.

(** * C31: lookup by sample number *)

(** Complete description for every sample number. *)
Theorem C31_get_time : forall p ys v i, day_points ys -> index_of p ys v ->
  (i = 0 -> get_time p v i = Ok (Some (hd 0 ys))) /\
  (0 < i -> i = Z.of_nat (length ys) -> get_time p v i = Ok (Some (last ys 0))) /\
  (i < 0 \/ Z.of_nat (length ys) < i -> get_time p v i = Ok None) /\
  (0 < i < Z.of_nat (length ys) ->
     exists s, In s (vs_segs v) /\ in_segment s i /\ get_time p v i = Ok (Some (sg_y s + sg_m s * (i - sg_x s) + sg_m s * sg_x s))).
Proof.
  intros p ys v i Hd Hv. destruct (index_facts p ys v Hd Hv) as (segs & -> & H1 & H2 & H3 & H4 & H5). unfold get_time. rewrite summary_count by assumption. cbn [bind].
  cbn [vs_min vs_max vs_segs summary]. rewrite (get_time_pure p segs i H2).
  split; [intros ->; reflexivity|]. split; [intros Hi ->|split].
  - replace (Z.of_nat (length ys) =? 0) with false by lia. replace (Z.of_nat (length ys) <? Z.of_nat (length ys)) with false by lia. now rewrite Z.eqb_refl.
  - intros Hi. replace (i =? 0) with false by lia. destruct (Z.of_nat (length ys) <? i) eqn:E; [reflexivity|]. replace (i =? Z.of_nat (length ys)) with false by lia.
    f_equal. apply time_miss. intros s Hs Hin. assert (T := tiles_in _ _ _ s H3 Hs). unfold in_segment in Hin. lia.
  - intros Hi. replace (i =? 0) with false by lia. replace (Z.of_nat (length ys) <? i) with false by lia. replace (i =? Z.of_nat (length ys)) with false by lia.
    assert (exists t, nth_error ys (Z.to_nat i) = Some t) as [t Ht] by (destruct (nth_error ys (Z.to_nat i)) eqn:E; [eauto|apply nth_error_None in E; lia]).
    destruct (describes_nth segs ys _ t H1 Ht) as (s & N1 & N2 & _). rewrite Z2Nat.id in N2 by lia. exists s. split; [exact N1|]. split; [exact N2|].
    rewrite (time_hit segs 0 _ s i H3 N1 N2). do 2 f_equal. lia.
Qed.
Print Assumptions C31_get_time.

(** So in the first segment get_time gives the listed time; in a later segment it is off by the period times the first
    sample number of the segment. *)
Theorem C31_against_list : forall p ys v ts i t', day_points ys -> index_of p ys v ->
  get_all_timestamps p v = Ok ts -> nth_error ts i = Some t' -> (0 < i)%nat ->
  exists s, In s (vs_segs v) /\ in_segment s (Z.of_nat i) /\ get_time p v (Z.of_nat i) = Ok (Some (t' + sg_m s * sg_x s)).
Proof.
  intros p ys v ts i t' Hd Hv Hts Hi H0. destruct (index_facts p ys v Hd Hv) as (segs & -> & H1 & H2 & H3 & H4 & H5). rewrite timestamps_ok in Hts by exact H2.
  apply ok_inj in Hts. subst ts. cbn [vs_segs summary] in *. assert (L := describes_listed_length _ _ H1).
  assert (Li : (i < length ys)%nat) by (rewrite <- L; apply nth_error_Some; congruence).
  assert (exists t, nth_error ys i = Some t) as [t Ht] by (destruct (nth_error ys i) eqn:E; [eauto|apply nth_error_None in E; lia]).
  destruct (describes_nth segs ys i t H1 Ht) as (s & N1 & N2 & N3 & _). rewrite N3 in Hi. injection Hi as <-. exists s. split; [exact N1|]. split; [exact N2|].
  unfold get_time. rewrite summary_count by assumption. cbn [bind]. cbn [vs_min vs_max vs_segs summary].
  rewrite (get_time_pure p segs _ H2). replace (Z.of_nat i =? 0) with false by lia. replace (Z.of_nat (length ys) <? Z.of_nat i) with false by lia.
  replace (Z.of_nat i =? Z.of_nat (length ys)) with false by lia. rewrite (time_hit segs 0 _ s _ H3 N1 N2). do 2 f_equal. lia.
Qed.
Print Assumptions C31_against_list.
(** Sample 5 was indexed (and is listed) at 105; get_time answers 125. *)
Theorem C31_later_segment_refuted : index_of Dev sample_day sample_index /\ nth_error sample_day 5 = Some 105 /\
  get_sample Dev sample_index 105 = Ok (Some 5) /\ get_time Dev sample_index 5 = Ok (Some 125).
Proof. split; [eexists; vm_compute; reflexivity|]. split; [reflexivity|]. split; reflexivity. Qed.
Print Assumptions C31_later_segment_refuted.

(** * C32: next and previous sample *)

Lemma previous_gap l a b r y : (forall s, In s (l ++ [a]) -> sg_y s <= y) -> y < sg_y b -> previous_pure (l ++ a :: b :: r) y = Some (sg_x b - 1).
Proof.
  induction l as [|c l IH]; intros H Hb; cbn [app previous_pure] in *.
  - assert (Ha := H a (or_introl eq_refl)). replace (y <? sg_y a) with false by lia. replace (y <? sg_y b) with true by lia. reflexivity.
  - assert (Hc := H c (or_introl eq_refl)). replace (y <? sg_y c) with false by lia. apply IH; [|exact Hb]. intros s Hs. apply H. now right.
Qed.

Lemma day_bounds ys t : day_points ys -> In t ys -> hd 0 ys <= t <= last ys 0.
Proof.
  intros [Hs _] Ht. split.
  - destruct ys as [|a l]; [destruct Ht|]. cbn. inversion Hs as [|? ? _ F]; subst. destruct Ht as [<-|Ht]; [lia|]. rewrite Forall_forall in F. specialize (F t Ht). lia.
  - destruct ys as [|a l]; [destruct Ht|]. destruct (exists_last (l := a :: l) ltac:(discriminate)) as (b & c & E). rewrite E in *. rewrite last_last.
    apply sorted_app_inv in Hs. destruct Hs as (_ & _ & Hs). apply in_app_iff in Ht. destruct Ht as [Ht|[<-|[]]]; [|lia]. specialize (Hs t c Ht (or_introl eq_refl)). lia.
Qed.

Lemma gap_facts p ys v l a b r y : day_points ys -> index_of p ys v -> vs_segs v = l ++ a :: b :: r -> last_time a < y < sg_y b ->
  (forall s, In s (l ++ [a]) -> last_time s < y /\ sg_y s <= last_time s) /\ (forall s, In s (b :: r) -> y < sg_y s) /\ vs_min v <= y < vs_max v /\
  sg_x b = sg_x a + sg_n a /\ 1 <= sg_x b /\ Forall seg_ok (vs_segs v).
Proof.
  intros Hd Hv Es Hy. destruct (index_facts p ys v Hd Hv) as (segs & -> & H1 & H2 & H3 & H4 & H5). cbn [vs_segs vs_min vs_max summary] in *. subst segs.
  assert (SS : StronglySorted after (l ++ [a]) /\ StronglySorted after (b :: r) /\ forall s s', In s (l ++ [a]) -> In s' (b :: r) -> after s s').
  { clear -H4. replace (l ++ a :: b :: r) with ((l ++ [a]) ++ b :: r) in H4 by (rewrite <- app_assoc; reflexivity). revert H4. generalize (l ++ [a]) (b :: r). clear.
    induction l as [|c l IH]; cbn; intros r H; [split; [constructor|]; split; [exact H|]; intros ? ? []|]. inversion H as [|? ? I1 I2]; subst. destruct (IH _ I1) as (J1 & J2 & J3).
    rewrite Forall_app in I2. destruct I2 as [F1 F2]. split; [now constructor|]. split; [exact J2|]. intros s s' [<-|Hs] Hs'; [|now apply J3]. rewrite Forall_forall in F2. now apply F2. }
  destruct SS as (S1 & S2 & S3).
  assert (Hm : forall s, In s (l ++ a :: b :: r) -> sg_y s <= last_time s).
  { intros s Hs. rewrite Forall_forall in H2. pose proof (seg_ok_mx s (H2 s Hs)). lia. }
  assert (Hbefore : forall s, In s (l ++ [a]) -> last_time s <= last_time a).
  { intros s Hs. apply in_app_iff in Hs. destruct Hs as [Hs|[<-|[]]]; [|lia]. apply In_nth_error in Hs. destruct Hs as [k Hk].
    assert (after s a).
    { assert (k < length l)%nat by (apply nth_error_Some; congruence). apply (sorted_after_nth _ S1 k (length l)); [assumption|rewrite nth_error_app1 by assumption; exact Hk|rewrite nth_error_app2, Nat.sub_diag by lia; reflexivity]. }
    unfold after in *. assert (In a (l ++ a :: b :: r)) by (apply in_or_app; right; now left). specialize (Hm a H0). lia. }
  assert (Ia : In a (l ++ a :: b :: r)) by (apply in_or_app; right; now left). assert (Ib : In b (l ++ a :: b :: r)) by (apply in_or_app; right; right; now left).
  split; [|split; [|split; [|split; [|split]]]].
  - intros s Hs. split; [specialize (Hbefore s Hs); lia|]. apply Hm. apply in_app_iff in Hs. apply in_or_app. destruct Hs as [Hs|[<-|[]]]; [now left|right; now left].
  - intros s [<-|Hs]; [lia|]. inversion S2 as [|? ? _ F]; subst. rewrite Forall_forall in F. specialize (F s Hs). unfold after in F. specialize (Hm b Ib). lia.
  - destruct (H5 a Ia) as [A _]. destruct (H5 b Ib) as [B _]. apply (day_bounds ys _ Hd) in A. apply (day_bounds ys _ Hd) in B. specialize (Hm a Ia). lia.
  - apply tiles_app in H3. destruct H3 as (k & _ & H3). cbn [tiles] in H3. lia.
  - apply tiles_app in H3. destruct H3 as (k & H3 & H6). apply tiles_le in H3. cbn [tiles] in H6. lia.
  - exact H2.
Qed.

(** Between two consecutive segments, the previous-sample lookup gives the last sample of the earlier one. *)
Theorem C32_previous_in_gap : forall p ys v l a b r y, day_points ys -> index_of p ys v ->
  vs_segs v = l ++ a :: b :: r -> last_time a < y < sg_y b ->
  get_previous_sample p v y = Ok (Some (sg_x a + sg_n a - 1)) /\ get_this_or_previous p v y = Ok (Some (sg_x a + sg_n a - 1)).
Proof.
  intros p ys v l a b r y Hd Hv Es Hy. destruct (gap_facts p ys v l a b r y Hd Hv Es Hy) as (G1 & G2 & G3 & G4 & G5 & G6).
  assert (E : get_previous_sample p v y = Ok (Some (sg_x a + sg_n a - 1))).
  { unfold get_previous_sample. replace (y <? vs_min v) with false by lia. replace (vs_max v <=? y) with false by lia. rewrite previous_in_pure by exact G6.
    rewrite Es, previous_gap; [f_equal; f_equal; lia| |lia]. intros s Hs. destruct (G1 s Hs). lia. }
  split; [exact E|]. unfold get_this_or_previous, get_sample. rewrite E, get_sample_pure by exact G6. rewrite sample_miss; [reflexivity|].
  intros s Hs. rewrite Es in Hs. replace (l ++ a :: b :: r) with ((l ++ [a]) ++ b :: r) in Hs by (rewrite <- app_assoc; reflexivity). apply in_app_iff in Hs.
  destruct Hs as [Hs|Hs]; [destruct (G1 s Hs); lia|specialize (G2 s Hs); lia].
Qed.
Print Assumptions C32_previous_in_gap.

(** Before the first point there is no previous sample and the next one is number 0; from the last point on there is
    no next sample, and the previous-sample lookup answers the number of samples, one past the last sample. *)
Theorem C32_ends : forall p ys v y, day_points ys -> index_of p ys v -> ys <> [] ->
  (y < hd 0 ys -> get_previous_sample p v y = Ok None /\ get_next_sample v y = Some 0) /\
  (last ys 0 <= y -> get_next_sample v y = None /\ get_previous_sample p v y = Ok (Some (Z.of_nat (length ys)))).
Proof.
  intros p ys v y Hd Hv Hne. destruct (index_facts p ys v Hd Hv) as (segs & -> & H1 & H2 & H3 & H4 & H5).
  unfold get_previous_sample, get_next_sample. cbn [vs_min vs_max vs_segs summary]. split; intros Hy.
  - replace (y <? hd 0 ys) with true by lia. auto.
  - assert (B := day_bounds ys _ Hd (in_last ys Hne)). replace (y <? hd 0 ys) with false by lia. replace (last ys 0 <=? y) with true by lia.
    rewrite summary_count by assumption. auto.
Qed.
Print Assumptions C32_ends.

(** The previous-sample lookup on every other time: from the start of a segment to the start of the following one it gives the last
    sample of that segment, even if that one is later than the time asked for; from the start of the last segment on, nothing. *)
Theorem C32_previous_in_segment : forall p ys v l a b r y, day_points ys -> index_of p ys v ->
  vs_segs v = l ++ a :: b :: r -> sg_y a <= y < sg_y b -> get_previous_sample p v y = Ok (Some (sg_x a + sg_n a - 1)).
Proof.
  intros p ys v l a b r y Hd Hv Es Hy. destruct (index_facts p ys v Hd Hv) as (segs & -> & H1 & H2 & H3 & H4 & H5). cbn [vs_segs summary] in *. subst segs.
  assert (Ia : In a (l ++ a :: b :: r)) by (apply in_or_app; right; now left). assert (Ib : In b (l ++ a :: b :: r)) by (apply in_or_app; right; right; now left).
  destruct (H5 a Ia) as [A _]. destruct (H5 b Ib) as [B _]. apply (day_bounds ys _ Hd) in A. apply (day_bounds ys _ Hd) in B.
  unfold get_previous_sample. cbn [vs_min vs_max vs_segs summary]. replace (y <? hd 0 ys) with false by lia. replace (last ys 0 <=? y) with false by lia.
  rewrite previous_in_pure by exact H2.
  assert (X : sg_x b = sg_x a + sg_n a) by (apply tiles_app in H3; destruct H3 as (k & _ & H3); cbn [tiles] in H3; lia).
  rewrite previous_gap; [f_equal; f_equal; lia| |lia].
  intros s Hs. apply in_app_iff in Hs. destruct Hs as [Hs|[<-|[]]]; [|lia]. apply In_nth_error in Hs. destruct Hs as [k Hk].
  assert (k < length l)%nat by (apply nth_error_Some; congruence).
  assert (F : after s a) by (apply (sorted_after_nth _ H4 k (length l)); [assumption|rewrite nth_error_app1 by assumption; exact Hk|rewrite nth_error_app2, Nat.sub_diag by lia; reflexivity]).
  unfold after in F. rewrite Forall_forall in H2. assert (Is : In s (l ++ a :: b :: r)) by (apply in_or_app; left; eapply nth_error_In; exact Hk).
  pose proof (seg_ok_mx s (H2 s Is)). lia.
Qed.
Print Assumptions C32_previous_in_segment.
Theorem C32_previous_in_last_segment : forall p ys v l a y, day_points ys -> index_of p ys v ->
  vs_segs v = l ++ [a] -> sg_y a <= y < last ys 0 -> get_previous_sample p v y = Ok None.
Proof.
  intros p ys v l a y Hd Hv Es Hy. destruct (index_facts p ys v Hd Hv) as (segs & -> & H1 & H2 & H3 & H4 & H5). cbn [vs_segs summary] in *. subst segs.
  assert (Ia : In a (l ++ [a])) by (apply in_or_app; right; now left). destruct (H5 a Ia) as [A _]. apply (day_bounds ys _ Hd) in A.
  unfold get_previous_sample. cbn [vs_min vs_max vs_segs summary]. replace (y <? hd 0 ys) with false by lia. replace (last ys 0 <=? y) with false by lia.
  rewrite previous_in_pure by exact H2. f_equal.
  assert (N : forall m, (forall s, In s m -> sg_y s <= y) -> previous_pure m y = None).
  { clear. induction m as [|c m IH]; intros H; [reflexivity|]. cbn [previous_pure]. assert (Hc := H c (or_introl eq_refl)). replace (y <? sg_y c) with false by lia.
    apply IH. intros; apply H; now right. }
  apply N. intros s Hs. apply in_app_iff in Hs. destruct Hs as [Hs|[<-|[]]]; [|lia]. apply In_nth_error in Hs. destruct Hs as [k Hk].
  assert (k < length l)%nat by (apply nth_error_Some; congruence).
  assert (F : after s a) by (apply (sorted_after_nth _ H4 k (length l)); [assumption|rewrite nth_error_app1 by assumption; exact Hk|rewrite nth_error_app2, Nat.sub_diag by lia; reflexivity]).
  unfold after in F. rewrite Forall_forall in H2. assert (Is : In s (l ++ [a])) by (apply in_or_app; left; eapply nth_error_In; exact Hk).
  pose proof (seg_ok_mx s (H2 s Is)). lia.
Qed.
Print Assumptions C32_previous_in_last_segment.

(** A time the index finds is answered with its own sample by the combined lookups, and only a time it does not find with a neighbour. *)
Theorem C32_this_first : forall p ys v y i, day_points ys -> index_of p ys v ->
  (get_sample p v y = Ok (Some i) -> get_this_or_previous p v y = Ok (Some i) /\ get_this_or_next p v y = Ok (Some i)) /\
  (get_sample p v y = Ok None -> get_this_or_previous p v y = get_previous_sample p v y /\ get_this_or_next p v y = Ok (get_next_sample v y)).
Proof.
  intros p ys v y i Hd Hv. unfold get_this_or_previous, get_this_or_next.
  split; intros E; rewrite E; cbn [bind]; split; try reflexivity.
  - destruct (index_facts p ys v Hd Hv) as (segs & -> & H1 & H2 & H3 & H4 & H5). unfold get_previous_sample. cbn [vs_segs summary vs_min vs_max].
    destruct (y <? hd 0 ys); [reflexivity|]. destruct (_ <=? y); [|now rewrite previous_in_pure by exact H2].
    rewrite summary_count by assumption. reflexivity.
  - destruct (get_previous_sample p v y); reflexivity.
Qed.
Print Assumptions C32_this_first.

(** The combined lookups outside the indexed times. *)
Theorem C32_this_outside : forall p ys v y, day_points ys -> index_of p ys v -> ys <> [] ->
  (y < hd 0 ys -> get_this_or_previous p v y = Ok None /\ get_this_or_next p v y = Ok (Some 0)) /\
  (last ys 0 < y -> get_this_or_previous p v y = Ok (Some (Z.of_nat (length ys))) /\ get_this_or_next p v y = Ok None).
Proof.
  intros p ys v y Hd Hv Hne. destruct (C32_ends p ys v y Hd Hv Hne) as [E1 E2]. destruct (C32_this_first p ys v y 0 Hd Hv) as [_ T].
  destruct (index_facts p ys v Hd Hv) as (segs & Ev & H1 & H2 & H3 & H4 & H5).
  assert (M : y < hd 0 ys \/ last ys 0 < y -> get_sample p v y = Ok None).
  { intros Hy. destruct (C30_get_sample p ys v y Hd Hv) as [[_ M]|[(s & S1 & _ & S3 & _)|(s & S1 & _ & S3 & _)]]; [exact M| |];
      exfalso; rewrite Ev in S1; cbn [vs_segs summary] in S1; destruct (H5 s S1) as [A (t & B & B2)]; apply (day_bounds ys _ Hd) in A; apply (day_bounds ys _ Hd) in B; lia. }
  split; intros Hy; destruct (T (M ltac:(tauto))) as [-> ->].
  - destruct (E1 Hy) as [-> ->]. now split.
  - destruct (E2 ltac:(lia)) as [-> ->]. now split.
Qed.
Print Assumptions C32_this_outside.

(** The next-sample lookup always answers the first sample of the last segment, or nothing. *)
Theorem C32_next_is_last_segment : forall p ys v ss s y, day_points ys -> index_of p ys v ->
  vs_segs v = ss ++ [s] -> vs_min v <= y < vs_max v ->
  get_next_sample v y = if y <=? sg_y s then Some (sg_x s) else None.
Proof.
  intros p ys v ss s y Hd Hv Es Hy. destruct (index_facts p ys v Hd Hv) as (segs & -> & H1 & H2 & H3 & H4 & H5). cbn [vs_segs vs_min vs_max summary] in *. subst segs.
  unfold get_next_sample. cbn [vs_segs vs_min vs_max summary]. replace (y <? hd 0 ys) with false by lia. replace (last ys 0 <=? y) with false by lia.
  rewrite rev_app_distr. cbn [rev app next_in]. destruct (y <=? sg_y s) eqn:E; [reflexivity|].
  assert (A : forall c, In c ss -> sg_y c < y).
  { intros c Hc. apply In_nth_error in Hc. destruct Hc as [k Hk]. assert (k < length ss)%nat by (apply nth_error_Some; congruence).
    assert (after c s) by (apply (sorted_after_nth _ H4 k (length ss)); [assumption|rewrite nth_error_app1 by assumption; exact Hk|rewrite nth_error_app2, Nat.sub_diag by lia; reflexivity]).
    unfold after in *. rewrite Forall_forall in H2. assert (In c (ss ++ [s])) by (apply in_or_app; left; eapply nth_error_In; exact Hk). pose proof (seg_ok_mx c (H2 c H6)). lia. }
  assert (N : forall l, (forall c, In c l -> sg_y c < y) -> next_in l y = None).
  { clear. induction l as [|c l IH]; intros H; [reflexivity|]. cbn [next_in]. assert (Hc := H c (or_introl eq_refl)). replace (y <=? sg_y c) with false by lia. apply IH. intros; apply H; now right. }
  apply N. intros c Hc. apply A. now apply in_rev.
Qed.
Print Assumptions C32_next_is_last_segment.

(** In the gap before the last segment that is the next sample. *)
Theorem C32_next_in_last_gap : forall p ys v l a b y, day_points ys -> index_of p ys v ->
  vs_segs v = l ++ [a; b] -> last_time a < y < sg_y b ->
  get_next_sample v y = Some (sg_x b) /\ get_this_or_next p v y = Ok (Some (sg_x b)) /\ sg_x b = sg_x a + sg_n a.
Proof.
  intros p ys v l a b y Hd Hv Es Hy. destruct (gap_facts p ys v l a b [] y Hd Hv Es Hy) as (G1 & G2 & G3 & G4 & G5 & G6).
  assert (E : get_next_sample v y = Some (sg_x b)).
  { rewrite (C32_next_is_last_segment p ys v (l ++ [a]) b y Hd Hv); [now replace (y <=? sg_y b) with true by lia|rewrite <- app_assoc; exact Es|lia]. }
  split; [exact E|]. split; [|exact G4]. unfold get_this_or_next, get_sample. rewrite get_sample_pure by exact G6. rewrite sample_miss; [cbn [bind]; now rewrite E|].
  intros s Hs. rewrite Es in Hs. replace (l ++ [a; b]) with ((l ++ [a]) ++ [b]) in Hs by (rewrite <- app_assoc; reflexivity). apply in_app_iff in Hs.
  destruct Hs as [Hs|Hs]; [destruct (G1 s Hs); lia|specialize (G2 s Hs); lia].
Qed.
Print Assumptions C32_next_in_last_gap.
(** Not in an earlier gap: after 50 the next sample is number 4 (at 100), the answer is 7 (at 200). *)
Theorem C32_next_skips_segments_refuted : index_of Dev sample_day sample_index /\ nth_error sample_day 4 = Some 100 /\ nth_error sample_day 3 = Some 31 /\
  get_this_or_next Dev sample_index 50 = Ok (Some 7).
Proof. split; [eexists; vm_compute; reflexivity|]. repeat split; reflexivity. Qed.
Print Assumptions C32_next_skips_segments_refuted.
Example C32_this_example : get_sample Dev sample_index 12 = Ok (Some 1) /\ get_this_or_previous Dev sample_index 12 = Ok (Some 1) /\
  get_previous_sample Dev sample_index 12 = Ok (Some 3) /\ get_this_or_next Dev sample_index 12 = Ok (Some 1) /\ get_this_or_previous Dev sample_index 300 = Ok (Some 8).
Proof. vm_compute. repeat split; reflexivity. Qed.
Example C32_example : vs_segs sample_index = [] ++ Seg 10 0 0 4 :: Seg 5 4 100 3 :: [Seg 0 7 200 1] /\ last_time (Seg 10 0 0 4) < 50 < 100 /\
  get_this_or_previous Dev sample_index 50 = Ok (Some 3) /\ get_this_or_next Dev sample_index 150 = Ok (Some 7).
Proof. repeat split; reflexivity. Qed.

(** * C33: emptiness *)

(** If the answer is "not empty", the interval meets the span of a segment (with one segment: the span of the points). *)
Theorem C33_not_empty_overlaps : forall p ys v a b, day_points ys -> index_of p ys v -> a <= b ->
  is_empty p v a b = Ok false ->
  (exists s, In s (vs_segs v) /\ a <= last_time s /\ sg_y s <= b) \/ (length (vs_segs v) = 1%nat /\ a <= last ys 0 /\ hd 0 ys <= b).
Proof.
  intros p ys v a b Hd Hv Hab H. destruct (index_facts p ys v Hd Hv) as (segs & -> & H1 & H2 & H3 & H4 & H5). unfold is_empty in H. cbn [vs_segs vs_min vs_max summary] in *.
  assert (G : forall l f pe, Forall seg_ok l -> empty_pure l f pe a b = false -> exists s, In s l /\ a <= last_time s /\ sg_y s <= b).
  { clear -Hab. induction l as [|s l IH]; intros f pe Ho E; cbn [empty_pure] in E; [discriminate|]. inversion Ho as [|? ? O1 O2]; subst. assert (M := seg_ok_mx s O1).
    destruct (negb f && (pe <? a) && (b <? sg_y s)); [discriminate|].
    destruct (((sg_y s <=? a) && (a <? last_time s)) || ((b <? last_time s) && (sg_y s <=? b))) eqn:E2; [exists s; split; [now left|lia]|].
    destruct ((a <? sg_y s) && (last_time s <? b)) eqn:E3.
    - exists s. split; [now left|lia].
    - destruct (IH _ _ O2 E) as (s' & I1 & I2). exists s'. split; [now right|exact I2]. }
  destruct segs as [|s0 [|s1 r]].
  - cbn in H. discriminate H.
  - right. split; [reflexivity|]. destruct (_ || _) eqn:E in H; [lia|]. destruct ((a <? hd 0 ys) && (last ys 0 <? b)) eqn:E2 in H; [|discriminate].
    assert (Hne : ys <> []) by (apply (describes_nonempty _ _ H1); discriminate). assert (B := day_bounds ys _ Hd (in_last ys Hne)). lia.
  - left. rewrite is_empty_pure in H by exact H2. apply ok_inj in H. exact (G _ _ _ H2 H).
Qed.
Print Assumptions C33_not_empty_overlaps.

(** With one segment the answer is exact: "empty" exactly when the interval lies outside the span of the points. *)
Theorem C33_single_segment_exact : forall p ys v a b, day_points ys -> index_of p ys v -> a <= b -> length (vs_segs v) = 1%nat ->
  exists e, is_empty p v a b = Ok e /\ (e = true <-> b < hd 0 ys \/ last ys 0 < a) /\ (e = true -> forall t, In t ys -> ~ (a <= t <= b)).
Proof.
  intros p ys v a b Hd Hv Hab Hl. destruct (index_facts p ys v Hd Hv) as (segs & -> & H1 & H2 & H3 & H4 & H5). unfold is_empty. cbn [vs_segs vs_min vs_max summary] in *.
  destruct segs as [|s [|]]; try discriminate.
  assert (Hne : ys <> []) by (apply (describes_nonempty _ _ H1); discriminate). assert (B := day_bounds ys _ Hd (in_last ys Hne)).
  exists ((b <? hd 0 ys) || (last ys 0 <? a)). split; [|split; [lia|]].
  - clear -B Hab. revert B. generalize (hd 0 ys) (last ys 0). intros mn mx B.
    destruct ((mn <=? a) && (a <=? mx) || (b <=? mx) && (mn <=? b)) eqn:E; [f_equal; lia|]. destruct ((a <? mn) && (mx <? b)) eqn:E2; f_equal; lia.
  - intros E t Ht. apply (day_bounds ys t Hd) in Ht. lia.
Qed.
Print Assumptions C33_single_segment_exact.

(** With several segments it is exact for intervals neither end of which is the last listed time of a segment. *)
Theorem C33_several_segments_exact : forall p ys v a b, day_points ys -> index_of p ys v -> a <= b -> (2 <= length (vs_segs v))%nat ->
  (forall s, In s (vs_segs v) -> a <> last_time s /\ b <> last_time s) ->
  exists e, is_empty p v a b = Ok e /\ (e = true <-> forall s, In s (vs_segs v) -> ~ (a <= last_time s /\ sg_y s <= b)).
Proof.
  intros p ys v a b Hd Hv Hab Hl Hends. destruct (index_facts p ys v Hd Hv) as (segs & -> & H1 & H2 & H3 & H4 & H5). unfold is_empty. cbn [vs_segs vs_min vs_max summary] in *.
  exists (empty_pure segs true 0 a b). split.
  { destruct segs as [|s0 [|s1 r]]; try (cbn in Hl; lia). now apply is_empty_pure. }
  assert (G : forall l f pe, Forall seg_ok l -> StronglySorted after l -> (forall s, In s l -> a <> last_time s /\ b <> last_time s) ->
    (empty_pure l f pe a b = true <-> forall s, In s l -> ~ (a <= last_time s /\ sg_y s <= b))).
  { clear -Hab. induction l as [|s l IH]; intros f pe Ho Hs Hn; cbn [empty_pure]; [split; [intros _ ? []|reflexivity]|].
    inversion Ho as [|? ? O1 O2]; subst. inversion Hs as [|? ? S1 S2]; subst. assert (M := seg_ok_mx s O1). assert (Ns := Hn s (or_introl eq_refl)).
    destruct (negb f && (pe <? a) && (b <? sg_y s)) eqn:E1.
    - split; [intros _|reflexivity]. intros s' [<-|Hs']; [lia|]. rewrite Forall_forall in S2. specialize (S2 s' Hs'). unfold after in S2. lia.
    - destruct (_ || _) eqn:E2; [split; [discriminate|]; intros H; exfalso; apply (H s (or_introl eq_refl)); lia|].
      destruct ((a <? sg_y s) && (last_time s <? b)) eqn:E3; [split; [discriminate|]; intros H; exfalso; apply (H s (or_introl eq_refl)); lia|].
      rewrite (IH false (last_time s) O2 S1) by (intros; apply Hn; now right). split.
      + intros H s' [<-|Hs']; [lia|now apply H].
      + intros H s' Hs'. apply H. now right. }
  apply G; auto.
Qed.
Print Assumptions C33_several_segments_exact.

(** Otherwise occupied times can be reported empty: the instant 30 and the interval from 50 to 110 hold samples. *)
Theorem C33_occupied_reported_empty_refuted : index_of Dev sample_day sample_index /\
  get_sample Dev sample_index 30 = Ok (Some 3) /\ is_empty Dev sample_index 30 30 = Ok true /\
  nth_error sample_day 5 = Some 105 /\ is_empty Dev sample_index 50 110 = Ok true.
Proof. split; [eexists; vm_compute; reflexivity|]. repeat split; reflexivity. Qed.
Print Assumptions C33_occupied_reported_empty_refuted.
Example C33_example : is_empty Dev sample_index 40 90 = Ok true /\ is_empty Dev sample_index 25 26 = Ok false /\ is_empty Dev sample_index (-5) 1000 = Ok false.
Proof. repeat split; reflexivity. Qed.

(** * C35: no overflow within a day *)
Theorem C35_no_overflow_within_a_day : forall ys, day_points ys ->
  exists v ans, update_all Dev vsri_new ys = Ok (v, ans) /\ update_all Release vsri_new ys = Ok (v, ans) /\
  (forall y, get_sample Dev v y = get_sample Release v y /\ get_sample Dev v y <> Panic POverflow) /\
  (forall x, exists r, get_time Dev v x = Ok r /\ get_time Release v x = Ok r) /\
  (forall y, exists r, get_previous_sample Dev v y = Ok r /\ get_previous_sample Release v y = Ok r) /\
  (forall a b, exists r, is_empty Dev v a b = Ok r /\ is_empty Release v a b = Ok r) /\
  (exists r, get_sample_count Dev v = Ok r /\ get_sample_count Release v = Ok r) /\
  (exists r, get_all_timestamps Dev v = Ok r /\ get_all_timestamps Release v = Ok r).
Proof.
  intros ys Hd. assert (B : forall p, exists segs, update_all p vsri_new ys = Ok (summary ys segs, repeat true (length ys)) /\ describes segs ys) by (intros p; now apply build).
  assert (U : update_all Dev vsri_new ys = update_all Release vsri_new ys).
  { (* by the same steps: both follow the pure update *)
    clear B. induction ys as [|y ys IH] using rev_ind; [reflexivity|]. rewrite !update_all_app, <- IH by (eapply day_app_l; exact Hd).
    destruct (build Dev ys (day_app_l _ _ Hd)) as (segs & E & D). rewrite E. cbn [bind update_all].
    assert (Ho := describes_ok _ _ (day_app_l _ _ Hd) D).
    assert (Hy : 0 <= y < 86400) by (destruct Hd as [_ Hd]; rewrite Forall_app in Hd; destruct Hd as [_ Hd]; now inversion Hd).
    assert (Hlt : forall t, In t ys -> t < y).
    { intros t Ht. destruct Hd as [Hs _]. apply sorted_app_inv in Hs. destruct Hs as (_ & _ & Hs). apply Hs; [exact Ht|now left]. }
    enough (update_for_point Dev (summary ys segs) y = update_for_point Release (summary ys segs) y) as -> by reflexivity.
    unfold update_for_point. cbn [vs_max vs_min vs_segs summary]. destruct (y <? last ys 0); [reflexivity|]. destruct segs as [|s0 r]; [reflexivity|].
    destruct (exists_last (l := s0 :: r) ltac:(discriminate)) as (ss & s & Es). rewrite Es in *. unfold is_fake_segment, generate_segment, fits_segment, create_fake_segment. rewrite current_snoc.
    assert (Os : seg_ok s) by (rewrite Forall_app in Ho; destruct Ho as [_ Ho]; now inversion Ho). assert (M := seg_ok_mx s Os).
    assert (Hys : sg_y s < y). { destruct (describes_sorted _ _ (day_app_l _ _ Hd) D) as [_ S]. apply Hlt. apply S. apply in_or_app. right. now left. }
    assert (Os' := Os). unfold seg_ok in Os'.
    destruct (sg_m s =? 0) eqn:Em; cbn [negb]; [rewrite !arith32 by lia; reflexivity|].
    rewrite !calculate_b_ok by exact Os. cbn [bind]. rewrite !arith32 by lia. reflexivity. }
  destruct (B Dev) as (segs & E & D). assert (Ho := describes_ok _ _ Hd D). exists (summary ys segs), (repeat true (length ys)). split; [exact E|]. split; [now rewrite <- U|].
  unfold get_sample, get_time, get_previous_sample, is_empty. cbn [vs_segs vs_min vs_max summary].
  split; [|split; [|split; [|split; [|split]]]].
  - intros y. rewrite !get_sample_pure by exact Ho. split; [reflexivity|].
    clear. induction segs as [|s r IH]; cbn [sample_pure]; [discriminate|]. destruct (_ && _); [|exact IH]. unfold lookup_line. destruct (sg_m s =? 0); discriminate.
  - intros x. rewrite !count_ok by exact Ho. rewrite !get_time_pure by exact Ho. cbn [bind]. destruct (x =? 0); [eauto|]. destruct (_ <? x); [eauto|]. destruct (x =? _); eauto.
  - intros y. rewrite !count_ok by exact Ho. rewrite !previous_in_pure by exact Ho. cbn [bind]. destruct (y <? hd 0 ys); [eauto|]. destruct (_ <=? y); eauto.
  - intros a b. destruct segs as [|s0 [|s1 r]]; [cbn; eauto| |rewrite !is_empty_pure by exact Ho; eauto]. destruct (_ || _); [eauto|]. destruct (_ && _); eauto.
  - rewrite !count_ok by exact Ho. eauto.
  - rewrite !timestamps_ok by exact Ho. eauto.
Qed.
Print Assumptions C35_no_overflow_within_a_day.
Example C35_example : day_points sample_day.
Proof. apply sample_day_ok. Qed.
