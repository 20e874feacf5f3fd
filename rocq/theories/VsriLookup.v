(** Lookups in an index built from one day of strictly increasing points. *)
From Coq Require Import List ZArith Bool Lia ZifyBool Sorting.Sorted.
From Verif Require Import Base Model_Vsri Spec_Vsri VsriFacts.
Import ListNotations.
Open Scope Z_scope.

Definition listed (s : segment) : list Z := map (fun f => sg_y s + sg_m s * Z.of_nat f) (seq 0 (Z.to_nat (sg_n s))).
Definition after (s s' : segment) : Prop := last_time s < sg_y s'.

Lemma map_res_ok {A B} (f : A -> res B) (g : A -> B) l : (forall a, In a l -> f a = Ok (g a)) -> map_res f l = Ok (map g l).
Proof.
  induction l as [|a l IH]; intros H; [reflexivity|]. cbn [map_res map]. rewrite H by now left. cbn [bind]. rewrite IH by (intros; apply H; now right). reflexivity.
Qed.

Lemma segment_timestamps_ok p s : seg_ok s -> segment_timestamps p s = Ok (listed s).
Proof.
  intros H. pose proof (seg_ok_mx s H) as B. unfold seg_ok, last_time in *. unfold segment_timestamps, listed. apply map_res_ok. intros f Hf. apply in_seq in Hf.
  assert (0 <= Z.of_nat f * sg_m s <= sg_m s * (sg_n s - 1)) by nia.
  rewrite arith32 by lia. cbn [bind]. rewrite arith32 by lia. f_equal. lia.
Qed.
Lemma timestamps_ok p v : Forall seg_ok (vs_segs v) -> get_all_timestamps p v = Ok (concat (map listed (vs_segs v))).
Proof.
  intros H. unfold get_all_timestamps. rewrite (map_res_ok _ listed); [reflexivity|]. intros s Hs. apply segment_timestamps_ok. rewrite Forall_forall in H. now apply H.
Qed.
Lemma listed_length s : 0 <= sg_n s -> Z.of_nat (length (listed s)) = sg_n s.
Proof. intros H. unfold listed. rewrite map_length, seq_length. lia. Qed.
Lemma listed_nth s i : Z.of_nat i < sg_n s -> nth_error (listed s) i = Some (sg_y s + sg_m s * Z.of_nat i).
Proof.
  intros H. unfold listed. rewrite nth_error_map. rewrite (nth_error_nth' _ 0%nat) by (rewrite seq_length; lia). rewrite seq_nth by lia. reflexivity.
Qed.

(** * Pure forms *)
Definition lookup_line (s : segment) (y : Z) : res (option Z) :=
  if sg_m s =? 0 then Panic PDivZero else Ok (Some (sg_x s + (y - sg_y s) / sg_m s)).
Fixpoint sample_pure (segs : list segment) (y : Z) : res (option Z) :=
  match segs with
  | [] => Ok None
  | s :: r => if (sg_y s <=? y) && (y <=? last_time s) then lookup_line s y else sample_pure r y
  end.
Lemma get_sample_pure p segs y : Forall seg_ok segs -> get_sample_in p segs y = sample_pure segs y.
Proof.
  induction 1 as [|s r Hs Hr IH]; [reflexivity|]. cbn [get_sample_in sample_pure]. rewrite (segment_end_ok p s Hs). cbn [bind]. rewrite IH.
  destruct ((sg_y s <=? y) && (y <=? last_time s)) eqn:E; [|reflexivity]. unfold lookup_line.
  pose proof (seg_ok_mx s Hs) as B. assert (Hs' := Hs). unfold seg_ok in Hs'.
  destruct (sg_m s =? 0) eqn:Em.
  - rewrite (calculate_b_ok p s Hs). cbn [bind]. rewrite arith32 by lia. cbn [bind]. unfold i32_div. rewrite Em. reflexivity.
  - assert (LP := line_position p s y Hs ltac:(lia) ltac:(lia)). destruct (calculate_b p s) as [b|]; [|discriminate LP]. cbn [bind] in *.
    destruct (arith_s p 32 (y - b)) as [yb|]; [|discriminate LP]. cbn [bind] in *. rewrite LP. reflexivity.
Qed.

Fixpoint time_pure (segs : list segment) (x : Z) : option Z :=
  match segs with
  | [] => None
  | s :: r => if (sg_x s <=? x) && (x <? sg_x s + sg_n s) then Some (sg_y s + sg_m s * x) else time_pure r x
  end.
Lemma get_time_pure p segs x : Forall seg_ok segs -> get_time_in p segs x = Ok (time_pure segs x).
Proof.
  induction 1 as [|s r Hs Hr IH]; [reflexivity|]. cbn [get_time_in time_pure]. pose proof (seg_ok_mx s Hs) as B. unfold seg_ok, last_time in *.
  destruct (sg_x s <=? x) eqn:E1; cbn [andb]; [|exact IH]. rewrite arith32 by lia. cbn [bind]. destruct (x <? sg_x s + sg_n s) eqn:E2; [|exact IH].
  assert (0 <= sg_m s * (x - sg_x s) <= sg_m s * (sg_n s - 1)) by nia.
  rewrite arith32 by nia. cbn [bind]. rewrite arith32 by nia. reflexivity.
Qed.

Fixpoint previous_pure (segs : list segment) (y : Z) : option Z :=
  match segs with
  | [] => None
  | s :: r => if y <? sg_y s then Some (sg_x s - 1) else previous_pure r y
  end.
Lemma previous_in_pure p segs y : Forall seg_ok segs -> previous_in p segs y = Ok (previous_pure segs y).
Proof.
  induction 1 as [|s r Hs Hr IH]; [reflexivity|]. cbn [previous_in previous_pure]. destruct (y <? sg_y s); [|exact IH]. unfold seg_ok in Hs. rewrite arith32 by lia. reflexivity.
Qed.

Lemma count_ok p v : Forall seg_ok (vs_segs v) -> get_sample_count p v = Ok (sg_n (current_segment v) + sg_x (current_segment v)).
Proof.
  intros H. unfold get_sample_count. apply arith32. unfold current_segment. destruct (vs_segs v) as [|s0 r] eqn:E; [cbn; lia|].
  destruct (exists_last (l := s0 :: r) ltac:(discriminate)) as (ss & s & E2). rewrite E2, last_last. rewrite E2, Forall_app in H. destruct H as [_ H].
  inversion H as [|? ? Hs _]; subst. unfold seg_ok in Hs. lia.
Qed.

Fixpoint empty_pure (segs : list segment) (first : bool) (prev_end a b : Z) : bool :=
  match segs with
  | [] => true
  | s :: r =>
    if negb first && (prev_end <? a) && (b <? sg_y s) then true
    else if ((sg_y s <=? a) && (a <? last_time s)) || ((b <? last_time s) && (sg_y s <=? b)) then false
    else if (a <? sg_y s) && (last_time s <? b) then false
    else empty_pure r false (last_time s) a b
  end.
Lemma is_empty_pure p segs a b : Forall seg_ok segs -> forall first pe, is_empty_in p segs first pe a b = Ok (empty_pure segs first pe a b).
Proof.
  induction 1 as [|s r Hs Hr IH]; intros first pe; [reflexivity|]. cbn [is_empty_in empty_pure]. rewrite (segment_end_ok p s Hs). cbn [bind]. rewrite IH.
  destruct (negb first && (pe <? a) && (b <? sg_y s)); [reflexivity|]. destruct (_ || _); [reflexivity|]. destruct (_ && _); reflexivity.
Qed.

(** * Shape of the built index *)
Lemma tiles_app a b x n : tiles x (a ++ b) n <-> exists k, tiles x a k /\ tiles k b n.
Proof.
  revert x. induction a as [|s a IH]; intros x; cbn [app tiles].
  - split; [intros H; exists x; now split|intros (k & <- & H); exact H].
  - rewrite IH. split; [intros (H1 & H2 & k & H3); exists k; tauto|intros (k & (H1 & H2 & H3) & H4); eauto].
Qed.

Lemma describes_tiles segs pts : describes segs pts -> tiles 0 segs (Z.of_nat (length pts)).
Proof.
  induction 1 as [|segs s pts g H IH Hr Hs]; [reflexivity|]. apply tiles_app. exists (Z.of_nat (length pts)). split; [exact IH|].
  assert (L := segment_of_nonempty _ _ _ Hs). destruct Hs as (Hx & Hn & _). cbn [tiles]. rewrite app_length. lia.
Qed.

Lemma tiles_count mn mx segs n : tiles 0 segs n -> sg_n (current_segment (Vsri mn mx segs)) + sg_x (current_segment (Vsri mn mx segs)) = n.
Proof.
  destruct segs as [|s0 r]; [cbn; intros; lia|]. destruct (exists_last (l := s0 :: r) ltac:(discriminate)) as (ss & s & ->).
  rewrite current_snoc, tiles_app. intros (k & _ & H1 & _ & H2). cbn [tiles] in H2. lia.
Qed.

Lemma describes_listed_length segs pts : describes segs pts -> length (concat (map listed segs)) = length pts.
Proof.
  induction 1 as [|segs s pts g H IH Hr Hs]; [reflexivity|]. rewrite map_app, concat_app, !app_length, IH. cbn [map concat]. rewrite app_nil_r.
  destruct Hs as (_ & Hn & _). assert (L := listed_length s ltac:(lia)). lia.
Qed.

Lemma describes_nth segs pts i t : describes segs pts -> nth_error pts i = Some t ->
  exists s, In s segs /\ in_segment s (Z.of_nat i) /\
    nth_error (concat (map listed segs)) i = Some (sg_y s + sg_m s * (Z.of_nat i - sg_x s)) /\
    sg_y s + sg_m s * (Z.of_nat i - sg_x s) <= t /\
    (0 < sg_m s -> t < sg_y s + sg_m s * (Z.of_nat i - sg_x s) + sg_m s) /\
    (Z.of_nat i < sg_x s + 2 -> t = sg_y s + sg_m s * (Z.of_nat i - sg_x s)).
Proof.
  intros H. revert i t. induction H as [|segs s pts g H IH Hr Hs]; intros i t Hi; [destruct i; discriminate|].
  assert (Ll := describes_listed_length _ _ H). rewrite map_app, concat_app. cbn [map concat]. rewrite app_nil_r.
  destruct (Nat.lt_ge_cases i (length pts)) as [L|L].
  - rewrite nth_error_app1 in Hi by lia. destruct (IH i t Hi) as (s' & H1 & H2 & H3 & H4). exists s'. split; [apply in_or_app; now left|]. split; [exact H2|].
    split; [rewrite nth_error_app1 by lia; exact H3|exact H4].
  - rewrite nth_error_app2 in Hi by lia. destruct Hs as (Hx & Hn & H0 & H1 & H2 & H3).
    assert (Lg : (i - length pts < length g)%nat) by (apply nth_error_Some; congruence).
    exists s. split; [apply in_or_app; right; now left|]. split; [unfold in_segment; lia|].
    destruct (H3 _ _ Hi) as [B1 B2]. replace (Z.of_nat (i - length pts)) with (Z.of_nat i - sg_x s) in * by lia.
    split; [rewrite nth_error_app2 by lia; rewrite Ll, listed_nth by lia; replace (Z.of_nat (i - length pts)) with (Z.of_nat i - sg_x s) by lia; reflexivity|].
    split; [exact B1|]. split; [intros Hm; specialize (B2 Hm); lia|]. intros Hi2.
    assert (i - length pts = 0 \/ i - length pts = 1)%nat as [E|E] by lia; rewrite E in Hi.
    + rewrite H0 in Hi. injection Hi as <-. replace (Z.of_nat i - sg_x s) with 0 by lia. lia.
    + assert (E2 : (2 <= length g)%nat) by lia. destruct (H2 E2) as [_ E3]. rewrite E3 in Hi. injection Hi as <-. replace (Z.of_nat i - sg_x s) with 1 by lia. lia.
Qed.

Lemma describes_sorted segs pts : day_points pts -> describes segs pts ->
  StronglySorted after segs /\ (forall s, In s segs -> In (sg_y s) pts /\ exists t, In t pts /\ last_time s <= t).
Proof.
  intros Hd H. induction H as [|segs s pts g H IH Hr Hs]; [split; [constructor|intros ? []]|].
  destruct (IH (day_app_l _ _ Hd)) as [I1 I2]. destruct Hd as [D1 D2]. destruct (segment_of_ok pts s g D1 D2 Hs) as (_ & Hlow & (t & Ht & Hend)).
  assert (Hy : In (sg_y s) g) by (destruct Hs as (_ & _ & H0 & _); eapply nth_error_In; exact H0).
  apply sorted_app_inv in D1. destruct D1 as (_ & _ & D1).
  assert (Ha : forall s', In s' segs -> after s' s).
  { intros s' Hs'. destruct (I2 s' Hs') as (_ & u & Hu & Hle). unfold after. specialize (D1 u (sg_y s) Hu Hy). lia. }
  split.
  - clear -I1 Ha. induction I1 as [|c l I1 IH F]; cbn [app]; [constructor; constructor|]. constructor; [apply IH; intros; apply Ha; now right|].
    apply Forall_app. split; [exact F|]. constructor; [apply Ha; now left|constructor].
  - intros s' Hs'. apply in_app_iff in Hs'. destruct Hs' as [Hs'|[<-|[]]].
    + destruct (I2 s' Hs') as (A & u & B & C). split; [apply in_or_app; now left|exists u; split; [apply in_or_app; now left|exact C]].
    + split; [apply in_or_app; now right|exists t; split; [apply in_or_app; now right|exact Hend]].
Qed.

Lemma sample_hit segs s y : Forall seg_ok segs -> StronglySorted after segs -> In s segs -> sg_y s <= y <= last_time s -> sample_pure segs y = lookup_line s y.
Proof.
  intros Ho Hs. induction Hs as [|c l Hs IH F]; intros Hin Hy; [destruct Hin|]. inversion Ho; subst. cbn [sample_pure]. destruct Hin as [<-|Hin].
  - replace ((sg_y c <=? y) && (y <=? last_time c)) with true by lia. reflexivity.
  - rewrite Forall_forall in F. specialize (F s Hin). unfold after in F. replace ((sg_y c <=? y) && (y <=? last_time c)) with false by lia. now apply IH.
Qed.
Lemma sample_miss segs y : (forall s, In s segs -> ~ (sg_y s <= y <= last_time s)) -> sample_pure segs y = Ok None.
Proof.
  induction segs as [|c l IH]; intros H; [reflexivity|]. cbn [sample_pure]. assert (Hc := H c (or_introl eq_refl)).
  replace ((sg_y c <=? y) && (y <=? last_time c)) with false by lia. apply IH. intros; apply H; now right.
Qed.
Lemma sample_cases segs y : (exists s, In s segs /\ sg_y s <= y <= last_time s) \/ (forall s, In s segs -> ~ (sg_y s <= y <= last_time s)).
Proof.
  induction segs as [|c l IH]; [right; intros ? []|]. destruct IH as [(s & H1 & H2)|H]; [left; exists s; split; [now right|exact H2]|].
  destruct (Z_le_gt_dec (sg_y c) y) as [A|A], (Z_le_gt_dec y (last_time c)) as [B|B]; try (right; intros s [<-|Hs]; [lia|now apply H]).
  left. exists c. split; [now left|lia].
Qed.

Lemma time_hit segs : forall x0 n s x, tiles x0 segs n -> In s segs -> in_segment s x -> time_pure segs x = Some (sg_y s + sg_m s * x).
Proof.
  induction segs as [|c l IH]; intros x0 n s x Ht Hin Hx; [destruct Hin|]. cbn [tiles] in Ht. destruct Ht as (T1 & T2 & T3). cbn [time_pure]. unfold in_segment in Hx. destruct Hin as [<-|Hin].
  - replace ((sg_x c <=? x) && (x <? sg_x c + sg_n c)) with true by lia. reflexivity.
  - assert (Hge : forall m k r, tiles m r k -> In s r -> m <= sg_x s).
    { clear. intros m k r. revert m. induction r as [|d r IH]; intros m H Hin; [destruct Hin|]. cbn [tiles] in H. destruct H as (H1 & H2 & H3).
      destruct Hin as [<-|Hin]; [lia|]. specialize (IH _ H3 Hin). lia. }
    specialize (Hge _ _ _ T3 Hin). replace ((sg_x c <=? x) && (x <? sg_x c + sg_n c)) with false by lia. eapply IH; eauto.
Qed.
Lemma time_miss segs x : (forall s, In s segs -> ~ in_segment s x) -> time_pure segs x = None.
Proof.
  induction segs as [|c l IH]; intros H; [reflexivity|]. cbn [time_pure]. assert (Hc := H c (or_introl eq_refl)). unfold in_segment in Hc.
  replace ((sg_x c <=? x) && (x <? sg_x c + sg_n c)) with false by lia. apply IH. intros; apply H; now right.
Qed.

Lemma tiles_le l : forall x n, tiles x l n -> x <= n.
Proof. induction l as [|c l IH]; intros x n T; cbn [tiles] in T; [lia|]. destruct T as (T1 & T2 & T3). specialize (IH _ _ T3). lia. Qed.
Lemma tiles_in l : forall x n s, tiles x l n -> In s l -> x <= sg_x s /\ 1 <= sg_n s /\ sg_x s + sg_n s <= n.
Proof.
  induction l as [|c l IH]; intros x n s T Hin; [destruct Hin|]. cbn [tiles] in T. destruct T as (T1 & T2 & T3). destruct Hin as [<-|Hin].
  - apply tiles_le in T3. lia.
  - specialize (IH _ _ _ T3 Hin). lia.
Qed.
Lemma describes_before segs pts : day_points pts -> describes segs pts -> forall a b s s' i t, (a < b)%nat ->
  nth_error segs a = Some s -> nth_error segs b = Some s' -> nth_error pts i = Some t -> in_segment s (Z.of_nat i) -> t < sg_y s'.
Proof.
  intros Hd H. induction H as [|segs s pts g H IH Hr Hs]; intros a b s1 s2 i t Hab Ha Hb Hi Hin; [destruct a; discriminate|].
  assert (Hb' : (b < length (segs ++ [s]))%nat) by (apply nth_error_Some; congruence). rewrite app_length in Hb'. cbn [length] in Hb'.
  rewrite nth_error_app1 in Ha by lia. assert (T := tiles_in _ _ _ s1 (describes_tiles _ _ H) (nth_error_In _ _ Ha)). unfold in_segment in Hin.
  rewrite nth_error_app1 in Hi by lia. destruct (Nat.eq_dec b (length segs)) as [->|Hn].
  - rewrite nth_error_app2, Nat.sub_diag in Hb by lia. cbn in Hb. injection Hb as <-. destruct Hs as (_ & _ & H0 & _). destruct Hd as [Hd _].
    apply sorted_app_inv in Hd. destruct Hd as (_ & _ & Hd). apply Hd; eapply nth_error_In; eassumption.
  - rewrite nth_error_app1 in Hb by lia. apply (IH (day_app_l _ _ Hd) a b s1 s2 i t); auto.
Qed.
Lemma sorted_after_nth l : StronglySorted after l -> forall a b x y, (a < b)%nat -> nth_error l a = Some x -> nth_error l b = Some y -> after x y.
Proof.
  induction 1 as [|c l _ IH F]; intros a b x y Hab Ha Hb; [destruct a; discriminate|]. destruct b; [lia|]. destruct a.
  - injection Ha as <-. rewrite Forall_forall in F. apply F. eapply nth_error_In; exact Hb.
  - apply (IH a b); auto. lia.
Qed.

(** What is known of any index of day points. *)
Lemma index_facts p ys v : day_points ys -> index_of p ys v ->
  exists segs, v = summary ys segs /\ describes segs ys /\ Forall seg_ok segs /\ tiles 0 segs (Z.of_nat (length ys)) /\
    StronglySorted after segs /\ (forall s, In s segs -> In (sg_y s) ys /\ exists t, In t ys /\ last_time s <= t).
Proof.
  intros Hd (ans & H). destruct (build p ys Hd) as (segs & H1 & H2). rewrite H in H1. apply ok_inj in H1. exists segs. split; [congruence|]. split; [exact H2|].
  destruct (describes_sorted segs ys Hd H2) as [S1 S2].
  split; [eapply describes_ok; eauto|]. split; [now apply describes_tiles|]. split; assumption.
Qed.
