(** C75: several samples in one second. *)
From Coq Require Import List ZArith Bool Lia ZifyBool Sorting.Sorted.
From Verif Require Import Base Model_Float Model_Bincode BincodeFacts Spec Model_Utils PolyLoopFacts Model_Fft Model_Stream FftFacts Props_Fft PlanFacts PipelineFacts Props_Poly Props_Plan Props_Pipeline Props_ErrorZero
  Model_Vsri Spec_Vsri VsriFacts VsriLookup Spec_Segments Spec_Seconds Props_Vsri Props_Segments Props_VsriFile Model_Wavbrro Props_Wavbrro Model_Csv Spec_Csv CsvFacts Props_Csv Model_Cli Props_Tools Props_Cli Props_Wav Props_Csvc Props_CsvcDay.
Import ListNotations.
Open Scope Z_scope.

(** * 32-bit arithmetic stays in range *)
Definition small_seg (s : segment) : Prop :=
  0 <= sg_x s /\ 1 <= sg_n s /\ sg_x s + sg_n s <= 24855 /\ 0 <= sg_y s /\ 0 <= sg_m s /\ sg_y s + sg_m s < 86400 /\ (sg_n s = 1 -> sg_m s = 0).
Lemma mul_small m k : 0 <= m < 86400 -> 0 <= k <= 24854 -> 0 <= m * k <= 2147360746.
Proof. nia. Qed.

Lemma history_length x ys segs lost : history_segments x ys segs lost -> exists n, tiles x segs n /\ n + Z.of_nat lost = x + Z.of_nat (length ys).
Proof.
  induction 1 as [x|x y|x y r|x y0 r y1 run rest segs lost _ A St H (n & T & E)].
  - exists x. split; [reflexivity|cbn; lia].
  - exists (x + 1). cbn [tiles sg_x sg_n length]. lia.
  - exists (x + 2). cbn [tiles sg_x sg_n length]. rewrite repeat_length. lia.
  - exists n. cbn [tiles sg_x sg_n]. replace (x + (2 + Z.of_nat (length run))) with (x + 2 + Z.of_nat (length run)) by lia.
    split; [split; [reflexivity|split; [lia|exact T]]|]. cbn [length]. rewrite app_length, repeat_length. cbn [length]. rewrite app_length. lia.
Qed.
Lemma history_small x ys segs lost : history_segments x ys segs lost -> 0 <= x -> x + Z.of_nat (length ys) <= 24855 -> Forall (fun y => 0 <= y < 86400) ys -> Forall small_seg segs.
Proof.
  induction 1 as [x|x y|x y r|x y0 r y1 run rest segs lost Lt A St H IH]; intros Hx Hl Hr.
  - constructor.
  - inversion Hr; subst. cbn [length] in Hl. constructor; [|constructor]. unfold small_seg. cbn [sg_x sg_n sg_y sg_m]. lia.
  - inversion Hr; subst. cbn [length] in Hl. rewrite repeat_length in Hl. constructor; [|constructor]. unfold small_seg. cbn [sg_x sg_n sg_y sg_m]. lia.
  - cbn [length] in Hl. rewrite app_length, repeat_length in Hl. cbn [length] in Hl. rewrite app_length in Hl.
    inversion Hr as [|? ? R0 Hr']; subst. apply Forall_app in Hr'. destruct Hr' as [_ Hr']. inversion Hr' as [|? ? R1 Hr'']; subst. apply Forall_app in Hr''. destruct Hr'' as [_ Rr].
    constructor; [unfold small_seg; cbn [sg_x sg_n sg_y sg_m]; lia|]. apply IH; [lia|lia|exact Rr].
Qed.

(** * One more point *)
Definition grown_history (s : segment) (y : Z) : list segment :=
  if sg_m s =? 0 then [Seg (y - sg_y s) (sg_x s) (sg_y s) 2]
  else if (sg_y s + sg_m s * sg_n s <=? y) && (y <? sg_y s + sg_m s * (sg_n s + 1)) then [Seg (sg_m s) (sg_x s) (sg_y s) (sg_n s + 1)]
  else [s; Seg 0 (sg_x s + sg_n s) y 1].

Lemma update_history p pts ss s y : small_seg s -> pts <> [] -> last pts 0 <= y < 86400 -> sg_y s <= y ->
  update_for_point p (summary pts (ss ++ [s])) y = Ok (summary (pts ++ [y]) (ss ++ grown_history s y), true).
Proof.
  intros Hs Hne Hy Hy0. unfold update_for_point. cbn [vs_max vs_min vs_segs summary]. replace (y <? last pts 0) with false by lia.
  unfold summary. rewrite last_snoc_app, hd_snoc by exact Hne.
  assert (Cs : forall A (u w : A), match ss ++ [s] with [] => u | _ :: _ => w end = w) by (intros; now destruct ss). rewrite Cs. clear Cs.
  unfold is_fake_segment, generate_segment, fits_segment, create_fake_segment. rewrite current_snoc. unfold grown_history, small_seg in *.
  assert (B := mul_small (sg_m s) (sg_x s) ltac:(lia) ltac:(lia)).
  destruct (sg_m s =? 0) eqn:Em; cbn [negb].
  - rewrite arith32 by lia. cbn [bind]. now rewrite set_last_snoc.
  - unfold calculate_b. rewrite (arith32 p (sg_m s * sg_x s)) by lia. cbn [bind]. rewrite (arith32 p (sg_y s - _)) by lia. cbn [bind]. rewrite arith32 by lia. cbn [bind].
    unfold i32_div. rewrite Em. replace (sg_m s =? -1) with false by lia. rewrite andb_false_r. cbn [bind].
    rewrite (arith32 p (sg_n s + sg_x s)) by lia. cbn [bind].
    rewrite Z.quot_div_nonneg by lia. replace (y - (sg_y s - sg_m s * sg_x s)) with (y - sg_y s + sg_x s * sg_m s) by lia. rewrite Z.div_add by lia.
    assert (M := Z.div_mod (y - sg_y s) (sg_m s) ltac:(lia)). assert (M2 := Z.mod_pos_bound (y - sg_y s) (sg_m s) ltac:(lia)).
    set (q := (y - sg_y s) / sg_m s) in *. set (r := (y - sg_y s) mod sg_m s) in *.
    destruct (Z.eq_dec q (sg_n s)) as [Eq|Nq].
    + replace (q + sg_x s =? sg_n s + sg_x s) with true by lia.
      replace ((sg_y s + sg_m s * sg_n s <=? y) && (y <? sg_y s + sg_m s * (sg_n s + 1))) with true by nia.
      rewrite arith32 by lia. cbn [bind]. now rewrite set_last_snoc.
    + replace (q + sg_x s =? sg_n s + sg_x s) with false by lia.
      assert (X : ((sg_y s + sg_m s * sg_n s <=? y) && (y <? sg_y s + sg_m s * (sg_n s + 1))) = false).
      { apply andb_false_iff. destruct (Z.lt_trichotomy q (sg_n s)) as [Lq|[Lq|Lq]]; [left|lia|right]; [assert (sg_m s * (q + 1) <= sg_m s * sg_n s) by nia|assert (sg_m s * (sg_n s + 1) <= sg_m s * q) by nia]; lia. }
      rewrite X, arith32 by lia. cbn [bind]. now rewrite <- app_assoc.
Qed.

Lemma history_nonempty x ys segs lost : history_segments x ys segs lost -> segs = [] -> ys = [] /\ lost = 0%nat.
Proof. destruct 1; intros E; try discriminate E. auto. Qed.

Lemma history_snoc x ys segs lost : history_segments x ys segs lost -> forall ss s y, segs = ss ++ [s] -> last ys 0 <= y ->
  exists lost', history_segments x (ys ++ [y]) (ss ++ grown_history s y) lost' /\ (lost <= lost')%nat.
Proof.
  induction 1 as [x|x y0|x y0 r|x y0 r y1 run rest segs lost Lt A St H IH]; intros ss s y E Hy.
  - now destruct ss.
  - assert (X : [] ++ [Seg 0 x y0 1] = ss ++ [s]) by exact E. apply app_inj_tail in X. destruct X as [<- <-]. unfold grown_history. cbn [sg_n sg_x sg_y sg_m Z.eqb app].
    cbn [last] in Hy. destruct (Z.eq_dec y y0) as [->|Ny].
    + exists 0%nat. replace (y0 - y0) with 0 by lia. split; [exact (HS_same x y0 0)|lia].
    + exists 0%nat. split; [|lia]. change [y0; y] with (y0 :: repeat y0 0 ++ y :: [] ++ []). change 2 with (2 + Z.of_nat (@length Z [])). change 0%nat with (0 + 0)%nat.
      constructor; [lia|constructor|exact I|constructor].
  - assert (X : [] ++ [Seg 0 x y0 2] = ss ++ [s]) by exact E. apply app_inj_tail in X. destruct X as [<- <-]. unfold grown_history. cbn [sg_n sg_x sg_y sg_m Z.eqb app].
    rewrite (repeat_cons (S r) y0), last_last in Hy. destruct (Z.eq_dec y y0) as [->|Ny].
    + exists (S r). replace (y0 - y0) with 0 by lia. split; [|lia]. rewrite <- repeat_cons. exact (HS_same x y0 (S r)).
    + exists (S r + 0)%nat. split; [|lia]. change [y] with (y :: [] ++ []). change 2 with (2 + Z.of_nat (@length Z [])).
      constructor; [lia|constructor|exact I|constructor].
  - destruct segs as [|s1 segs].
    + destruct (history_nonempty _ _ _ _ H eq_refl) as [-> ->]. rewrite app_nil_r in *.
      assert (X : [] ++ [Seg (y1 - y0) x y0 (2 + Z.of_nat (length run))] = ss ++ [s]) by exact E. apply app_inj_tail in X. destruct X as [<- <-].
      unfold grown_history. cbn [sg_n sg_x sg_y sg_m app]. replace (y1 - y0 =? 0) with false by lia. rewrite <- app_assoc. cbn [app].
      destruct ((y0 + (y1 - y0) * (2 + Z.of_nat (length run)) <=? y) && (y <? y0 + (y1 - y0) * (2 + Z.of_nat (length run) + 1))) eqn:F.
      * exists (r + 0)%nat. split; [|lia]. replace (y1 :: run ++ [y]) with (y1 :: (run ++ [y]) ++ []) by now rewrite app_nil_r.
        replace (2 + Z.of_nat (length run) + 1) with (2 + Z.of_nat (length (run ++ [y]))) by (rewrite app_length; cbn [length]; lia).
        constructor; [exact Lt| |exact I|constructor]. apply all_fit_snoc; [exact A|]. unfold fits_at. lia.
      * exists (r + 0)%nat. split; [|lia]. constructor; [exact Lt|exact A|unfold stops, fits_at; lia|]. replace (x + (2 + Z.of_nat (length run))) with (x + 2 + Z.of_nat (length run)) by lia. constructor.
    + destruct ss as [|s0 ss]; [discriminate E|]. injection E as E0 E. cbn [app]. rewrite <- E0.
      assert (Nr : rest <> []) by (intros ->; inversion H).
      assert (Hy' : last rest 0 <= y).
      { destruct (exists_last Nr) as (q & z & ->). rewrite last_last. replace (y0 :: repeat y0 r ++ y1 :: run ++ q ++ [z]) with ((y0 :: repeat y0 r ++ y1 :: run ++ q) ++ [z]) in Hy.
        - now rewrite last_last in Hy.
        - cbn [app]. rewrite <- !app_assoc. cbn [app]. now rewrite <- app_assoc. }
      destruct (IH ss s y E Hy') as (lost' & G & Le). exists (r + lost')%nat. split; [|lia]. rewrite <- app_assoc. cbn [app]. rewrite <- app_assoc. constructor; [exact Lt|exact A| |exact G].
      destruct rest; [congruence|exact St].
Qed.

Lemma history_app_l a b : day_history (a ++ b) -> day_history a.
Proof.
  intros (H1 & H2 & H3). rewrite app_length in H3. apply Forall_app in H2. split; [|split; [apply H2|lia]]. clear - H1. induction a as [|x a IH]; [constructor|]. cbn [app] in H1. inversion H1; subst.
  constructor; [now apply IH|]. rewrite Forall_app in *. tauto.
Qed.
Lemma history_last a y : day_history (a ++ [y]) -> a <> [] -> last a 0 <= y < 86400 /\ forall t, In t a -> 0 <= t <= y.
Proof.
  intros (H1 & H2 & _) Hne. apply Forall_app in H2. destruct H2 as [H2 H3]. inversion H3; subst.
  assert (X : forall t, In t a -> 0 <= t <= y).
  { intros t Ht. rewrite Forall_forall in H2. specialize (H2 t Ht). split; [lia|]. clear - H1 Ht. induction a as [|z a IH]; [destruct Ht|]. cbn [app] in H1. inversion H1; subst.
    destruct Ht as [->|Ht]; [|now apply IH]. rewrite Forall_app in *. destruct H3 as [_ H3]. now inversion H3. }
  split; [|exact X]. destruct (X _ (in_last a Hne)). lia.
Qed.
Lemma history_start x ys segs lost : history_segments x ys segs lost -> forall s, In s segs -> In (sg_y s) ys.
Proof.
  induction 1 as [x|x y|x y r|x y0 r y1 run rest segs lost Lt A St H IH]; intros s Hs.
  - destruct Hs.
  - destruct Hs as [<-|[]]. now left.
  - destruct Hs as [<-|[]]. now left.
  - destruct Hs as [<-|Hs]; [now left|]. right. apply in_or_app. right. right. apply in_or_app. right. now apply IH.
Qed.

Lemma history_build p ys : day_history ys -> exists segs lost, update_all p vsri_new ys = Ok (summary ys segs, repeat true (length ys)) /\ history_segments 0 ys segs lost.
Proof.
  induction ys as [|y ys IH] using rev_ind; intros Hd; [exists [], 0%nat; split; [reflexivity|constructor]|].
  destruct (IH (history_app_l _ _ Hd)) as (segs & lost & H1 & H2). rewrite update_all_app, H1. cbn [bind update_all]. rewrite app_length. cbn [length]. rewrite repeat_app. cbn [repeat].
  destruct (list_eq_dec Z.eq_dec ys []) as [->|Ny].
  - assert (segs = []) as -> by (inversion H2; reflexivity). assert (Hy : 0 <= y < 86400) by (destruct Hd as (_ & F & _); now inversion F).
    unfold update_for_point, summary. cbn [vs_max vs_segs last hd vs_min app]. replace (y <? 0) with false by lia.
    unfold create_fake_segment, current_segment. cbn [vs_segs last sg_x sg_n Z.add]. rewrite arith32 by lia. cbn [bind].
    exists [Seg 0 0 y 1], 0%nat. split; [reflexivity|constructor].
  - assert (Ns : segs <> []) by (intros ->; inversion H2; congruence). destruct (exists_last Ns) as (ss & s & ->).
    assert (Hd' := history_app_l _ _ Hd). destruct (history_last ys y Hd Ny) as [Hl Hin].
    assert (Sm : small_seg s).
    { assert (X := history_small _ _ _ _ H2 ltac:(lia) ltac:(destruct Hd' as (_ & _ & L); lia) ltac:(apply Hd')). apply Forall_app in X. destruct X as [_ X]. now inversion X. }
    rewrite (update_history p ys ss s y Sm Ny Hl) by (apply Hin; eapply history_start; [exact H2|apply in_or_app; right; now left]). cbn [bind].
    destruct (history_snoc _ _ _ _ H2 ss s y eq_refl ltac:(lia)) as (lost' & G & _). exists (ss ++ grown_history s y), lost'. split; [reflexivity|exact G].
Qed.

(** The index of such a history exists and has exactly the segments of the specification; its number of samples is the number of
    points minus the lost ones. *)
Theorem C75_segments : forall p ys, day_history ys ->
  exists v lost, index_of p ys v /\ history_segments 0 ys (vs_segs v) lost /\ get_sample_count p v = Ok (Z.of_nat (length ys) - Z.of_nat lost).
Proof.
  intros p ys Hd. destruct (history_build p ys Hd) as (segs & lost & U & H). exists (summary ys segs), lost. split; [eexists; exact U|]. split; [exact H|].
  destruct (history_length _ _ _ _ H) as (n & T & E). unfold get_sample_count. cbn [summary]. unfold summary. assert (C := tiles_count (hd 0 ys) (last ys 0) segs n T).
  rewrite C. destruct Hd as (_ & _ & L). rewrite arith32 by (assert (X := tiles_le _ _ _ T); lia). f_equal. lia.
Qed.
Print Assumptions C75_segments.

(** The specification determines the segments and the number of lost points. *)
Lemma split_repeat (y : Z) r1 : forall r2 a1 b1 l1 l2, y < a1 -> y < b1 -> repeat y r1 ++ a1 :: l1 = repeat y r2 ++ b1 :: l2 -> r1 = r2 /\ a1 = b1 /\ l1 = l2.
Proof.
  induction r1 as [|r1 IH]; intros [|r2] a1 b1 l1 l2 Ha Hb E; cbn [repeat app] in E; injection E; intros; subst; try lia; [auto|]. destruct (IH r2 a1 b1 l1 l2) as (-> & -> & ->); auto.
Qed.
Lemma repeat_no_later (y : Z) r1 : forall r2 a1 l1, y < a1 -> repeat y r2 <> repeat y r1 ++ a1 :: l1.
Proof. induction r1 as [|r1 IH]; intros [|r2] a1 l1 Ha E; cbn [repeat app] in E; try discriminate E; injection E; intros; subst; [lia|]. now apply (IH r2 a1 l1). Qed.
Theorem C75_segments_unique : forall x ys s1 l1 s2 l2, history_segments x ys s1 l1 -> history_segments x ys s2 l2 -> s1 = s2 /\ l1 = l2.
Proof.
  intros x ys s1 l1 s2 l2 H. revert s2 l2. induction H as [x|x y|x y r|x y0 r y1 run rest segs lost Lt A St H IH]; intros s2 l2 H2.
  - inversion H2. auto.
  - remember [y] as zs eqn:Ez. destruct H2 as [x|x z|x z r'|x z r' z1 run' rest' segs' lost' Lt' A' St' G']; [discriminate Ez|injection Ez as ->; auto|cbn [repeat] in Ez; discriminate Ez|].
    injection Ez as -> Ez. destruct r'; discriminate Ez.
  - remember (y :: repeat y (S r)) as zs eqn:Ez. destruct H2 as [x|x z|x z r'|x z r' z1 run' rest' segs' lost' Lt' A' St' G']; [discriminate Ez|cbn [repeat] in Ez; discriminate Ez| |].
    + assert (z = y) as -> by congruence. assert (L := f_equal (@length Z) Ez). cbn [length] in L. rewrite !repeat_length in L. split; [reflexivity|lia].
    + assert (z = y) as -> by congruence. assert (E' : repeat y (S r) = repeat y r' ++ z1 :: run' ++ rest') by congruence. clear Ez. rename E' into Ez. exfalso. exact (repeat_no_later y r' (S r) z1 _ Lt' Ez).
  - remember (y0 :: repeat y0 r ++ y1 :: run ++ rest) as zs eqn:Ez. destruct H2 as [x|x z|x z r'|x z r' z1 run' rest' segs' lost' Lt' A' St' G']; [discriminate Ez| | |].
    + injection Ez as -> Ez. destruct r; discriminate Ez.
    + assert (z = y0) as -> by congruence. assert (E' : repeat y0 (S r') = repeat y0 r ++ y1 :: run ++ rest) by congruence. exfalso. clear Ez. rename E' into Ez. exact (repeat_no_later y0 r (S r') y1 _ Lt Ez).
    + injection Ez as -> Ez. destruct (split_repeat y0 r' r z1 y1 _ _ Lt' Lt Ez) as (-> & -> & Er).
      destruct (run_unique _ _ run' 2 run rest' rest A' A Er St' St) as [-> ->]. destruct (IH _ _ G') as [-> ->]. auto.
Qed.
Print Assumptions C75_segments_unique.

(** * What is lost *)
Lemma segs_last x ys segs lost : history_segments x ys segs lost -> forall ss s, segs = ss ++ [s] ->
  (sg_m s = 0 /\ last ys 0 = sg_y s) \/ (0 < sg_m s /\ sg_y s + sg_m s * (sg_n s - 1) <= last ys 0 < sg_y s + sg_m s * sg_n s).
Proof.
  induction 1 as [x|x y|x y r|x y0 r y1 run rest segs lost Lt A St H IH]; intros ss s E.
  - now destruct ss.
  - assert (X : [] ++ [Seg 0 x y 1] = ss ++ [s]) by exact E. apply app_inj_tail in X. destruct X as [<- <-]. left. split; reflexivity.
  - assert (X : [] ++ [Seg 0 x y 2] = ss ++ [s]) by exact E. apply app_inj_tail in X. destruct X as [<- <-]. left. split; [reflexivity|]. rewrite (repeat_cons (S r) y). apply last_last.
  - destruct segs as [|s1 segs].
    + destruct (history_nonempty _ _ _ _ H eq_refl) as [-> ->]. rewrite app_nil_r.
      assert (X : [] ++ [Seg (y1 - y0) x y0 (2 + Z.of_nat (length run))] = ss ++ [s]) by exact E. apply app_inj_tail in X. destruct X as [<- <-]. right. cbn [sg_m sg_y sg_n]. split; [lia|].
      assert (X : last (y0 :: repeat y0 r ++ y1 :: run) 0 = last (y1 :: run) 0) by (change (y0 :: repeat y0 r ++ y1 :: run) with ((y0 :: repeat y0 r) ++ y1 :: run); destruct (exists_last (l := y1 :: run) ltac:(discriminate)) as (q & z & ->); now rewrite app_assoc, !last_last).
      rewrite X. clear X. destruct run as [|a run]; [cbn [last length]; nia|].
      destruct (exists_last (l := a :: run) ltac:(discriminate)) as (q & z & Eq). rewrite Eq in *. change (y1 :: q ++ [z]) with ((y1 :: q) ++ [z]). rewrite last_last. clear - A Lt. revert A.
      assert (X : forall j, all_fit (y1 - y0) y0 j (q ++ [z]) -> fits_at (y1 - y0) y0 (j + Z.of_nat (length q)) z).
      { induction q as [|b q IHq]; intros j H; cbn [app length] in *; inversion H as [|? ? ? F1 F2]; subst.
        - replace (j + Z.of_nat 0) with j by lia. exact F1.
        - assert (F3 := IHq (j + 1) F2). replace (j + Z.of_nat (S (length q))) with (j + 1 + Z.of_nat (length q)) by lia. exact F3. }
      intros A. specialize (X 2 A). unfold fits_at in X. rewrite app_length. cbn [length]. replace (2 + Z.of_nat (length q + 1) - 1) with (2 + Z.of_nat (length q)) by lia.
      replace (2 + Z.of_nat (length q + 1)) with (2 + Z.of_nat (length q) + 1) by lia. exact X.
    + destruct ss as [|s0 ss]; [discriminate E|]. injection E as E0 E. assert (Nr : rest <> []) by (intros ->; inversion H).
      assert (X : last (y0 :: repeat y0 r ++ y1 :: run ++ rest) 0 = last rest 0).
      { destruct (exists_last Nr) as (q & z & ->). replace (y0 :: repeat y0 r ++ y1 :: run ++ q ++ [z]) with ((y0 :: repeat y0 r ++ y1 :: run ++ q) ++ [z]); [now rewrite !last_last|].
        cbn [app]. rewrite <- !app_assoc. cbn [app]. now rewrite <- app_assoc. }
      rewrite X. exact (IH ss s E).
Qed.

Definition count_of (segs : list segment) : Z := match rev segs with [] => 0 | s :: _ => sg_x s + sg_n s end.
Lemma count_snoc ss s : count_of (ss ++ [s]) = sg_x s + sg_n s.
Proof. unfold count_of. now rewrite rev_app_distr. Qed.
Lemma tiles_last x ss s n : tiles x (ss ++ [s]) n -> n = sg_x s + sg_n s.
Proof. rewrite tiles_app. intros (k & _ & T). cbn [tiles] in T. lia. Qed.
Lemma lost_count ys segs lost ss s : history_segments 0 ys segs lost -> segs = ss ++ [s] -> sg_x s + sg_n s + Z.of_nat lost = Z.of_nat (length ys).
Proof. intros H E. destruct (history_length _ _ _ _ H) as (n & T & L). rewrite E in T. apply tiles_last in T. lia. Qed.

(** A further point when the last segment is one second with two points counted: it is lost. *)
Lemma lost_step ys ss s lost y : history_segments 0 ys (ss ++ [s]) lost -> sg_m s = 0 -> sg_n s = 2 -> last ys 0 <= y ->
  history_segments 0 (ys ++ [y]) (ss ++ [Seg (y - sg_y s) (sg_x s) (sg_y s) 2]) (S lost).
Proof.
  intros H M N L. destruct (history_snoc _ _ _ _ H ss s y eq_refl L) as (lost' & G & _). unfold grown_history in G. rewrite M in G. cbn [Z.eqb] in G.
  assert (C1 := lost_count _ _ _ _ _ H eq_refl). assert (C2 := lost_count _ _ _ _ _ G eq_refl). cbn [sg_x sg_n] in C2. rewrite app_length in C2. cbn [length] in C2.
  assert (lost' = S lost) as -> by lia. exact G.
Qed.
Lemma lost_more ys segs lost b : history_segments 0 ys segs lost -> segs <> [] -> StronglySorted Z.le (ys ++ b) -> exists segs' lost', history_segments 0 (ys ++ b) segs' lost' /\ (lost <= lost')%nat.
Proof.
  revert ys segs lost. induction b as [|y b IH]; intros ys segs lost H Ns S; [exists segs, lost; rewrite app_nil_r; auto|].
  replace (ys ++ y :: b) with ((ys ++ [y]) ++ b) in * by now rewrite <- app_assoc.
  destruct (exists_last Ns) as (ss & s & ->).
  assert (L : last ys 0 <= y).
  { assert (Ny : ys <> []) by (intros ->; inversion H; now destruct ss). rewrite <- app_assoc in S. cbn [app] in S. clear - S Ny. assert (X := in_last ys Ny). clear Ny. revert X. generalize (last ys 0) as z. intros z Hz.
    induction ys as [|a ys IH]; [destruct Hz|]. cbn [app] in S. inversion S; subst. destruct Hz as [->|Hz]; [|now apply IH]. rewrite Forall_app in *. destruct H2 as [_ H2]. now inversion H2. }
  destruct (history_snoc _ _ _ _ H ss s y eq_refl L) as (lost' & G & Le). destruct (IH _ _ _ G) as (segs2 & lost2 & G2 & Le2); [|exact S|exists segs2, lost2; split; [exact G2|lia]].
  unfold grown_history. destruct (sg_m s =? 0); [|destruct (_ && _)]; destruct ss; discriminate.
Qed.

Lemma lost_same ys ss s lost k : history_segments 0 ys (ss ++ [s]) lost -> sg_m s = 0 -> sg_n s = 2 -> last ys 0 = sg_y s ->
  history_segments 0 (ys ++ repeat (sg_y s) k) (ss ++ [s]) (k + lost) /\ last (ys ++ repeat (sg_y s) k) 0 = sg_y s.
Proof.
  intros H M N L. induction k as [|k [IH IL]]; [rewrite app_nil_r; auto|]. replace (repeat (sg_y s) (S k)) with (repeat (sg_y s) k ++ [sg_y s]) by now rewrite <- repeat_cons. rewrite app_assoc. split; [|apply last_last].
  assert (X := lost_step _ _ _ _ (sg_y s) IH M N ltac:(lia)). replace (sg_y s - sg_y s) with 0 in X by lia. destruct s as [m0 x0 y0 n0]. cbn [sg_m sg_x sg_y sg_n] in *. subst. exact X.
Qed.
Lemma last_seg_of ys segs lost : history_segments 0 ys segs lost -> ys <> [] -> exists ss s, segs = ss ++ [s].
Proof. intros H N. assert (Ns : segs <> []) by (intros ->; destruct (history_nonempty _ _ _ _ H eq_refl); congruence). destruct (exists_last Ns) as (ss & s & E). eauto. Qed.

(** A second with c + 2 samples (c at least 1) that is followed by another sample costs at least c samples, whatever comes before and after. *)
Theorem C75_crowded_second_loses : forall a y c z b segs lost, (1 <= c)%nat -> StronglySorted Z.le (a ++ repeat y (c + 2) ++ z :: b) ->
  history_segments 0 (a ++ repeat y (c + 2) ++ z :: b) segs lost -> (c <= lost)%nat.
Proof.
  intros a y c z b segs lost Hc Hs H.
  assert (Lem : forall l r, StronglySorted Z.le (l ++ r) -> StronglySorted Z.le l).
  { clear. induction l as [|x l IH]; intros r S; [constructor|]. cbn [app] in S. inversion S; subst. constructor; [eapply IH; eassumption|]. rewrite Forall_app in *. tauto. }
  assert (Ex : forall l, StronglySorted Z.le l -> exists segs lost, history_segments 0 l segs lost).
  { clear. induction l as [|x l IH] using rev_ind; intros S; [exists [], 0%nat; constructor|]. destruct l as [|x0 l]; [exists [Seg 0 0 x 1], 0%nat; constructor|].
    assert (Lem : StronglySorted Z.le (x0 :: l)).
    { clear - S. revert S. generalize (x0 :: l). induction l0 as [|q l0 IH]; intros S; [constructor|]. cbn [app] in S. inversion S; subst. constructor; [now apply IH|]. rewrite Forall_app in *. tauto. }
    destruct (IH Lem) as (segs & lost & H). destruct (lost_more _ _ _ [x] H) as (s' & l' & G & _); [intros ->; destruct (history_nonempty _ _ _ _ H eq_refl); discriminate|exact S|eauto]. }
  assert (Two : exists segs lost, history_segments 0 (a ++ [y; y]) segs lost).
  { apply Ex. apply (Lem _ (repeat y c ++ z :: b)). replace (c + 2)%nat with (2 + c)%nat in Hs by lia. rewrite <- app_assoc. exact Hs. }
  (* after two points of second y the last segment is that second *)
  assert (One : exists segs lost, history_segments 0 (a ++ [y]) segs lost).
  { apply Ex. apply (Lem _ (repeat y (c + 1) ++ z :: b)). replace (c + 2)%nat with (1 + (c + 1))%nat in Hs by lia. rewrite <- app_assoc. exact Hs. }
  destruct One as (sg1 & l1 & H1). destruct (last_seg_of _ _ _ H1) as (ss1 & s1 & ->); [now destruct a|].
  assert (La : last (a ++ [y]) 0 = y) by apply last_last.
  destruct (history_snoc _ _ _ _ H1 ss1 s1 y eq_refl ltac:(lia)) as (l2 & H2 & _). assert (E2 := segs_last _ _ _ _ H1 ss1 s1 eq_refl). rewrite La in E2.
  assert (St2 : exists ss s, ss1 ++ grown_history s1 y = ss ++ [s] /\ sg_m s = 0 /\ sg_y s = y).
  { unfold grown_history. destruct E2 as [[M E]|[M E]].
    - rewrite M. cbn [Z.eqb]. exists ss1. eexists. split; [reflexivity|]. cbn [sg_m sg_y]. lia.
    - replace (sg_m s1 =? 0) with false by lia. replace ((sg_y s1 + sg_m s1 * sg_n s1 <=? y) && (y <? sg_y s1 + sg_m s1 * (sg_n s1 + 1))) with false by lia.
      exists (ss1 ++ [s1]). eexists. split; [now rewrite <- app_assoc|]. split; reflexivity. }
  destruct St2 as (ss2 & s2 & Eq2 & M2 & Y2). rewrite Eq2 in H2. clear Eq2. assert (L2 : last ((a ++ [y]) ++ [y]) 0 = y) by apply last_last.
  (* the third makes two counted points *)
  destruct (history_snoc _ _ _ _ H2 ss2 s2 y eq_refl ltac:(lia)) as (l3 & H3 & _). unfold grown_history in H3. rewrite M2 in H3. cbn [Z.eqb] in H3.
  destruct (lost_same _ _ _ _ (c - 1) H3) as [H4 L4]; cbn [sg_m sg_n sg_y]; [lia|reflexivity|rewrite last_last; lia|]. cbn [sg_y] in H4, L4.
  assert (S4 : StronglySorted Z.le (((((a ++ [y]) ++ [y]) ++ [y]) ++ repeat (sg_y s2) (c - 1)) ++ z :: b)).
  { rewrite Y2, <- !app_assoc. cbn [app]. replace (y :: y :: y :: repeat y (c - 1) ++ z :: b) with (repeat y (c + 2) ++ z :: b); [exact Hs|]. replace (c + 2)%nat with (S (S (S (c - 1)))) by lia. reflexivity. }
  assert (Lz : sg_y s2 <= z).
  { clear - S4 L4 Hc. set (l := (((a ++ [y]) ++ [y]) ++ [y]) ++ repeat (sg_y s2) (c - 1)) in *. assert (Nl : l <> []) by (unfold l; destruct a; discriminate). assert (X := in_last l Nl). rewrite L4 in X. clear L4 Nl. clearbody l.
    induction l as [|q l IH]; [destruct X|]. cbn [app] in S4. inversion S4; subst. destruct X as [->|X]; [|now apply IH]. rewrite Forall_app in *. destruct H2 as [_ H2]. now inversion H2. }
  assert (H5 := lost_step _ _ _ _ z H4). cbn [sg_m sg_n sg_y sg_x] in H5. specialize (H5 ltac:(lia) eq_refl ltac:(lia)).
  destruct (lost_more _ _ _ b H5) as (segs6 & l6 & H6 & Le); [destruct ss2; discriminate|now rewrite <- app_assoc|].
  assert (El : (((((a ++ [y]) ++ [y]) ++ [y]) ++ repeat (sg_y s2) (c - 1)) ++ [z]) ++ b = a ++ repeat y (c + 2) ++ z :: b).
  { rewrite Y2, <- !app_assoc. cbn [app]. replace (c + 2)%nat with (S (S (S (c - 1)))) by lia. reflexivity. }
  rewrite El in H6. destruct (C75_segments_unique _ _ _ _ _ _ H H6) as [_ ->]. lia.
Qed.
Print Assumptions C75_crowded_second_loses.

(** * Reading back *)
Lemma time_in_history p segs : forall x0 n s k, Forall small_seg segs -> tiles x0 segs n -> In s segs -> in_segment s k -> get_time_in p segs k = Ok (Some (sg_y s + sg_m s * k)).
Proof.
  induction segs as [|a l IH]; intros x0 n s k F T Hs Hk; [destruct Hs|]. inversion F as [|? ? Fa Fl]; subst. cbn [tiles] in T. destruct T as (T1 & T2 & T3). cbn [get_time_in]. unfold in_segment in Hk.
  destruct Hs as [->|Hs].
  - unfold small_seg in Fa. replace (sg_x s <=? k) with true by lia. rewrite arith32 by lia. cbn [bind]. replace (k <? sg_x s + sg_n s) with true by lia.
    assert (B := mul_small (sg_m s) k ltac:(lia) ltac:(lia)). rewrite arith32 by lia. cbn [bind]. rewrite arith32 by lia. reflexivity.
  - destruct (tiles_in _ _ _ _ T3 Hs) as (X & _). unfold small_seg in Fa. destruct (sg_x a <=? k) eqn:E; [|eapply IH; eauto].
    rewrite arith32 by lia. cbn [bind]. replace (k <? sg_x a + sg_n a) with false by lia. eapply IH; eauto.
Qed.
Lemma tiles_cover segs : forall x n k, tiles x segs n -> x <= k < n -> exists s, In s segs /\ in_segment s k.
Proof.
  induction segs as [|a l IH]; intros x n k T Hk; cbn [tiles] in T; [lia|]. destruct T as (T1 & T2 & T3). destruct (Z_lt_ge_dec k (x + sg_n a)) as [L|L].
  - exists a. split; [now left|]. unfold in_segment. lia.
  - destruct (IH _ _ k T3 ltac:(lia)) as (s & S1 & S2). exists s. split; [now right|exact S2].
Qed.
Lemma head_history x ys segs lost : history_segments x ys segs lost -> ys <> [] -> exists s r, segs = s :: r /\ sg_x s = x /\ sg_y s = hd 0 ys /\ 1 <= sg_n s.
Proof. destruct 1; intros N; [congruence| | |]; (eexists; eexists; split; [reflexivity|]); cbn [sg_x sg_y sg_n hd]; (split; [reflexivity|split; [reflexivity|lia]]). Qed.

Lemma time_history p ys segs lost k : day_history ys -> history_segments 0 ys segs lost -> ys <> [] ->
  (Z.of_nat k + Z.of_nat lost < Z.of_nat (length ys) -> exists t, get_time p (summary ys segs) (Z.of_nat k) = Ok (Some t) /\ attached segs (Z.of_nat k) t) /\
  (Z.of_nat k + Z.of_nat lost = Z.of_nat (length ys) -> get_time p (summary ys segs) (Z.of_nat k) = Ok (Some (last ys 0))) /\
  (Z.of_nat (length ys) < Z.of_nat k + Z.of_nat lost -> get_time p (summary ys segs) (Z.of_nat k) = Ok None).
Proof.
  intros Hd H Ny. destruct (history_length _ _ _ _ H) as (n & T & E). assert (Sm := history_small _ _ _ _ H ltac:(lia) ltac:(destruct Hd as (_ & _ & L); lia) ltac:(apply Hd)).
  destruct (head_history _ _ _ _ H Ny) as (s0 & r0 & Es & X0 & Y0 & N0). assert (Hn : 1 <= n) by (rewrite Es in T; cbn [tiles] in T; destruct T as (_ & T2 & T3); apply tiles_le in T3; lia).
  assert (C : get_sample_count p (summary ys segs) = Ok n).
  { unfold get_sample_count, summary. rewrite (tiles_count _ _ segs n T). apply arith32. destruct Hd as (_ & _ & L). lia. }
  unfold get_time. destruct k as [|k].
  - cbn [Z.of_nat Z.eqb summary vs_min]. split; [|split; [lia|lia]]. intros _. eexists. split; [reflexivity|]. exists s0. rewrite Es. split; [now left|]. unfold in_segment. rewrite X0, Y0. lia.
  - replace (Z.of_nat (S k) =? 0) with false by lia. rewrite C. cbn [bind]. split; [|split]; intros Hk.
    + replace (n <? Z.of_nat (S k)) with false by lia. replace (Z.of_nat (S k) =? n) with false by lia.
      destruct (tiles_cover segs 0 n (Z.of_nat (S k)) T ltac:(lia)) as (s & S1 & S2). exists (sg_y s + sg_m s * Z.of_nat (S k)). split; [eapply time_in_history; eauto|]. exists s. auto.
    + replace (n <? Z.of_nat (S k)) with false by lia. replace (Z.of_nat (S k) =? n) with true by lia. reflexivity.
    + replace (n <? Z.of_nat (S k)) with true by lia. reflexivity.
Qed.

(** The time of row k: by its segment, or, one past the counted ones, the last second. *)
Definition attached_or_last (ys : list Z) (segs : list segment) (lost k : nat) (t : Z) : Prop :=
  ((k + lost < length ys)%nat -> attached segs (Z.of_nat k) t) /\ ((k + lost = length ys)%nat -> t = last ys 0).

Lemma pair_fails p v vals : forall i k, Z.of_nat (i + length vals) <= 2 ^ 31 -> (i <= k < i + length vals)%nat ->
  (forall j, (i <= j < k)%nat -> exists t, get_time p v (Z.of_nat j) = Ok (Some t)) -> get_time p v (Z.of_nat k) = Ok None -> pair_samples p v i vals = Panic PUnwrap.
Proof.
  induction vals as [|x vals IH]; intros i k Hn Hk Hb Hf; [cbn in Hk; lia|]. cbn [pair_samples length] in *.
  assert (W : wrap_s 32 (Z.of_nat i) = Z.of_nat i) by (unfold wrap_s; change (32 - 1) with 31; rewrite Z.mod_small by lia; lia). rewrite W.
  destruct (Nat.eq_dec i k) as [->|Nk]; [now rewrite Hf|]. destruct (Hb i ltac:(lia)) as (t & ->). cbn [bind]. rewrite (IH (S i) k); [reflexivity|lia|lia|intros j Hj; apply Hb; lia|exact Hf].
Qed.

(** Pairing [vals] with the times of the index: possible exactly if at most one value more than counted samples is there. *)
Lemma pairing p ys segs lost vals : day_history ys -> history_segments 0 ys segs lost -> ys <> [] -> (length vals <= length ys)%nat ->
  ((length vals + lost <= length ys + 1)%nat -> exists rows, pair_samples p (summary ys segs) 0 vals = Ok rows /\ values rows = vals /\
     forall k r, nth_error rows k = Some r -> attached_or_last ys segs lost k (sm_ts r)) /\
  ((length ys + 1 < length vals + lost)%nat -> pair_samples p (summary ys segs) 0 vals = Panic PUnwrap).
Proof.
  intros Hd H Ny Lv. assert (L := proj2 (proj2 Hd)). split; intros Hl.
  - destruct (pair_samples_spec p (summary ys segs) vals 0 ltac:(lia)) as (rows & Er & Vr & Tr).
    { intros k Hk. destruct (time_history p ys segs lost k Hd H Ny) as (T1 & T2 & _). destruct (Z.lt_ge_cases (Z.of_nat k + Z.of_nat lost) (Z.of_nat (length ys))) as [C|C]; [destruct (T1 C) as (t & -> & _); eauto|].
      rewrite T2 by lia. eauto. }
    exists rows. split; [exact Er|]. split; [exact Vr|]. intros k r Ek. assert (T := Tr k r Ek). cbn [Nat.add] in T. destruct (time_history p ys segs lost k Hd H Ny) as (T1 & T2 & _). split; intros C.
    + destruct (T1 ltac:(lia)) as (t & T' & At). rewrite T in T'. apply ok_inj in T'. assert (sm_ts r = t) as -> by congruence. exact At.
    + rewrite T2 in T by lia. apply ok_inj in T. congruence.
  - assert (Ll : (lost <= length ys)%nat) by (destruct (history_length _ _ _ _ H) as (n & T & E); apply tiles_le in T; lia).
    apply (pair_fails p _ vals 0 (length ys + 1 - lost)); [lia|lia| |].
    + intros j Hj. destruct (time_history p ys segs lost j Hd H Ny) as (T1 & T2 & _). destruct (Z.lt_ge_cases (Z.of_nat j + Z.of_nat lost) (Z.of_nat (length ys))) as [C|C]; [destruct (T1 C) as (t & -> & _); eauto|].
      rewrite T2 by lia. eauto.
    + apply (time_history p ys segs lost _ Hd H Ny). lia.
Qed.

(** A metric of such samples is always built. Reading its samples back works exactly if the index lost at most one of them. *)
Theorem C75_read_back : forall p samples, Forall datable samples -> day_history (seconds samples) -> samples <> [] ->
  exists m segs lost, from_samples p samples = Ok (MetricOk m) /\ history_segments 0 (seconds samples) segs lost /\
    ((lost <= 1)%nat -> exists rows, get_samples p m = Ok rows /\ values rows = values samples /\
        forall k r, nth_error rows k = Some r -> attached_or_last (seconds samples) segs lost k (sm_ts r)) /\
    ((2 <= lost)%nat -> get_samples p m = Panic PUnwrap).
Proof.
  intros p samples Hdat Hd Ne. destruct (history_build p _ Hd) as (segs & lost & U & H). assert (Ls : length (seconds samples) = length samples) by apply map_length.
  destruct (C39_built p samples _ _ Hdat ltac:(destruct Hd as (_ & _ & L); lia) (proj1 Hd) U) as (w & E & V & _). exists (Metric w (summary (seconds samples) segs)), segs, lost. split; [exact E|]. split; [exact H|].
  assert (Ny : seconds samples <> []) by (destruct samples; [congruence|discriminate]). assert (Lv : length (values samples) = length (seconds samples)) by (unfold values, seconds; now rewrite !map_length).
  unfold get_samples. cbn [mt_vsri mt_wbro]. rewrite V. destruct (pairing p _ segs lost (values samples) Hd H Ny ltac:(lia)) as [P1 P2]. split; intros C; [apply P1; lia|apply P2; lia].
Qed.
Print Assumptions C75_read_back.

(** * csv-compressor *)
Lemma index_reloads ys segs lost : day_history ys -> history_segments 0 ys segs lost -> load (flush_bytes (summary ys segs)) = Ok (summary ys segs).
Proof.
  intros Hd H. apply C34_round_trip. assert (Sm := history_small _ _ _ _ H ltac:(lia) ltac:(destruct Hd as (_ & _ & L); lia) ltac:(apply Hd)).
  unfold i32_index, summary, in_s. cbn [vs_min vs_max vs_segs]. change (2 ^ (32 - 1)) with 2147483648.
  assert (B : -2147483648 <= hd 0 ys < 2147483648 /\ -2147483648 <= last ys 0 < 2147483648).
  { destruct Hd as (_ & F & _). rewrite Forall_forall in F. destruct ys as [|a l]; [cbn; lia|]. split; [specialize (F a (or_introl eq_refl)); cbn; lia|].
    specialize (F _ (in_last (a :: l) ltac:(discriminate))). lia. }
  split; [apply B|]. split; [apply B|]. eapply Forall_impl; [|exact Sm]. intros s Hs. unfold small_seg in Hs. unfold i32_segment, in_s. change (2 ^ (32 - 1)) with 2147483648. lia.
Qed.

(** Samples of one day in the order of their seconds (up to 24855), at least one of them finite: compressing always ends normally.
    Uncompressing ends normally exactly if there is at most one finite value more than samples counted by the index: then x.csv has the
    decompressed values. Otherwise it panics, after writing x.wbro, and x.csv stays as it was. *)
Theorem C75_round_trip : forall e p nt a fs x samples s,
  env_ok e -> proper_stem x -> csvc_accepted a -> read_samples_from_csv_file nt (fs (named x ext_csv)) = Some samples ->
  Forall datable samples -> day_history (seconds samples) -> In s samples -> finite (sm_val s) ->
  exists fs1 bytes out cleaned segs lost,
    csvc_process_args e p nt (compress_call a x true) fs = (fs1, Done) /\
    compress_data e p (values samples) (c_compressor a) (c_error a) (c_level a) = Ok bytes /\ decompress_data e p bytes = Ok out /\
    subsequence_of finite (values samples) cleaned /\ length out = length cleaned /\
    history_segments 0 (seconds samples) segs lost /\
    ((length out + lost <= length samples + 1)%nat -> exists fs2 rows,
       csvc_process_args e p nt (uncompress_call a x) fs1 = (fs2, Done) /\
       fs2 (named x ext_csv) = Some (write_samples_text nt rows) /\ values rows = out /\
       forall k r, nth_error rows k = Some r -> attached_or_last (seconds samples) segs lost k (sm_ts r)) /\
    ((length samples + 1 < length out + lost)%nat -> exists fs2,
       csvc_process_args e p nt (uncompress_call a x) fs1 = (fs2, Panicked) /\
       from_file (fs2 (named x ext_wbro)) = Ok (WbSamples out) /\ fs2 (named x ext_csv) = fs (named x ext_csv)).
Proof.
  intros e p nt a fs x samples s He Hx (Ha1 & Ha2) Hr Hdat Hd Hin Fin.
  assert (Ls : length (seconds samples) = length samples) by apply map_length.
  assert (L86 : Z.of_nat (length samples) <= 24855) by (rewrite <- Ls; apply Hd).
  assert (Lv : length (values samples) = length samples) by apply map_length.
  assert (Ny : seconds samples <> []) by (destruct samples; [destruct Hin|discriminate]).
  assert (Cl := clean_data_spec (values samples)). assert (Lc : (length (clean_data (values samples)) <= length samples)%nat).
  { rewrite <- Lv. clear - Cl. induction Cl; cbn [length]; lia. }
  assert (Hfit : fits_counter p (values samples)) by (left; rewrite <- clean_is; lia).
  destruct (C13_pipeline_sample_count e p (values samples) (c_compressor a) (c_error a) (c_level a) He ltac:(lia) Ha2 Hfit) as (bytes & out & Cb & Do & Len). rewrite <- clean_is in Len.
  assert (Rd := C15_nonempty_series_readable e p (values samples) (c_compressor a) (c_error a) (c_level a) bytes (sm_val s) He ltac:(lia) Ha2 Hfit (in_map sm_val _ _ Hin) Fin Cb).
  destruct (history_build p _ Hd) as (segs & lost & U & H).
  destruct (C39_built p samples _ _ Hdat ltac:(lia) (proj1 Hd) U) as (w0 & E0 & V0 & _).
  set (v := summary (seconds samples) segs) in *.
  set (fs1 := put (put fs (named x ext_vsri) (flush_bytes v)) (named x ext_bro) bytes).
  assert (S1 : csvc_process_args e p nt (compress_call a x true) fs = (fs1, Done)).
  { unfold csvc_process_args, compress_call. cbn [c_uncompress]. unfold csvc_compress, process_csv. cbn [c_input c_output c_output_wavbrro c_output_vsri c_no_compression c_compressor c_error c_level].
    rewrite Hr, E0. cbn [bind mt_wbro mt_vsri]. rewrite V0, Cb, !set_ext_named; auto using proper_csv. }
  destruct (put_wbro_reads fs1 (named x ext_wbro) out ltac:(lia)) as (file & P & F).
  destruct (pairing p _ segs lost out Hd H Ny ltac:(lia)) as [P1 P2]. fold v in P1, P2. rewrite Ls in P1, P2.
  assert (S2 : csvc_process_args e p nt (uncompress_call a x) fs1 = match pair_samples p v 0 out with Ok rows => (put (put fs1 (named x ext_wbro) file) (named x ext_csv) (write_samples_text nt rows), Done) | Panic _ => (put fs1 (named x ext_wbro) file, Panicked) end).
  { unfold csvc_process_args, uncompress_call. cbn [c_uncompress]. unfold csvc_uncompress. cbn [c_input c_output].
    unfold fs1 at 1. rewrite put_same, Rd, Do. cbn [bind]. destruct (C36_accumulates p out ltac:(lia)) as (w & Ew & Sw & _). rewrite <- fold_add_all in Ew. rewrite Ew. cbn [bind].
    rewrite !set_ext_named by auto using proper_bro, proper_wbro. unfold fs1 at 1. rewrite put_other by (apply named_differ; discriminate). rewrite put_same.
    unfold v. rewrite (index_reloads _ segs lost Hd H). fold v. rewrite P. unfold get_samples. cbn [mt_vsri mt_wbro]. rewrite Sw. destruct (pair_samples p v 0 out); reflexivity. }
  exists fs1, bytes, out, (clean_data (values samples)), segs, lost.
  split; [exact S1|]. split; [exact Cb|]. split; [exact Do|]. split; [exact Cl|]. split; [exact Len|]. split; [exact H|]. split; intros C.
  - destruct (P1 C) as (rows & Er & Vr & Tr). rewrite S2, Er. eexists. exists rows. split; [reflexivity|]. split; [apply put_same|]. split; [exact Vr|exact Tr].
  - rewrite S2, (P2 C). eexists. split; [reflexivity|]. split; [rewrite put_same; exact F|].
    rewrite put_other by (apply named_differ; discriminate). unfold fs1. rewrite put_other by (apply named_differ; discriminate). rewrite put_other by (apply named_differ; discriminate). reflexivity.
Qed.
Print Assumptions C75_round_trip.

(** So four samples within one second, followed by another sample, make uncompressing panic if all values are finite. *)
Theorem C75_four_in_a_second_panics : forall e p nt a fs x samples pre y z post,
  env_ok e -> proper_stem x -> csvc_accepted a -> read_samples_from_csv_file nt (fs (named x ext_csv)) = Some samples ->
  Forall datable samples -> day_history (seconds samples) -> Forall (fun s => finite (sm_val s)) samples ->
  seconds samples = pre ++ [y; y; y; y] ++ z :: post ->
  exists fs1 fs2, csvc_process_args e p nt (compress_call a x true) fs = (fs1, Done) /\ csvc_process_args e p nt (uncompress_call a x) fs1 = (fs2, Panicked).
Proof.
  intros e p nt a fs x samples pre y z post He Hx Ha Hr Hdat Hd Hf Es.
  assert (Hs : exists s, In s samples) by (destruct samples as [|s l]; [destruct pre; discriminate Es|exists s; now left]). destruct Hs as (s & Hs). assert (Hf' := Hf). rewrite Forall_forall in Hf'.
  destruct (C75_round_trip e p nt a fs x samples s He Hx Ha Hr Hdat Hd Hs (Hf' s Hs)) as (fs1 & bytes & out & cl & segs & lost & S1 & _ & _ & Sub & Len & H & _ & P2).
  assert (Cl : length cl = length samples).
  { assert (cl = values samples) as ->; [|apply map_length]. assert (AllF : Forall finite (values samples)) by (unfold values; rewrite Forall_map; exact Hf).
    clear - Sub AllF. induction Sub as [|q l r P Sub IH|q l r P Sub IH]; [reflexivity| |]; inversion AllF; subst; [f_equal; now apply IH|contradiction]. }
  assert (L2 : (2 <= lost)%nat).
  { rewrite Es in H. apply (C75_crowded_second_loses pre y 2 z post segs lost ltac:(lia)); [|exact H]. assert (X := proj1 Hd). rewrite Es in X. exact X. }
  destruct P2 as (fs2 & S2 & _); [lia|]. exists fs1, fs2. auto.
Qed.
Print Assumptions C75_four_in_a_second_panics.

(** * Concrete cases *)
Definition burst_samples : list sample := map (fun y => Sample (1704067200000 + 250 * y) (from_bits 4609434218613702656)) [0; 1; 2; 3; 4; 5; 6; 7; 8].
Definition burst_file : files := fun n => if text_eqb n (named w_x ext_csv) then Some (write_samples_text toy_numbers burst_samples) else None.
Example C75_example : exists s,
  env_ok id_env /\ proper_stem w_x /\ csvc_accepted csvc_defaults /\ read_samples_from_csv_file toy_numbers (burst_file (named w_x ext_csv)) = Some burst_samples /\
  Forall datable burst_samples /\ day_history (seconds burst_samples) /\ Forall (fun s => finite (sm_val s)) burst_samples /\ In s burst_samples /\
  seconds burst_samples = [] ++ [0; 0; 0; 0] ++ 1 :: [1; 1; 1; 2].
Proof.
  assert (Sd : seconds burst_samples = [0; 0; 0; 0; 1; 1; 1; 1; 2]) by (vm_compute; reflexivity).
  eexists. split; [exact id_env_ok|]. split; [plain_stem|]. split; [unfold csvc_accepted; cbn; lia|]. split; [|split; [|split; [|split; [|split; [left; reflexivity|exact Sd]]]]].
  - unfold burst_file. rewrite (proj2 (text_eqb_spec _ _) eq_refl). apply C48_write_read. unfold burst_samples. rewrite Forall_map. apply Forall_forall. intros y Hy.
    assert (0 <= y <= 200) by (cbn in Hy; lia). split; [unfold in_s; cbn [sm_ts]; change (64 - 1) with 63; lia|]. unfold text_exact, plain. cbn [sm_val].
    assert (E : show_f64 toy_numbers (from_bits 4609434218613702656) = [49; 46; 53]) by (vm_compute; reflexivity). rewrite E.
    split; [repeat apply Forall_cons; try apply Forall_nil; lia|]. split; [discriminate|reflexivity].
  - unfold burst_samples. rewrite Forall_map. apply Forall_forall. intros y Hy. assert (0 <= y <= 200) by (cbn in Hy; lia).
    unfold datable, chrono_min, chrono_max. cbn [sm_ts]. Z.to_euclidean_division_equations; lia.
  - rewrite Sd. split; [repeat (constructor; [|repeat (apply Forall_cons; [lia|]); apply Forall_nil]); constructor|]. split; [repeat (apply Forall_cons; [lia|]); apply Forall_nil|cbn; lia].
  - unfold burst_samples. rewrite Forall_map. apply Forall_forall. intros y _. cbn [sm_val]. vm_compute. reflexivity.
Qed.
(** One lost sample does not matter for reading, yet moves times: these five seconds make two segments that count four samples. *)
Example C75_one_lost : day_history [0; 0; 1; 1; 5] /\ history_segments 0 [0; 0; 1; 1; 5] [Seg 1 0 0 2; Seg 4 2 1 2] 1.
Proof.
  split.
  - split; [repeat (constructor; [|repeat (apply Forall_cons; [lia|]); apply Forall_nil]); constructor|]. split; [repeat (apply Forall_cons; [lia|]); apply Forall_nil|cbn; lia].
  - exact (HS_run 0 0 1 1 [] [1; 5] [Seg 4 2 1 2] 0 eq_refl (AF_nil _ _ _) ltac:(unfold stops, fits_at; lia) (HS_run 2 1 0 5 [] [] [] 0 eq_refl (AF_nil _ _ _) I (HS_nil _))).
Qed.
