(** C29 (continued): which segments an index has. *)
From Coq Require Import List ZArith Bool Lia ZifyBool Sorting.Sorted.
From Verif Require Import Base Model_Vsri Spec_Vsri VsriFacts VsriLookup Spec_Segments Props_Vsri.
Import ListNotations.
Open Scope Z_scope.

(** * The last segment after one more point *)
Definition grown (s : segment) (y : Z) : list segment :=
  if sg_n s =? 1 then [Seg (y - sg_y s) (sg_x s) (sg_y s) 2]
  else if (sg_y s + sg_m s * sg_n s <=? y) && (y <? sg_y s + sg_m s * (sg_n s + 1)) then [Seg (sg_m s) (sg_x s) (sg_y s) (sg_n s + 1)]
  else [s; Seg 0 (sg_x s + sg_n s) y 1].

Lemma update_exact p pts ss s y : describes (ss ++ [s]) pts -> day_points (pts ++ [y]) ->
  update_for_point p (summary pts (ss ++ [s])) y = Ok (summary (pts ++ [y]) (ss ++ grown s y), true).
Proof.
  intros H Hd. assert (Hd' := day_app_l _ _ Hd). assert (Hall := describes_ok _ _ Hd' H).
  assert (Hy : 0 <= y < 86400) by (destruct Hd as [_ Hd]; rewrite Forall_app in Hd; destruct Hd as [_ Hd]; now inversion Hd).
  assert (Hlt : forall t, In t pts -> t < y).
  { intros t Ht. destruct Hd as [Hs _]. apply sorted_app_inv in Hs. destruct Hs as (_ & _ & Hs). apply Hs; [exact Ht|now left]. }
  unfold update_for_point. cbn [vs_max vs_min vs_segs summary].
  assert (Hmx : (y <? last pts 0) = false).
  { destruct pts as [|a l]; [cbn; lia|]. specialize (Hlt _ (in_last (a :: l) ltac:(discriminate))). lia. }
  rewrite Hmx. unfold summary at 1. rewrite last_snoc_app.
  destruct (describes_inv _ _ H (snoc_inv_nil _ _)) as (ss' & s' & pp & g & E1 & E2 & D & Hr & Sg).
  apply app_inj_tail in E1. destruct E1 as [<- <-].
  assert (L := segment_of_nonempty _ _ _ Sg).
  assert (Hne : pts <> []) by (rewrite E2; destruct pp; cbn; [destruct g; cbn in L; [lia|discriminate]|discriminate]).
  rewrite hd_snoc by exact Hne.
  assert (Ok_s : seg_ok s) by (rewrite Forall_app in Hall; destruct Hall as [_ A]; now inversion A).
  assert (Hg := Sg). destruct Hg as (Hx & Hn & H0 & H1 & H2 & H3).
  assert (B := seg_ok_mx s Ok_s).
  assert (Hy0 : sg_y s < y) by (apply nth_error_In in H0; apply Hlt; rewrite E2; apply in_or_app; now right).
  assert (Cs : forall A (u w : A), match ss ++ [s] with [] => u | _ :: _ => w end = w) by (intros; now destruct ss). rewrite Cs. clear Cs.
  unfold is_fake_segment, generate_segment, fits_segment, create_fake_segment. rewrite current_snoc.
  unfold grown. assert (Ok_s' := Ok_s). unfold seg_ok in Ok_s. destruct (sg_m s =? 0) eqn:Em; cbn [negb].
  - replace (sg_n s =? 1) with true by lia. rewrite arith32 by lia. cbn [bind]. rewrite set_last_snoc. reflexivity.
  - replace (sg_n s =? 1) with false by lia.
    assert (LP := line_position p s y Ok_s' ltac:(lia) ltac:(lia)).
    assert (FE : (do b <- calculate_b p s; do yb <- arith_s p 32 (y - b); do xv <- i32_div yb (sg_m s); do nx <- arith_s p 32 (sg_n s + sg_x s); Ok (xv =? nx))
                 = Ok (sg_x s + (y - sg_y s) / sg_m s =? sg_n s + sg_x s)).
    { destruct (calculate_b p s) as [b|]; [|discriminate LP]. cbn [bind] in *. destruct (arith_s p 32 (y - b)) as [yb|]; [|discriminate LP]. cbn [bind] in *.
      rewrite LP. cbn [bind]. rewrite arith32 by lia. reflexivity. }
    rewrite FE. cbn [bind].
    assert (M := Z.div_mod (y - sg_y s) (sg_m s) ltac:(lia)). assert (M2 := Z.mod_pos_bound (y - sg_y s) (sg_m s) ltac:(lia)).
    set (q := (y - sg_y s) / sg_m s) in *. set (r := (y - sg_y s) mod sg_m s) in *.
    destruct (Z.eq_dec q (sg_n s)) as [Eq|Nq].
    + replace (sg_x s + q =? sg_n s + sg_x s) with true by lia.
      replace ((sg_y s + sg_m s * sg_n s <=? y) && (y <? sg_y s + sg_m s * (sg_n s + 1))) with true by nia.
      rewrite arith32 by lia. cbn [bind]. rewrite set_last_snoc. reflexivity.
    + replace (sg_x s + q =? sg_n s + sg_x s) with false by lia.
      assert (X : ((sg_y s + sg_m s * sg_n s <=? y) && (y <? sg_y s + sg_m s * (sg_n s + 1))) = false).
      { apply andb_false_iff. destruct (Z.lt_trichotomy q (sg_n s)) as [Lq|[Lq|Lq]]; [left|lia|right]; [assert (sg_m s * (q + 1) <= sg_m s * sg_n s) by nia|assert (sg_m s * (sg_n s + 1) <= sg_m s * q) by nia]; lia. }
      rewrite X, arith32 by lia. cbn [bind]. now rewrite <- app_assoc.
Qed.

Lemma all_fit_snoc m y0 run : forall j y, all_fit m y0 j run -> fits_at m y0 (j + Z.of_nat (length run)) y -> all_fit m y0 j (run ++ [y]).
Proof.
  induction run as [|a run IH]; intros j y H F; cbn [app length] in *.
  - constructor; [now replace (j + Z.of_nat 0) with j in F by lia|constructor].
  - inversion H; subst. constructor; [assumption|]. apply IH; [assumption|]. now replace (j + 1 + Z.of_nat (length run)) with (j + Z.of_nat (S (length run))) by lia.
Qed.
Lemma segmentation_empty x ys segs : segmentation x ys segs -> segs = [] -> ys = [].
Proof. destruct 1; congruence. Qed.

Lemma segmentation_snoc x ys segs : segmentation x ys segs -> forall ss s y, segs = ss ++ [s] -> segmentation x (ys ++ [y]) (ss ++ grown s y).
Proof.
  induction 1 as [x|x y0|x y0 y1 run rest segs A St H IH]; intros ss s y E.
  - now destruct ss.
  - assert (X : [] ++ [Seg 0 x y0 1] = ss ++ [s]) by exact E. apply app_inj_tail in X. destruct X as [<- <-].
    unfold grown. cbn [sg_n sg_x sg_y Z.eqb Pos.eqb app]. exact (SG_run x y0 y [] [] [] (AF_nil _ _ _) I (SG_nil _)).
  - destruct segs as [|s1 segs].
    + assert (rest = []) as -> by exact (segmentation_empty _ _ _ H eq_refl). rewrite app_nil_r.
      assert (X : [] ++ [Seg (y1 - y0) x y0 (2 + Z.of_nat (length run))] = ss ++ [s]) by exact E. apply app_inj_tail in X. destruct X as [<- <-].
      unfold grown. cbn [sg_n sg_x sg_y sg_m app]. replace (2 + Z.of_nat (length run) =? 1) with false by lia.
      destruct ((y0 + (y1 - y0) * (2 + Z.of_nat (length run)) <=? y) && (y <? y0 + (y1 - y0) * (2 + Z.of_nat (length run) + 1))) eqn:F.
      * replace (y0 :: y1 :: run ++ [y]) with (y0 :: y1 :: (run ++ [y]) ++ []) by now rewrite app_nil_r.
        replace (2 + Z.of_nat (length run) + 1) with (2 + Z.of_nat (length (run ++ [y]))) by (rewrite app_length; cbn [length]; lia).
        constructor; [|exact I|constructor]. apply all_fit_snoc; [exact A|]. unfold fits_at. lia.
      * constructor; [exact A|unfold stops, fits_at; lia|]. replace (x + (2 + Z.of_nat (length run))) with (x + 2 + Z.of_nat (length run)) by lia. constructor.
    + destruct ss as [|s0 ss]; [discriminate E|]. injection E as E0 E. cbn [app]. rewrite <- E0. rewrite <- app_assoc. constructor; [exact A| |].
      * destruct rest; [|exact St]. inversion H.
      * apply IH. exact E.
Qed.

(** The index of a day of points has exactly the segments of the specification... *)
Theorem C29_segments : forall p ys v, day_points ys -> index_of p ys v -> segmentation 0 ys (vs_segs v).
Proof.
  intros p ys v Hd (ans & H). assert (X : forall zs, day_points zs -> exists segs, update_all p vsri_new zs = Ok (summary zs segs, repeat true (length zs)) /\ describes segs zs /\ segmentation 0 zs segs).
  { clear. induction zs as [|y zs IH] using rev_ind; intros Hd; [exists []; split; [reflexivity|split; constructor]|].
    destruct (IH (day_app_l _ _ Hd)) as (segs & H1 & H2 & H3). destruct (update_step p zs segs y H2 Hd) as (segs' & H4 & H5).
    exists segs'. split; [|split; [exact H5|]].
    - rewrite update_all_app, H1. cbn [bind update_all]. rewrite H4. cbn [bind]. rewrite app_length. cbn [length]. now rewrite repeat_app.
    - destruct (list_eq_dec Z.eq_dec zs []) as [->|Nz].
      + inversion H2 as [E1 E2|? ? pts g ? ? Sg E1 E2]; [|assert (L := segment_of_nonempty _ _ _ Sg); destruct pts; [destruct g; [cbn in L; lia|discriminate E2]|discriminate E2]].
        subst segs. assert (Hy : 0 <= y < 86400) by (destruct Hd as [_ Hd]; now inversion Hd). unfold update_for_point, summary in H4. cbn [vs_max vs_segs last hd vs_min app] in H4. replace (y <? 0) with false in H4 by lia.
        unfold create_fake_segment, current_segment in H4. cbn [vs_segs last sg_x sg_n Z.add] in H4. rewrite arith32 in H4 by lia. cbn [bind] in H4. apply ok_inj in H4. assert (segs' = [Seg 0 0 y 1]) as -> by congruence. constructor.
      + assert (Ns : segs <> []) by (intros ->; inversion H3; congruence). destruct (exists_last Ns) as (ss & s & ->).
        rewrite (update_exact p zs ss s y H2 Hd) in H4. apply ok_inj in H4. assert (segs' = ss ++ grown s y) as -> by (unfold summary in H4; congruence).
        exact (segmentation_snoc _ _ _ H3 ss s y eq_refl). }
  destruct (X ys Hd) as (segs & E & _ & G). rewrite H in E. apply ok_inj in E. assert (v = summary ys segs) as -> by congruence. exact G.
Qed.
Print Assumptions C29_segments.

(** ... and the specification determines them. *)
Lemma run_unique m y0 a : forall j b ra rb, all_fit m y0 j a -> all_fit m y0 j b -> a ++ ra = b ++ rb ->
  stops m y0 (j + Z.of_nat (length a)) ra -> stops m y0 (j + Z.of_nat (length b)) rb -> a = b /\ ra = rb.
Proof.
  induction a as [|y a IH]; intros j b ra rb Ha Hb E Sa Sb.
  - destruct b as [|z b]; [split; [reflexivity|exact E]|]. cbn [app length] in *. subst ra. inversion Hb; subst. cbn [stops] in Sa. replace (j + Z.of_nat 0) with j in Sa by lia. contradiction.
  - destruct b as [|z b]; cbn [app length] in *.
    + subst rb. inversion Ha; subst. cbn [stops] in Sb. replace (j + Z.of_nat 0) with j in Sb by lia. contradiction.
    + injection E as <- E. inversion Ha; subst. inversion Hb; subst.
      destruct (IH (j + 1) b ra rb) as [-> ->]; try assumption; [replace (j + 1 + Z.of_nat (length a)) with (j + Z.of_nat (S (length a))) by lia; exact Sa|replace (j + 1 + Z.of_nat (length b)) with (j + Z.of_nat (S (length b))) by lia; exact Sb|split; reflexivity].
Qed.
Theorem C29_segments_unique : forall x ys s1 s2, segmentation x ys s1 -> segmentation x ys s2 -> s1 = s2.
Proof.
  intros x ys s1 s2 H. revert s2. induction H as [x|x y0|x y0 y1 run rest segs A St H IH]; intros s2 H2.
  - now inversion H2.
  - now inversion H2.
  - inversion H2 as [| |x' a b run2 rest2 segs2 A2 St2 G2 E1 E2 E3]; subst. destruct (run_unique _ _ run 2 run2 rest rest2 A A2) as [-> ->]; auto.
    f_equal. now apply IH.
Qed.
Print Assumptions C29_segments_unique.

Example C29_segments_example : day_points sample_day /\ index_of Dev sample_day sample_index /\ segmentation 0 sample_day (vs_segs sample_index).
Proof.
  assert (I : index_of Dev sample_day sample_index) by apply C31_later_segment_refuted.
  split; [exact sample_day_ok|]. split; [exact I|]. exact (C29_segments _ _ _ sample_day_ok I).
Qed.

(** A regular beginning stays in the first segment whatever follows. *)
Lemma all_fit_regular t0 d n rest run : 0 < d -> forall j, map (fun i => t0 + d * Z.of_nat i) (seq j n) ++ rest = run ++ [] \/ True ->
  forall ra, all_fit d t0 (Z.of_nat j) run -> stops d t0 (Z.of_nat j + Z.of_nat (length run)) ra -> map (fun i => t0 + d * Z.of_nat i) (seq j n) ++ rest = run ++ ra -> (n <= length run)%nat.
Proof.
  intros Hd. revert run. induction n as [|n IH]; intros run j _ ra A St E; [lia|]. cbn [seq map app] in E. destruct run as [|y run].
  - cbn [app length] in *. subst ra. cbn [stops] in St. exfalso. apply St. unfold fits_at. lia.
  - cbn [app length] in *. injection E as _ E. inversion A; subst. assert (L : (n <= length run)%nat); [|lia].
    apply (IH run (S j) (or_intror I) ra); [now replace (Z.of_nat (S j)) with (Z.of_nat j + 1) by lia| |exact E].
    now replace (Z.of_nat (S j) + Z.of_nat (length run)) with (Z.of_nat j + Z.of_nat (S (length run))) by lia.
Qed.
(** If the first n points (two at least) follow t0, t0 + d, t0 + 2d, ... then the first segment is (d, 0, t0) with n points or more. *)
Theorem C29_regular_beginning : forall p ys v t0 d n rest, day_points ys -> index_of p ys v ->
  ys = map (fun i => t0 + d * Z.of_nat i) (seq 0 n) ++ rest -> (2 <= n)%nat ->
  exists m more, vs_segs v = Seg d 0 t0 m :: more /\ Z.of_nat n <= m.
Proof.
  intros p ys v t0 d n rest Hd I E Hn. assert (G := C29_segments p ys v Hd I). destruct n as [|[|n]]; try lia. cbn [seq map app] in E.
  replace (t0 + d * Z.of_nat 0) with t0 in E by lia. replace (t0 + d * Z.of_nat 1) with (t0 + d) in E by lia.
  assert (Dp : 0 < d). { destruct Hd as [Hs _]. rewrite E in Hs. inversion Hs as [|? ? _ F]; subst. inversion F; subst. lia. }
  rewrite E in G. remember (vs_segs v) as sv eqn:Esv. inversion G as [| |x a b run rest2 segs A St G2 E1 E2 E3]. subst. match goal with H : run ++ rest2 = _ |- _ => rename H into E2 end.
  replace (t0 + d - t0) with d in * by lia. exists (2 + Z.of_nat (length run)), segs. split; [reflexivity|].
  assert (L : (n <= length run)%nat) by (apply (all_fit_regular t0 d n rest run Dp 2 (or_intror Logic.I) rest2 A); [exact St|symmetry; exact E2]). lia.
Qed.
Print Assumptions C29_regular_beginning.
Example C29_regular_beginning_example : [5; 15; 25; 200; 210] = map (fun i => 5 + 10 * Z.of_nat i) (seq 0 3) ++ [200; 210] /\ day_points [5; 15; 25; 200; 210] /\
  exists v, index_of Dev [5; 15; 25; 200; 210] v /\ vs_segs v = [Seg 10 0 5 3; Seg 10 3 200 2].
Proof.
  split; [reflexivity|]. split; [split; [repeat constructor|repeat (constructor; [lia|]); constructor]|].
  eexists. split; [eexists; vm_compute; reflexivity|reflexivity].
Qed.
