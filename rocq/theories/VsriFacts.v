(** Facts about the index. *)
From Coq Require Import List ZArith Bool Lia ZifyBool Sorting.Sorted.
From Verif Require Import Base Model_Vsri Spec_Vsri.
Import ListNotations.
Open Scope Z_scope.

Lemma arith_s_ok p b z : 0 < b -> in_s b z -> arith_s p b z = Ok z.
Proof. unfold arith_s, in_sb, in_s. intros Hb H. replace ((- 2 ^ (b - 1) <=? z) && (z <? 2 ^ (b - 1))) with true by lia. reflexivity. Qed.
Lemma arith32 p z : -2147483648 <= z < 2147483648 -> arith_s p 32 z = Ok z.
Proof. intros H. apply arith_s_ok; [lia|]. unfold in_s. exact H. Qed.

(** What one segment says about a group [g] of consecutive points, the first being sample [x]. *)
Definition segment_of (x : Z) (s : segment) (g : list Z) : Prop :=
  sg_x s = x /\ sg_n s = Z.of_nat (length g) /\ nth_error g 0 = Some (sg_y s) /\
  (length g = 1%nat -> sg_m s = 0) /\
  ((2 <= length g)%nat -> 0 < sg_m s /\ nth_error g 1 = Some (sg_y s + sg_m s)) /\
  (forall i t, nth_error g i = Some t -> sg_y s + sg_m s * Z.of_nat i <= t /\ (0 < sg_m s -> t < sg_y s + sg_m s * (Z.of_nat i + 1))).

Definition real (s : segment) : Prop := 2 <= sg_n s.

Inductive describes : list segment -> list Z -> Prop :=
| D_nil : describes [] []
| D_snoc segs s pts g : describes segs pts -> Forall real segs -> segment_of (Z.of_nat (length pts)) s g -> describes (segs ++ [s]) (pts ++ g).

Lemma snoc_inv_nil {A} (l : list A) a : l ++ [a] <> [].
Proof. destruct l; discriminate. Qed.

Lemma describes_inv segs pts : describes segs pts -> segs <> [] ->
  exists ss s pp g, segs = ss ++ [s] /\ pts = pp ++ g /\ describes ss pp /\ Forall real ss /\ segment_of (Z.of_nat (length pp)) s g.
Proof. intros H Hne. inversion H; subst; [congruence|]. exists segs0, s, pts0, g. auto. Qed.

Lemma segment_of_nonempty x s g : segment_of x s g -> (1 <= length g)%nat.
Proof. intros (_ & _ & H & _). destruct g; [discriminate|cbn; lia]. Qed.

(** * Strictly increasing days *)
Lemma sorted_app_inv (a b : list Z) : StronglySorted Z.lt (a ++ b) -> StronglySorted Z.lt a /\ StronglySorted Z.lt b /\ forall x y, In x a -> In y b -> x < y.
Proof.
  induction a as [|c a IH]; cbn; intros H; [split; [constructor|]; split; [exact H|]; intros ? ? []|].
  inversion H as [|? ? H1 H2]; subst. destruct (IH H1) as (I1 & I2 & I3). rewrite Forall_app in H2. destruct H2 as [F1 F2].
  split; [now constructor|]. split; [exact I2|]. intros x y [<-|Hx] Hy; [|now apply I3]. rewrite Forall_forall in F2. now apply F2.
Qed.
Lemma sorted_app (a b : list Z) : StronglySorted Z.lt a -> StronglySorted Z.lt b -> (forall x y, In x a -> In y b -> x < y) -> StronglySorted Z.lt (a ++ b).
Proof.
  induction a as [|c a IH]; cbn; intros H1 H2 H3; [exact H2|]. inversion H1 as [|? ? I1 I2]; subst.
  constructor; [apply IH; auto|]. apply Forall_app. split; [exact I2|]. apply Forall_forall. intros y Hy. apply H3; [now left|exact Hy].
Qed.
Lemma sorted_nth (l : list Z) : StronglySorted Z.lt l -> forall i j a b, (i < j)%nat -> nth_error l i = Some a -> nth_error l j = Some b -> a < b.
Proof.
  intros H. induction H as [|c l Hs IH Hf]; intros i j a b Hij Ha Hb; [destruct i; discriminate|].
  destruct j as [|j]; [lia|]. destruct i as [|i].
  - cbn in Ha, Hb. injection Ha as <-. rewrite Forall_forall in Hf. apply Hf. eapply nth_error_In; exact Hb.
  - cbn in Ha, Hb. apply (IH i j); auto. lia.
Qed.
Lemma sorted_gap (l : list Z) : StronglySorted Z.lt l -> forall i j a b, (i <= j)%nat -> nth_error l i = Some a -> nth_error l j = Some b -> a + Z.of_nat (j - i) <= b.
Proof.
  intros H i j. revert i. induction j as [|j IH]; intros i a b Hij Ha Hb.
  - replace i with 0%nat in * by lia. replace b with a by congruence. lia.
  - destruct (Nat.eq_dec i (S j)) as [->|Hn]; [replace b with a by congruence; lia|].
    assert (exists c, nth_error l j = Some c) as [c Hc].
    { destruct (nth_error l j) eqn:E; [eauto|]. apply nth_error_None in E. assert (nth_error l (S j) = None) by (apply nth_error_None; lia). congruence. }
    specialize (IH i a c ltac:(lia) Ha Hc). assert (c < b) by (apply (sorted_nth l H j (S j)); auto). lia.
Qed.

(** Bounds on a segment that keep all arithmetic on 32 bits. *)
Definition seg_ok (s : segment) : Prop :=
  0 <= sg_x s <= sg_y s /\ 1 <= sg_n s /\ sg_x s + sg_n s <= 86400 /\ 0 <= sg_m s /\ last_time s < 86400 /\
  (sg_n s = 1 -> sg_m s = 0) /\ (2 <= sg_n s -> 0 < sg_m s).

Lemma seg_ok_mx s : seg_ok s -> 0 <= sg_m s * sg_x s <= 1866240000 /\ 0 <= sg_m s * (sg_n s - 1) < 86400 /\ sg_y s <= last_time s /\ 0 <= sg_m s < 86400.
Proof.
  unfold seg_ok, last_time. destruct s as [m x y n]; cbn [sg_m sg_x sg_y sg_n]. intros (H1 & H2 & H3 & H4 & H5 & H6 & H7).
  assert (0 <= m * (n - 1)) by (apply Z.mul_nonneg_nonneg; lia).
  assert (m * (n - 1) < 86400) by lia.
  assert (m + y <= 86399) by (destruct (Z.eq_dec n 1) as [->|]; [specialize (H6 eq_refl); lia|nia]).
  split; [split; [apply Z.mul_nonneg_nonneg; lia|]|lia].
  assert (m * x <= (86399 - x) * x) by (apply Z.mul_le_mono_nonneg_r; lia).
  assert (0 <= (2 * x - 86399) * (2 * x - 86399)) by apply Z.square_nonneg. nia.
Qed.

Lemma segment_end_ok p s : seg_ok s -> segment_end p s = Ok (last_time s).
Proof.
  intros H. pose proof (seg_ok_mx s H) as B. unfold seg_ok, last_time in *. unfold segment_end.
  rewrite arith32 by lia. cbn [bind]. rewrite arith32 by lia. cbn [bind]. rewrite arith32 by lia. reflexivity.
Qed.
Lemma calculate_b_ok p s : seg_ok s -> calculate_b p s = Ok (sg_y s - sg_m s * sg_x s).
Proof.
  intros H. pose proof (seg_ok_mx s H) as B. unfold seg_ok, last_time in *. unfold calculate_b.
  rewrite arith32 by lia. cbn [bind]. rewrite arith32 by lia. reflexivity.
Qed.

(** x-position of a time on the line of a segment. *)
Lemma line_position p s y : seg_ok s -> 0 < sg_m s -> sg_y s <= y < 86400 ->
  (do b <- calculate_b p s; do yb <- arith_s p 32 (y - b); i32_div yb (sg_m s)) = Ok (sg_x s + (y - sg_y s) / sg_m s).
Proof.
  intros H Hm Hy. pose proof (seg_ok_mx s H) as B. rewrite (calculate_b_ok p s H). cbn [bind]. unfold seg_ok, last_time in H.
  rewrite arith32 by lia. cbn [bind]. unfold i32_div. replace (sg_m s =? 0) with false by lia. replace (sg_m s =? -1) with false by lia. rewrite andb_false_r.
  f_equal. rewrite Z.quot_div_nonneg by lia. replace (y - (sg_y s - sg_m s * sg_x s)) with (y - sg_y s + sg_x s * sg_m s) by lia.
  rewrite Z.div_add by lia. lia.
Qed.

Lemma segment_of_ok pp s g : StronglySorted Z.lt (pp ++ g) -> Forall (fun y => 0 <= y < 86400) (pp ++ g) ->
  segment_of (Z.of_nat (length pp)) s g -> seg_ok s /\ (forall t, In t g -> sg_y s <= t) /\ (exists t, In t g /\ last_time s <= t).
Proof.
  intros Hs Hr Hg. assert (Hl := segment_of_nonempty _ _ _ Hg). destruct Hg as (Hx & Hn & H0 & H1 & H2 & H3).
  assert (Lo : forall i t, nth_error (pp ++ g) i = Some t -> Z.of_nat i <= t).
  { intros i t Hi. destruct (pp ++ g) as [|a l] eqn:E; [destruct i; discriminate|]. rewrite <- E in *.
    assert (Ha : nth_error (pp ++ g) 0 = Some a) by now rewrite E.
    pose proof (sorted_gap _ Hs 0 i a t ltac:(lia) Ha Hi) as G. rewrite Forall_forall in Hr. assert (In a (pp ++ g)) by (rewrite E; now left).
    specialize (Hr a H). lia. }
  assert (Hy0 : nth_error (pp ++ g) (length pp) = Some (sg_y s)).
  { rewrite nth_error_app2 by lia. now rewrite Nat.sub_diag. }
  assert (exists t, nth_error g (length g - 1) = Some t) as [t Ht].
  { destruct (nth_error g (length g - 1)) eqn:E; [eauto|]. apply nth_error_None in E. lia. }
  assert (Htl : nth_error (pp ++ g) (length pp + length g - 1) = Some t).
  { rewrite nth_error_app2 by lia. replace (length pp + length g - 1 - length pp)%nat with (length g - 1)%nat by lia. exact Ht. }
  destruct (H3 _ _ Ht) as [B1 B2].
  assert (Bt : 0 <= t < 86400) by (rewrite Forall_forall in Hr; apply Hr; apply in_or_app; right; eapply nth_error_In; exact Ht).
  assert (L1 := Lo _ _ Hy0). assert (L2 := Lo _ _ Htl).
  assert (Hlt : last_time s <= t) by (unfold last_time; replace (sg_n s - 1) with (Z.of_nat (length g - 1)) by lia; exact B1).
  split; [|split].
  - unfold seg_ok. rewrite Hx. split; [lia|]. split; [lia|]. split; [lia|]. split.
    { destruct (Nat.eq_dec (length g) 1) as [E|E]; [specialize (H1 E); lia|destruct (H2 ltac:(lia)); lia]. }
    split; [lia|]. split; [intros E; apply H1; lia|]. intros E. destruct (H2 ltac:(lia)). assumption.
  - intros u Hu. apply In_nth_error in Hu. destruct Hu as [i Hi]. destruct (H3 _ _ Hi) as [B _].
    assert (0 <= sg_m s) by (destruct (Nat.eq_dec (length g) 1) as [E|E]; [specialize (H1 E); lia|destruct (H2 ltac:(lia)); lia]).
    assert (0 <= sg_m s * Z.of_nat i) by (apply Z.mul_nonneg_nonneg; lia). lia.
  - exists t. split; [eapply nth_error_In; exact Ht|exact Hlt].
Qed.

Lemma day_app_l a b : day_points (a ++ b) -> day_points a.
Proof. intros [H1 H2]. apply sorted_app_inv in H1. rewrite Forall_app in H2. split; tauto. Qed.

Lemma describes_ok segs pts : day_points pts -> describes segs pts -> Forall seg_ok segs.
Proof.
  intros Hd H. induction H as [|segs s pts g H IH Hr Hs]; [constructor|]. apply Forall_app. split; [apply IH; eapply day_app_l; exact Hd|].
  constructor; [|constructor]. destruct Hd. eapply segment_of_ok; eauto.
Qed.

(** * Adding a point *)
Lemma current_snoc mn mx segs s : current_segment (Vsri mn mx (segs ++ [s])) = s.
Proof. unfold current_segment. cbn [vs_segs]. apply last_last. Qed.
Lemma set_last_snoc segs s s' : set_last (segs ++ [s]) s' = segs ++ [s'].
Proof. unfold set_last. now rewrite removelast_last. Qed.

Definition summary (pts : list Z) (segs : list segment) : vsri := Vsri (hd 0 pts) (last pts 0) segs.

Lemma last_snoc_app (a : list Z) y : last (a ++ [y]) 0 = y.
Proof. apply last_last. Qed.
Lemma hd_snoc (a : list Z) y : a <> [] -> hd 0 (a ++ [y]) = hd 0 a.
Proof. destruct a; [congruence|reflexivity]. Qed.
Lemma in_last (a : list Z) : a <> [] -> In (last a 0) a.
Proof. intros H. destruct (exists_last H) as (b & c & ->). rewrite last_last. apply in_or_app. right. now left. Qed.

Lemma segment_of_snoc x s g y m n : segment_of x s g -> m = sg_m s -> n = sg_n s + 1 -> 0 < m -> (2 <= length g)%nat ->
  sg_y s + m * sg_n s <= y < sg_y s + m * (sg_n s + 1) -> segment_of x (Seg m (sg_x s) (sg_y s) n) (g ++ [y]).
Proof.
  intros (Hx & Hn & H0 & H1 & H2 & H3) -> -> Hm Hl Hy. unfold segment_of. cbn [sg_m sg_x sg_y sg_n]. rewrite app_length. cbn [length].
  split; [exact Hx|]. split; [lia|]. split; [rewrite nth_error_app1 by lia; exact H0|]. split; [lia|].
  split; [intros _; split; [exact Hm|rewrite nth_error_app1 by lia; apply H2; lia]|].
  intros i t Hi. destruct (Nat.lt_ge_cases i (length g)) as [L|L].
  - rewrite nth_error_app1 in Hi by lia. now apply H3.
  - rewrite nth_error_app2 in Hi by lia. destruct (i - length g)%nat eqn:E; [|destruct n; discriminate]. cbn in Hi. injection Hi as <-.
    replace (Z.of_nat i) with (sg_n s) by lia. lia.
Qed.

Lemma segment_single x y : segment_of x (Seg 0 x y 1) [y].
Proof.
  unfold segment_of. cbn [sg_m sg_x sg_y sg_n length nth_error]. split; [lia|]. split; [lia|]. split; [reflexivity|]. split; [reflexivity|]. split; [lia|].
  intros i u Hi. destruct i as [|i]; [|destruct i; discriminate]. cbn in Hi. injection Hi as <-. lia.
Qed.
Lemma segment_pair x y0 y : y0 < y -> segment_of x (Seg (y - y0) x y0 2) [y0; y].
Proof.
  intros H. unfold segment_of. cbn [sg_m sg_x sg_y sg_n length nth_error]. split; [lia|]. split; [lia|]. split; [reflexivity|]. split; [lia|]. split; [intros _; split; [lia|f_equal; lia]|].
  intros i u Hi. destruct i as [|[|i]]; [| |destruct i; discriminate]; cbn in Hi; injection Hi as <-; lia.
Qed.

Lemma update_step p pts segs y : describes segs pts -> day_points (pts ++ [y]) ->
  exists segs', update_for_point p (summary pts segs) y = Ok (summary (pts ++ [y]) segs', true) /\ describes segs' (pts ++ [y]).
Proof.
  intros H Hd. assert (Hd' := day_app_l _ _ Hd). assert (Hall := describes_ok _ _ Hd' H).
  assert (Hy : 0 <= y < 86400) by (destruct Hd as [_ Hd]; rewrite Forall_app in Hd; destruct Hd as [_ Hd]; now inversion Hd).
  assert (Hlt : forall t, In t pts -> t < y).
  { intros t Ht. destruct Hd as [Hs _]. apply sorted_app_inv in Hs. destruct Hs as (_ & _ & Hs). apply Hs; [exact Ht|now left]. }
  unfold update_for_point. cbn [vs_max vs_min vs_segs summary].
  assert (Hmx : (y <? last pts 0) = false).
  { destruct pts as [|a l]; [cbn; lia|]. specialize (Hlt _ (in_last (a :: l) ltac:(discriminate))). lia. }
  rewrite Hmx. unfold summary at 1. rewrite last_snoc_app. destruct segs as [|s0 r].
  - assert (pts = []). { inversion H as [E1 E2|? ? ? ? ? ? ? E1 E2]; [congruence|]. destruct segs; discriminate. }
    subst pts. cbn. exists [Seg 0 0 y 1]. split; [reflexivity|]. change [y] with ([] ++ [y]). change [Seg 0 0 y 1] with ([] ++ [Seg 0 0 y 1]).
    constructor; [constructor|constructor|]. apply segment_single.
  - destruct (describes_inv _ _ H ltac:(discriminate)) as (ss & s & pp & g & E1 & E2 & D & Hr & Sg).
    assert (Hne : pts <> []) by (assert (L := segment_of_nonempty _ _ _ Sg); rewrite E2; destruct pp; cbn; [destruct g; cbn in L; [lia|discriminate]|discriminate]).
    rewrite hd_snoc by exact Hne. rewrite E1. unfold is_fake_segment, generate_segment, fits_segment, create_fake_segment. rewrite current_snoc.
    assert (Ok_s : seg_ok s) by (rewrite E1 in Hall; rewrite Forall_app in Hall; destruct Hall as [_ A]; now inversion A).
    assert (Hd2 : day_points (pp ++ g)) by (rewrite <- E2; exact Hd').
    destruct (segment_of_ok pp s g (proj1 Hd2) (proj2 Hd2) Sg) as (_ & Hlow & (t & Ht & Hend)).
    assert (Hg := Sg). destruct Hg as (Hx & Hn & H0 & H1 & H2 & H3).
    assert (B := seg_ok_mx s Ok_s). unfold seg_ok in Ok_s.
    assert (Ht2 : t < y) by (apply Hlt; rewrite E2; apply in_or_app; now right).
    assert (Hy0 : sg_y s < y).
    { apply nth_error_In in H0. apply Hlt. rewrite E2. apply in_or_app. now right. }
    assert (L := segment_of_nonempty _ _ _ Sg).
    destruct (sg_m s =? 0) eqn:Em; cbn [negb].
    + assert (Em' : sg_m s = 0) by lia. assert (length g = 1%nat) by lia. destruct g as [|g0 [|? ?]]; try (cbn in *; lia). cbn in H0. injection H0 as H0.
      rewrite arith32 by lia. cbn [bind]. rewrite set_last_snoc. eexists. split; [reflexivity|].
      rewrite E2, <- app_assoc. constructor; [exact D|exact Hr|]. rewrite Hx, H0. apply segment_pair. lia.
    + assert (Hm : 0 < sg_m s) by lia. assert (Hl2 : (2 <= length g)%nat) by lia.
      assert (LP := line_position p s y ltac:(unfold seg_ok; tauto) Hm ltac:(lia)).
      assert (FE : (do b <- calculate_b p s; do yb <- arith_s p 32 (y - b); do xv <- i32_div yb (sg_m s); do nx <- arith_s p 32 (sg_n s + sg_x s); Ok (xv =? nx))
                   = Ok (sg_x s + (y - sg_y s) / sg_m s =? sg_n s + sg_x s)).
      { destruct (calculate_b p s) as [b|]; [|discriminate LP]. cbn [bind] in *. destruct (arith_s p 32 (y - b)) as [yb|]; [|discriminate LP]. cbn [bind] in *.
        rewrite LP. cbn [bind]. rewrite arith32 by lia. reflexivity. }
      rewrite FE. cbn [bind]. destruct (sg_x s + (y - sg_y s) / sg_m s =? sg_n s + sg_x s) eqn:Ef.
      * rewrite arith32 by lia. cbn [bind]. rewrite set_last_snoc. eexists. split; [reflexivity|].
        rewrite E2, <- app_assoc. constructor; [exact D|exact Hr|].
        apply segment_of_snoc; auto. assert (Hq : (y - sg_y s) / sg_m s = sg_n s) by lia.
        pose proof (Z.div_mod (y - sg_y s) (sg_m s) ltac:(lia)) as M. pose proof (Z.mod_pos_bound (y - sg_y s) (sg_m s) Hm) as M2. rewrite Hq in M. nia.
      * rewrite arith32 by lia. cbn [bind]. eexists. split; [reflexivity|].
        rewrite <- E1. constructor; [exact H| |].
        { rewrite E1. apply Forall_app. split; [exact Hr|]. constructor; [unfold real; lia|constructor]. }
        rewrite E2, app_length. replace (sg_x s + sg_n s) with (Z.of_nat (length pp + length g)) by lia. apply segment_single.
Qed.

Lemma update_all_app p a : forall v b, update_all p v (a ++ b) = do (v1, x) <- update_all p v a; do (v2, y) <- update_all p v1 b; Ok (v2, x ++ y).
Proof.
  induction a as [|c a IH]; intros v b; cbn [app update_all].
  - cbn [bind]. destruct (update_all p v b) as [[v2 y]|]; reflexivity.
  - destruct (update_for_point p v c) as [[v1 x]|]; [|reflexivity]. cbn [bind]. rewrite IH.
    destruct (update_all p v1 a) as [[v2 y]|]; [|reflexivity]. cbn [bind]. destruct (update_all p v2 b) as [[v3 z]|]; reflexivity.
Qed.

Lemma build p ys : day_points ys -> exists segs, update_all p vsri_new ys = Ok (summary ys segs, repeat true (length ys)) /\ describes segs ys.
Proof.
  induction ys as [|y ys IH] using rev_ind; intros Hd; [exists []; split; [reflexivity|constructor]|].
  destruct (IH (day_app_l _ _ Hd)) as (segs & H1 & H2). destruct (update_step p ys segs y H2 Hd) as (segs' & H3 & H4).
  exists segs'. split; [|exact H4]. rewrite update_all_app, H1. cbn [bind update_all]. rewrite H3. cbn [bind]. rewrite app_length. cbn [length].
  now rewrite repeat_app.
Qed.
