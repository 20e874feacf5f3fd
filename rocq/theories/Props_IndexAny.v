(** C90: index files of any bytes. *)
From Coq Require Import List ZArith Bool Lia ZifyBool.
From Verif Require Import Base Model_Float Model_Stream Model_Wavbrro Model_Vsri Model_Csv Model_Cli Model_Utf8 Utf8Facts Spec_Utf8 Spec_Vsri Spec_CsvTable Spec_IndexText Spec_IndexAny VsriFacts TextFacts
  Props_CsvTable Props_VsriFile Props_IndexText Model_IndexAny.
Import ListNotations.
Open Scope Z_scope.

(** *** Characters *)
Lemma decode_encoded us : Forall scalar us -> decode_chars (flat_map encoded us) = us.
Proof.
  induction 1 as [|u us Hu _ IH]; [reflexivity|]. cbn [flat_map].
  destruct (encoded_cases u Hu) as [(R & ->)|[(a & b & -> & A1 & A2 & E)|[(a & b & c & -> & A1 & A2 & A3 & A4 & A5 & E)|(a & b & c & d & -> & A1 & A2 & A3 & A4 & A5 & A6 & E)]]];
  cbn [app decode_chars]; rewrite IH.
  - replace (u <? 128) with true by lia. reflexivity.
  - replace (a <? 128) with false by lia. replace (a <? 224) with true by lia. now rewrite E.
  - replace (a <? 128) with false by lia. replace (a <? 224) with false by lia. replace (a <? 240) with true by lia. now rewrite E.
  - replace (a <? 128) with false by lia. replace (a <? 224) with false by lia. replace (a <? 240) with false by lia. now rewrite E.
Qed.
Lemma chars_spec l us : chars l = Some us <-> utf8_of l us.
Proof.
  unfold chars, utf8_of. split.
  - destruct (utf8 l) eqn:E; [|discriminate]. intros H. assert (us = decode_chars l) by congruence. subst us.
    apply utf8_spec in E. destruct E as (vs & E1 & ->). rewrite decode_encoded by exact E1. auto.
  - intros (H & ->). rewrite (proj2 (utf8_spec _)) by (exists us; auto). now rewrite decode_encoded.
Qed.
Lemma chars_none l : chars l = None <-> ~ is_utf8 l.
Proof. unfold chars. rewrite <- utf8_spec. destruct (utf8 l); split; congruence. Qed.
Lemma utf8_of_is l us : utf8_of l us -> is_utf8 l.
Proof. intros (H & ->). now exists us. Qed.
Lemma utf8_of_unique l us vs : utf8_of l us -> utf8_of l vs -> us = vs.
Proof. intros H G. apply chars_spec in H, G. congruence. Qed.
Lemma utf8_of_ascii l : Forall (fun c => 0 <= c < 128) l -> utf8_of l l.
Proof.
  intros H. split; [eapply Forall_impl; [|exact H]; intros c Hc; cbn in Hc; unfold scalar; lia|]. induction H as [|c t Hc H IH]; [reflexivity|]. cbn [flat_map]. unfold encoded at 1.
  replace (c <? 128) with true by lia. cbn [app]. now f_equal.
Qed.
Lemma utf8_of_app l m us vs : utf8_of l us -> utf8_of m vs -> utf8_of (l ++ m) (us ++ vs).
Proof. intros (H & ->) (G & ->). split; [now apply Forall_app|now rewrite flat_map_app]. Qed.
Lemma is_utf8_cr l : is_utf8 (l ++ [13]) <-> is_utf8 l.
Proof. rewrite (is_utf8_split l 13 []) by lia. split; [tauto|intros H; split; [exact H|apply is_utf8_nil]]. Qed.
Lemma utf8_of_cr l us : utf8_of (l ++ [13]) us <-> exists vs, us = vs ++ [13] /\ utf8_of l vs.
Proof.
  assert (C : utf8_of [13] [13]) by (apply utf8_of_ascii; constructor; [lia|constructor]).
  split.
  - intros H. assert (G : is_utf8 l) by (apply is_utf8_cr; now apply utf8_of_is in H). destruct G as (vs & G). exists vs.
    split; [|exact G]. eapply utf8_of_unique; [exact H|]. now apply utf8_of_app.
  - intros (vs & -> & H). now apply utf8_of_app.
Qed.

(** *** Numbers and segments *)
Lemma is_white_spec u : is_white u = true <-> white_space u.
Proof. unfold is_white, white_space, between. cbn [In]. lia. Qed.
Lemma white_cr : white_space 13. Proof. unfold white_space. lia. Qed.
Lemma ink_not_white c : ink c -> is_white c = false.
Proof. unfold ink, is_white, between. lia. Qed.
Lemma trim_start_u_split l : exists a, l = a ++ trim_start_u l /\ Forall white_space a.
Proof.
  induction l as [|c l (a & H1 & H2)]; [exists []; split; [reflexivity|constructor]|]. cbn [trim_start_u]. destruct (is_white c) eqn:E.
  - exists (c :: a). split; [cbn; congruence|]. constructor; [now apply is_white_spec|exact H2].
  - exists []. split; [reflexivity|constructor].
Qed.
Lemma trim_start_u_white a l : Forall white_space a -> trim_start_u (a ++ l) = trim_start_u l.
Proof. induction 1 as [|c a Hc _ IH]; [reflexivity|]. cbn [app trim_start_u]. apply is_white_spec in Hc. now rewrite Hc. Qed.
Lemma trim_u_split l : exists a b, l = a ++ trim_u l ++ b /\ Forall white_space a /\ Forall white_space b.
Proof.
  destruct (trim_start_u_split l) as (a & H1 & H2). destruct (trim_start_u_split (rev (trim_start_u l))) as (b & H3 & H4).
  exists a, (rev b). split; [|split; [exact H2|now apply Forall_rev]]. rewrite H1 at 1. f_equal. unfold trim_u. rewrite <- rev_app_distr, <- H3. now rewrite rev_involutive.
Qed.
Lemma trim_start_u_ink l : Forall ink l -> trim_start_u l = l.
Proof. intros H. destruct H as [|c l Hc Hl]; [reflexivity|]. cbn [trim_start_u]. now rewrite (ink_not_white c Hc). Qed.
Lemma trim_u_around a w b : Forall white_space a -> Forall white_space b -> Forall ink w -> w <> [] -> trim_u (a ++ w ++ b) = w.
Proof.
  intros Ha Hb Hw Hn. unfold trim_u. rewrite trim_start_u_white by exact Ha. destruct w as [|c w]; [congruence|]. cbn [app trim_start_u].
  inversion Hw as [|? ? Hc Hw']; subst. rewrite (ink_not_white c Hc). change (c :: w ++ b) with ((c :: w) ++ b). rewrite rev_app_distr, trim_start_u_white by now apply Forall_rev.
  rewrite trim_start_u_ink by now apply Forall_rev. apply rev_involutive.
Qed.
Lemma number_u_of t z : number_u t = Some z <-> number_chars t z.
Proof.
  unfold number_u, number_chars. split.
  - intros E. apply parse_i32_of in E. destruct E as [E1 E2]. split; [exact E1|].
    destruct (trim_u_split t) as (a & b & H1 & H2 & H3). exists a, (trim_u t), b. auto.
  - intros [H (a & w & b & -> & Ha & Hb & Hw)]. destruct (signed_word w z Hw) as [W1 W2]. rewrite trim_u_around by assumption.
    apply parse_i32_of. auto.
Qed.
Lemma white_not_comma c : white_space c -> c <> 44.
Proof. unfold white_space. cbn [In]. lia. Qed.
Lemma number_chars_no_comma t z : number_chars t z -> ~ In ch_comma t.
Proof.
  intros [_ (a & w & b & -> & Ha & Hb & Hw)] Hi. destruct (signed_word w z Hw) as [W _]. rewrite Forall_forall in *. unfold ch_comma in *.
  apply in_app_iff in Hi. destruct Hi as [Hi|Hi]; [apply Ha in Hi; now apply white_not_comma in Hi|]. apply in_app_iff in Hi.
  destruct Hi as [Hi|Hi]; [apply W in Hi; unfold ink in *; lia|apply Hb in Hi; now apply white_not_comma in Hi].
Qed.
Lemma numbers_u_of l : forall vals, numbers_u l = Some vals <-> Forall2 number_chars l vals.
Proof.
  induction l as [|x l IH]; intros vals; cbn [numbers_u].
  - split; [intros H; assert (vals = []) by congruence; subst; constructor|intros H; inversion H; reflexivity].
  - split.
    + destruct (number_u x) as [z|] eqn:E; [|discriminate]. destruct (numbers_u l) as [zs|] eqn:E2; [|discriminate]. intros H.
      assert (vals = z :: zs) by congruence. subst. constructor; [now apply number_u_of|now apply IH].
    + intros H. inversion H as [|? z ? zs G1 G2]; subst. apply number_u_of in G1. rewrite G1. apply IH in G2. now rewrite G2.
Qed.
Lemma segment_u_of t s : segment_u t = Some s <-> segment_chars t s.
Proof.
  unfold segment_u, segment_chars. split.
  - intros H. destruct (numbers_u (split_on ch_comma t)) as [vals|] eqn:E; [|discriminate H].
    apply numbers_u_of in E. destruct vals as [|a [|b [|c [|d [|e l]]]]]; try discriminate H. assert (s = Seg a b c d) by congruence. subst s. clear H.
    destruct (split_cases ch_comma t) as [[_ S1]|(p1 & r1 & -> & C1 & S1)]; rewrite S1 in E; [inversion E as [|? ? ? ? _ G]; inversion G|]. inversion E as [|? ? ? ? N1 E1]; subst. clear E S1.
    destruct (split_cases ch_comma r1) as [[_ S1]|(p2 & r2 & -> & C2 & S1)]; rewrite S1 in E1; [inversion E1 as [|? ? ? ? _ G]; inversion G|]. inversion E1 as [|? ? ? ? N2 E2]; subst. clear E1 S1.
    destruct (split_cases ch_comma r2) as [[_ S1]|(p3 & r3 & -> & C3 & S1)]; rewrite S1 in E2; [inversion E2 as [|? ? ? ? _ G]; inversion G|]. inversion E2 as [|? ? ? ? N3 E3]; subst. clear E2 S1.
    destruct (split_cases ch_comma r3) as [[_ S1]|(p4 & r4 & -> & C4 & S1)]; rewrite S1 in E3; [|inversion E3 as [|? ? ? ? _ G]; subst; inversion G as [E5|]; symmetry in E5; now apply split_nonempty in E5].
    inversion E3 as [|? ? ? ? N4 _]; subst. exists p1, p2, p3, r3. split; [reflexivity|]. cbn [sg_m sg_x sg_y sg_n]. auto.
  - intros (m & x & y & n & -> & H1 & H2 & H3 & H4). cbn [app]. change 44 with ch_comma.
    rewrite !split_some by (eapply number_chars_no_comma; eassumption). rewrite split_none by (eapply number_chars_no_comma; eassumption).
    cbn [numbers_u]. apply number_u_of in H1, H2, H3, H4. rewrite H1, H2, H3, H4. now destruct s.
Qed.

(** *** Carriage returns before line feeds do not matter *)
Lemma number_chars_cr t z : number_chars (t ++ [13]) z <-> number_chars t z.
Proof.
  split; intros [R (a & w & b & E & Ha & Hb & Hw)]; (split; [exact R|]).
  - destruct (signed_word w z Hw) as [W1 W2]. destruct b as [|c b] using rev_ind.
    + exfalso. rewrite app_nil_r in E. destruct w as [|x w] using rev_ind; [congruence|]. rewrite app_assoc in E. apply app_inj_tail in E. destruct E as [_ E]. subst x.
      apply Forall_app in W1. destruct W1 as [_ W1]. inversion W1 as [|? ? W _]. unfold ink in W. lia.
    + rewrite !app_assoc in E. apply app_inj_tail in E. destruct E as [E _]. exists a, w, b. apply Forall_app in Hb. rewrite <- app_assoc in E. tauto.
  - exists a, w, (b ++ [13]). split; [subst; now rewrite !app_assoc|]. split; [exact Ha|]. split; [|exact Hw]. apply Forall_app. split; [exact Hb|]. constructor; [exact white_cr|constructor].
Qed.
Lemma segment_chars_cr t s : segment_chars (t ++ [13]) s <-> segment_chars t s.
Proof.
  split; intros (m & x & y & n & E & H1 & H2 & H3 & H4).
  - destruct n as [|c n _] using rev_ind; [destruct H4 as [_ (a & w & b & E2 & _ & _ & Hw)]; symmetry in E2; apply app_eq_nil in E2; destruct E2 as [_ E2]; apply app_eq_nil in E2; destruct E2 as [E2 _]; apply signed_word in Hw; tauto|].
    assert (E' : t ++ [13] = (m ++ [44] ++ x ++ [44] ++ y ++ [44] ++ n) ++ [c]) by (rewrite E; repeat (rewrite <- app_assoc; cbn [app]); reflexivity).
    apply app_inj_tail in E'. destruct E' as [-> <-]. exists m, x, y, n. split; [reflexivity|]. apply (proj1 (number_chars_cr n _)) in H4. auto.
  - exists m, x, y, (n ++ [13]). split; [subst; repeat (rewrite <- app_assoc; cbn [app]); reflexivity|]. apply (proj2 (number_chars_cr n _)) in H4. auto.
Qed.
Lemma number_in_cr l z : number_in (l ++ [13]) z <-> number_in l z.
Proof.
  unfold number_in. split.
  - intros (us & H & G). apply utf8_of_cr in H. destruct H as (vs & -> & H). exists vs. split; [exact H|now apply number_chars_cr].
  - intros (us & H & G). exists (us ++ [13]). split; [apply utf8_of_cr; eauto|now apply number_chars_cr].
Qed.
Lemma segment_in_cr l s : segment_in (l ++ [13]) s <-> segment_in l s.
Proof.
  unfold segment_in. split.
  - intros (us & H & G). apply utf8_of_cr in H. destruct H as (vs & -> & H). exists vs. split; [exact H|now apply segment_chars_cr].
  - intros (us & H & G). exists (us ++ [13]). split; [apply utf8_of_cr; eauto|now apply segment_chars_cr].
Qed.
Lemma about_cr x y (P : list Z -> Prop) : (forall l, P (l ++ [13]) <-> P l) -> about x y -> (P x <-> P y).
Proof. intros H [-> | ->]; [reflexivity|]. destruct (strip_cr_cases y) as [-> |E]; [reflexivity|]. rewrite E at 2. symmetry. apply H. Qed.
Lemma right_cr k l : right_line k (l ++ [13]) <-> right_line k l.
Proof.
  destruct k as [|[|k]]; cbn [right_line]; (split; intros (z & H); exists z);
    first [now apply number_in_cr|now apply number_in_cr in H|now apply segment_in_cr|now apply segment_in_cr in H].
Qed.

(** *** The loop *)
Lemma number_in_of l z : number_in l z <-> exists us, chars l = Some us /\ number_u us = Some z.
Proof. unfold number_in. split; intros (us & H & G); exists us; (split; [now apply chars_spec|now apply number_u_of]). Qed.
Lemma segment_in_of l s : segment_in l s <-> exists us, chars l = Some us /\ segment_u us = Some s.
Proof. unfold segment_in. split; intros (us & H & G); exists us; (split; [now apply chars_spec|now apply segment_u_of]). Qed.

Lemma segments_loaded l : forall ls i mn mx acc v, Forall2 about l ls ->
  (load_lines (S (S i)) l mn mx acc = Loaded v <-> exists segs, v = Vsri mn mx (acc ++ segs) /\ Forall2 segment_in ls segs).
Proof.
  induction l as [|x l IH]; intros ls i mn mx acc v H; inversion H as [|? y ? ls' A B]; subst; cbn [load_lines].
  - split; [intros E; exists []; rewrite app_nil_r; split; [congruence|constructor]|intros (segs & -> & E); inversion E; subst; now rewrite app_nil_r].
  - assert (L : forall s, segment_in y s <-> exists us, chars x = Some us /\ segment_u us = Some s).
    { intros s. rewrite <- segment_in_of. symmetry. apply (about_cr x y (fun l => segment_in l s)); [intros; apply segment_in_cr|exact A]. }
    split.
    + destruct (chars x) as [us|]; [|discriminate]. destruct (segment_u us) as [s|] eqn:Es; [|discriminate]. intros G. apply (IH ls' (S i)) in G; [|exact B].
      destruct G as (segs & -> & G). exists (s :: segs). split; [now rewrite <- app_assoc|]. constructor; [|exact G]. apply L. exists us. auto.
    + intros (segs & -> & G). inversion G as [|? s ? ss G1 G2]; subst. apply L in G1. destruct G1 as (us & -> & ->). apply (IH ls' (S i)); [exact B|].
      exists ss. split; [now rewrite <- app_assoc|exact G2].
Qed.

(** *** C90 *)
(** A file of any bytes is loaded exactly if it is an index file in UTF-8, with any white space around its numbers. *)
Theorem C90_accepted : forall bytes v, load_any bytes = Loaded v <-> index_file v bytes.
Proof.
  intros bytes v. destruct (lines_of_text bytes) as (ls & H1 & H2). unfold load_any, index_file.
  assert (U : forall Q, (exists ls', lines_text ls' bytes /\ Q ls') <-> Q ls).
  { intros Q. split; [|intros G; now exists ls]. intros (ls' & G & G2). now rewrite (lines_text_unique _ _ H1 _ G). }
  rewrite U. clear U.
  assert (N : forall x y z, about x y -> (number_in y z <-> exists us, chars x = Some us /\ number_u us = Some z)).
  { intros x y z A. rewrite <- number_in_of. symmetry. apply (about_cr x y (fun l => number_in l z)); [intros; apply number_in_cr|exact A]. }
  destruct H2 as [|x a l ls' A B]; [cbn [load_lines]; split; congruence|].
  destruct B as [|y b l ls' A' B]; cbn [load_lines].
  - rewrite (N x a _ A). split.
    + destruct (chars x) as [us|]; [|discriminate]. destruct (number_u us) as [z|] eqn:E; [|discriminate]. intros G. assert (v = Vsri z 0 []) by congruence. subst v. cbn [vs_min vs_max vs_segs]. split; [now exists us|auto].
    + intros ((us & -> & ->) & G2 & G3). destruct v. cbn in *. now subst.
  - rewrite (N x a _ A), (N y b _ A'). split.
    + destruct (chars x) as [us|]; [|discriminate]. destruct (number_u us) as [z|] eqn:E; [|discriminate]. destruct (chars y) as [us'|]; [|discriminate]. destruct (number_u us') as [z'|] eqn:E'; [|discriminate].
      intros G. apply (segments_loaded l ls' 0 z z' [] v B) in G. destruct G as (segs & -> & G). cbn [vs_min vs_max vs_segs app]. split; [now exists us|]. split; [now exists us'|exact G].
    + intros ((us & -> & ->) & (us' & -> & ->) & G). apply (segments_loaded l ls' 0 _ _ [] v B). exists (vs_segs v). split; [now destruct v|exact G].
Qed.
Print Assumptions C90_accepted.

Definition wrong_from (i : nat) (P : list Z -> Prop) (ls : list (list Z)) : Prop :=
  exists before l after, ls = before ++ l :: after /\ P l /\ ~ right_line (i + length before) l /\ forall k l', nth_error before k = Some l' -> right_line (i + k) l'.
Lemma wrong_step i P l r : wrong_from i P (l :: r) <-> (P l /\ ~ right_line i l) \/ (right_line i l /\ wrong_from (S i) P r).
Proof.
  unfold wrong_from. split.
  - intros (before & m & after & E & H1 & H2 & H3). destruct before as [|x before]; cbn [app length] in *.
    + left. assert (l = m) by congruence. subst m. rewrite Nat.add_0_r in H2. auto.
    + right. assert (x = l) by congruence. subst x. split; [specialize (H3 0%nat l eq_refl); now rewrite Nat.add_0_r in H3|]. exists before, m, after. split; [congruence|]. split; [exact H1|].
      split; [now replace (S i + length before)%nat with (i + S (length before))%nat by lia|]. intros k l' Hk. specialize (H3 (S k) l' Hk). now replace (S i + k)%nat with (i + S k)%nat by lia.
  - intros [[H1 H2]|[H1 (before & m & after & -> & H3 & H4 & H5)]].
    + exists [], l, r. cbn [app length]. rewrite Nat.add_0_r. split; [reflexivity|]. split; [exact H1|]. split; [exact H2|]. intros [|k] l' Hk; discriminate.
    + exists (l :: before), m, after. cbn [app length]. split; [reflexivity|]. split; [exact H3|]. split; [now replace (i + S (length before))%nat with (S i + length before)%nat by lia|].
      intros [|k] l' Hk; cbn [nth_error] in Hk; [assert (l = l') by congruence; subst; now rewrite Nat.add_0_r|]. replace (i + S k)%nat with (S i + k)%nat by lia. now apply H5.
Qed.
Lemma wrong_nil i P : ~ wrong_from i P [].
Proof. intros (before & l & after & E & _). destruct before; discriminate. Qed.

Lemma load_lines_wrong l : forall ls i mn mx acc, Forall2 about l ls ->
  (load_lines i l mn mx acc = InvalidData <-> wrong_from i (fun x => ~ is_utf8 x) ls) /\
  (load_lines i l mn mx acc = LoadPanics <-> wrong_from i is_utf8 ls).
Proof.
  induction l as [|x l IH]; intros ls i mn mx acc H; inversion H as [|? y ? ls' A B]; subst.
  - cbn [load_lines]. split; (split; [discriminate|intros G; now apply wrong_nil in G]).
  - rewrite !wrong_step. rewrite <- (about_cr x y (right_line i) (right_cr i) A), <- (about_cr x y is_utf8 is_utf8_cr A).
    cbn [load_lines]. destruct (chars x) as [us|] eqn:Ec.
    + assert (Hu : is_utf8 x) by (apply chars_spec in Ec; now apply utf8_of_is in Ec).
      assert (Rn : forall z, number_in x z <-> number_u us = Some z).
      { intros z. rewrite number_in_of, Ec. split; [intros (vs & E & G); congruence|intros G; now exists us]. }
      assert (Rs : forall s, segment_in x s <-> segment_u us = Some s).
      { intros s. rewrite segment_in_of, Ec. split; [intros (vs & E & G); congruence|intros G; now exists us]. }
      assert (C : forall (r : bool) rest (Q1 Q2 : Prop), (if r then right_line i x else ~ right_line i x) ->
         (r = true -> (rest = InvalidData <-> Q1) /\ (rest = LoadPanics <-> Q2)) -> (r = false -> rest = LoadPanics) ->
         (rest = InvalidData <-> (~ is_utf8 x /\ ~ right_line i x) \/ (right_line i x /\ Q1)) /\ (rest = LoadPanics <-> (is_utf8 x /\ ~ right_line i x) \/ (right_line i x /\ Q2))).
      { intros r rest Q1 Q2 Hr Ht Hf. destruct r; [destruct (Ht eq_refl) as [-> ->]; tauto|]. rewrite (Hf eq_refl). split; [split; [discriminate|tauto]|split; [tauto|reflexivity]]. }
      destruct i as [|[|i]].
      * destruct (number_u us) as [z|] eqn:E; [apply (C true)|apply (C false)]; try discriminate; try reflexivity; [exists z; now apply Rn|intros _; now apply IH|].
        intros (z & G). apply Rn in G. congruence.
      * destruct (number_u us) as [z|] eqn:E; [apply (C true)|apply (C false)]; try discriminate; try reflexivity; [exists z; now apply Rn|intros _; now apply IH|].
        intros (z & G). apply Rn in G. congruence.
      * destruct (segment_u us) as [z|] eqn:E; [apply (C true)|apply (C false)]; try discriminate; try reflexivity; [exists z; now apply Rs|intros _; now apply IH|].
        intros (z & G). apply Rs in G. congruence.
    + apply chars_none in Ec. assert (R : ~ right_line i x).
      { intros R. apply Ec. destruct i as [|[|i]]; cbn [right_line] in R; destruct R as (z & us & R & _); now apply utf8_of_is in R. }
      split; [split; [tauto|reflexivity]|split; [discriminate|tauto]].
Qed.

(** The first wrong line decides how loading fails: with the error InvalidData if it is not UTF-8, with a panic if it is text but not the
    number or the four numbers it should be. *)
Theorem C90_failures : forall bytes,
  (load_any bytes = InvalidData <-> first_wrong (fun l => ~ is_utf8 l) bytes) /\
  (load_any bytes = LoadPanics <-> first_wrong is_utf8 bytes).
Proof.
  intros bytes. destruct (lines_of_text bytes) as (ls & H1 & H2).
  assert (U : forall P, first_wrong P bytes <-> wrong_from 0 P ls).
  { intros P. unfold first_wrong, wrong_from. split.
    - intros (b & l & a & G1 & G2). exists b, l, a. split; [now apply (lines_text_unique bytes)|exact G2].
    - intros (b & l & a & -> & G2). exists b, l, a. split; [exact H1|exact G2]. }
  rewrite !U. unfold load_any. now apply load_lines_wrong.
Qed.
Print Assumptions C90_failures.

(** Files without white space beyond ASCII: whatever the ASCII reading accepts is accepted, as the same index; and on an ASCII file
    nothing else is. So everything proved of index files (C34 and the csv-compressor properties) is about the real loading. *)
Lemma number_line_in l z : number_line l z -> number_in l z.
Proof.
  intros [R (a & w & b & -> & Ha & Hb & Hw)]. destruct (signed_word w z Hw) as [W _].
  assert (Bl : forall x, blank x -> Forall (fun c => 0 <= c < 128) x /\ Forall white_space x).
  { intros x Hx. split; (eapply Forall_impl; [|exact Hx]); intros c Hc; cbn in Hc; unfold white_space; cbn [In]; lia. }
  exists (a ++ w ++ b). split.
  - apply utf8_of_ascii. repeat (apply Forall_app; split); [now apply Bl| |now apply Bl]. eapply Forall_impl; [|exact W]. intros c Hc. unfold ink in Hc. lia.
  - split; [exact R|]. exists a, w, b. split; [reflexivity|]. split; [now apply Bl|]. split; [now apply Bl|exact Hw].
Qed.
Lemma segment_line_in l s : segment_line l s -> segment_in l s.
Proof.
  intros (m & x & y & n & -> & H1 & H2 & H3 & H4). apply number_line_in in H1, H2, H3, H4.
  destruct H1 as (m' & M1 & M2), H2 as (x' & X1 & X2), H3 as (y' & Y1 & Y2), H4 as (n' & N1 & N2).
  assert (C : utf8_of [44] [44]) by (apply utf8_of_ascii; constructor; [lia|constructor]).
  exists (m' ++ [44] ++ x' ++ [44] ++ y' ++ [44] ++ n'). split; [repeat apply utf8_of_app; assumption|]. exists m', x', y', n'. auto.
Qed.
Lemma ascii_number_in l z : Forall (fun c => 0 <= c < 128) l -> number_in l z -> number_line l z.
Proof.
  intros Ha (us & H & [R (a & w & b & -> & Wa & Wb & Hw)]). assert (E := utf8_of_unique _ _ _ H (utf8_of_ascii l Ha)). subst l.
  split; [exact R|]. exists a, w, b. split; [reflexivity|]. apply Forall_app in Ha. destruct Ha as [A1 A2]. apply Forall_app in A2. destruct A2 as [_ A3].
  assert (Bl : forall x, Forall white_space x -> Forall (fun c => 0 <= c < 128) x -> blank x).
  { intros x Hx Gx. unfold blank. rewrite Forall_forall in *. intros c Hc. specialize (Hx c Hc). specialize (Gx c Hc). unfold white_space in Hx. cbn [In] in Hx. lia. }
  auto.
Qed.
Lemma ascii_segment_in l s : Forall (fun c => 0 <= c < 128) l -> segment_in l s -> segment_line l s.
Proof.
  intros Ha (us & H & (m & x & y & n & -> & H1 & H2 & H3 & H4)). assert (E := utf8_of_unique _ _ _ H (utf8_of_ascii l Ha)). subst l.
  exists m, x, y, n. split; [reflexivity|]. apply Forall_app in Ha. destruct Ha as [A1 Ha]. apply Forall_app in Ha. destruct Ha as [_ Ha].
  apply Forall_app in Ha. destruct Ha as [A2 Ha]. apply Forall_app in Ha. destruct Ha as [_ Ha]. apply Forall_app in Ha. destruct Ha as [A3 Ha]. apply Forall_app in Ha. destruct Ha as [_ A4].
  assert (G : forall t z, Forall (fun c => 0 <= c < 128) t -> number_chars t z -> number_line t z).
  { intros t z Ht Hz. apply ascii_number_in; [exact Ht|]. exists t. split; [now apply utf8_of_ascii|exact Hz]. }
  auto 6.
Qed.
Theorem C90_ascii : forall bytes v,
  (load bytes = Ok v -> load_any bytes = Loaded v) /\
  (Forall (fun c => 0 <= c < 128) bytes -> load_any bytes = Loaded v -> load bytes = Ok v).
Proof.
  intros bytes v. rewrite C34_accepted_texts, C90_accepted. split.
  - intros (ls & H1 & H2). exists ls. split; [exact H1|]. destruct ls as [|a [|b rest]]; [exact H2| |].
    + destruct H2 as (G1 & G2). split; [now apply number_line_in|exact G2].
    + destruct H2 as (G1 & G2 & G3). split; [now apply number_line_in|]. split; [now apply number_line_in|].
      clear - G3. induction G3; constructor; [now apply segment_line_in|assumption].
  - intros Ha (ls & H1 & H2). exists ls. split; [exact H1|].
    assert (La : Forall (fun l => Forall (fun c => 0 <= c < 128) l) ls).
    { clear H2. induction H1 as [|l N H|l ls t H T IH]; [constructor|constructor; [exact Ha|constructor]|]. apply Forall_app in Ha. destruct Ha as [A1 A2]. apply Forall_app in A2. constructor; [exact A1|apply IH; tauto]. }
    destruct La as [|a l La1 La2]; [exact H2|]. destruct La2 as [|b rest La2 La3].
    + destruct H2 as (G1 & G2). split; [now apply ascii_number_in|exact G2].
    + destruct H2 as (G1 & G2 & G3). split; [now apply ascii_number_in|]. split; [now apply ascii_number_in|].
      clear - G3 La3. induction G3; inversion La3; subst; constructor; [now apply ascii_segment_in|auto].
Qed.
Print Assumptions C90_ascii.

(** csv-compressor -u: a call that ends normally ends the same way with the real loading, with the same files. Any call does if the
    index file is ASCII. *)
Theorem C90_csv_compressor : forall e p nt a fs,
  (forall fs', csvc_uncompress e p nt a fs = (fs', Done) -> csvc_uncompress_any e p nt a fs = (fs', Done)) /\
  ((forall ib, fs (set_extension (c_input a) ext_vsri) = Some ib -> Forall (fun c => 0 <= c < 128) ib) ->
   csvc_uncompress_any e p nt a fs = csvc_uncompress e p nt a fs).
Proof.
  intros e p nt a fs. unfold csvc_uncompress, csvc_uncompress_any.
  destruct (fs (c_input a)) as [b|]; [|auto]. destruct (bro_read b) as [| |bytes]; auto.
  destruct (do out <- decompress_data e p bytes; do w <- fold_res (wb_add p) out wb_new; Ok (out, w)) as [[out w]|]; [|auto].
  destruct (fs (set_extension (c_input a) ext_vsri)) as [ib|]; [|auto]. split.
  - intros fs'. destruct (load ib) as [index|] eqn:E; [|intros H; apply (f_equal snd) in H; discriminate H]. apply C90_ascii in E. now rewrite E.
  - intros Ha. specialize (Ha ib eq_refl). destruct (load ib) as [index|] eqn:E; [apply C90_ascii in E; now rewrite E|].
    destruct (load_any ib) as [v| |] eqn:E'; try reflexivity. apply C90_ascii in E'; [congruence|exact Ha].
Qed.
Print Assumptions C90_csv_compressor.

(** What is flushed is ASCII, so it is loaded as what it is. *)
Theorem C90_round_trip : forall v, i32_index v -> load_any (flush_bytes v) = Loaded v.
Proof. intros v H. apply C90_ascii. now apply C34_round_trip. Qed.
Print Assumptions C90_round_trip.

(** Instances. A no-break space (C2 A0), an ideographic space (E3 80 80) and a line in Latin-1 (FC); the first wrong line decides. *)
Example C90_example : load_any ([194; 160; 49; 48; 10] ++ [57; 48; 227; 128; 128; 13; 10] ++ [50; 48; 44; 48; 44; 49; 48; 44; 53]) = Loaded (Vsri 10 90 [Seg 20 0 10 5]).
Proof. vm_compute. reflexivity. Qed.
Example C90_latin1 : load_any ([49; 48; 10] ++ [252; 10] ++ [120; 10]) = InvalidData /\ load_any ([49; 48; 10] ++ [120; 10] ++ [252; 10]) = LoadPanics.
Proof. split; vm_compute; reflexivity. Qed.
(** A byte order mark is not white space. *)
Example C90_byte_order_mark : load_any ([239; 187; 191; 49; 48; 10]) = LoadPanics.
Proof. vm_compute. reflexivity. Qed.
