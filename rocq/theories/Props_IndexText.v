(** C34: which files are index files. *)
From Coq Require Import List ZArith Bool Lia ZifyBool.
From Verif Require Import Base Model_Vsri Model_Csv Spec_Vsri Spec_CsvTable Spec_IndexText VsriFacts TextFacts Props_CsvTable Props_VsriFile.
Import ListNotations.
Open Scope Z_scope.

Lemma parse_digits_radix l : forall acc, parse_digits l acc = parse_radix 10 dec_digit l acc.
Proof. induction l as [|c l IH]; intros acc; cbn [parse_digits parse_radix]; [reflexivity|]. unfold dec_digit. destruct (is_digit c); [apply IH|reflexivity]. Qed.
Lemma parse_i32_of l z : parse_i32 l = Some z <-> - 2 ^ 31 <= z < 2 ^ 31 /\ signed_text 10 l z.
Proof.
  assert (Chk : forall v w, (if in_sb 32 v then Some v else None) = Some w <-> (if in_sb 64 v then Some v else None) = Some w /\ - 2 ^ 31 <= w < 2 ^ 31).
  { intros v w. assert (B : forall k, 1 <= k -> (if in_sb k v then Some v else None) = Some w <-> v = w /\ - 2 ^ (k - 1) <= w < 2 ^ (k - 1)).
    { intros k Hk. unfold in_sb. destruct (_ && _) eqn:E; split; intros H; [assert (v = w) by congruence; lia|f_equal; lia|discriminate H|lia]. }
    rewrite (B 32), (B 64) by lia. change (64 - 1) with 63. change (32 - 1) with 31. lia. }
  assert (P : parse_i32 l = Some z <-> parse_signed 64 10 dec_digit l = Some z /\ - 2 ^ 31 <= z < 2 ^ 31).
  { assert (N : (None = Some z <-> None = Some z /\ - 2 ^ 31 <= z < 2 ^ 31)) by (split; [discriminate|intros [H _]; exact H]).
    unfold parse_i32, parse_signed. destruct l as [|c r]; [exact N|]. rewrite !parse_digits_radix.
    destruct ((c =? ch_minus) || (c =? ch_plus)); [destruct r as [|c2 r]; [exact N|]; destruct (parse_radix 10 dec_digit (c2 :: r) 0)|destruct (parse_radix 10 dec_digit (c :: r) 0)];
      try apply Chk; exact N. }
  rewrite P, (parse_signed_of 10 dec_digit l z digit_dec). split; [intros [[_ H] H2]; auto|intros [H H2]; split; [split; [lia|exact H2]|exact H]].
Qed.

Lemma blank_space l : blank l <-> Forall (fun c => is_space c = true) l.
Proof. unfold blank. split; apply Forall_impl; intros c; unfold is_space; lia. Qed.
Lemma trim_start_split l : exists a, l = a ++ trim_start l /\ blank a.
Proof.
  induction l as [|c l (a & H1 & H2)]; [exists []; split; [reflexivity|constructor]|]. cbn [trim_start]. destruct (is_space c) eqn:E.
  - exists (c :: a). split; [cbn; congruence|]. constructor; [unfold is_space in E; lia|exact H2].
  - exists []. split; [reflexivity|constructor].
Qed.
Lemma trim_start_blank a l : blank a -> trim_start (a ++ l) = trim_start l.
Proof. intros H. apply blank_space in H. induction H as [|c a Hc _ IH]; [reflexivity|]. cbn [app trim_start]. now rewrite Hc. Qed.
Lemma trim_split l : exists a b, l = a ++ trim l ++ b /\ blank a /\ blank b.
Proof.
  destruct (trim_start_split l) as (a & H1 & H2). destruct (trim_start_split (rev (trim_start l))) as (b & H3 & H4).
  exists a, (rev b). split; [|split; [exact H2|now apply Forall_rev]]. rewrite H1 at 1. f_equal. unfold trim. rewrite <- rev_app_distr, <- H3. now rewrite rev_involutive.
Qed.
Definition ink (c : Z) : Prop := 43 <= c <= 57 /\ c <> 44.
Lemma ink_not_space c : ink c -> is_space c = false.
Proof. unfold ink, is_space. lia. Qed.
Lemma trim_start_ink l : Forall ink l -> trim_start l = l.
Proof. intros H. destruct H as [|c l Hc Hl]; [reflexivity|]. cbn [trim_start]. now rewrite (ink_not_space c Hc). Qed.
Lemma trim_around a w b : blank a -> blank b -> Forall ink w -> w <> [] -> trim (a ++ w ++ b) = w.
Proof.
  intros Ha Hb Hw Hn. unfold trim. rewrite trim_start_blank by exact Ha. destruct w as [|c w]; [congruence|]. cbn [app trim_start].
  inversion Hw as [|? ? Hc Hw']; subst. rewrite (ink_not_space c Hc). change (c :: w ++ b) with ((c :: w) ++ b). rewrite rev_app_distr, trim_start_blank by now apply Forall_rev.
  rewrite trim_start_ink by now apply Forall_rev. apply rev_involutive.
Qed.
Lemma digits_word t v : digits_of 10 t v -> Forall ink t.
Proof. induction 1 as [c d H|t v c d H IH H2]; [|apply Forall_app; split; [exact IH|]]; (constructor; [|constructor]); unfold digit_of, ink in *; lia. Qed.
Lemma signed_word t z : signed_text 10 t z -> Forall ink t /\ t <> [].
Proof.
  intros [H|[(u & -> & H)|(u & v & -> & H & _)]].
  - split; [now apply digits_word in H|now apply digits_not_empty in H].
  - split; [|discriminate]. constructor; [unfold ink; lia|now apply digits_word in H].
  - split; [|discriminate]. constructor; [unfold ink; lia|now apply digits_word in H].
Qed.
Lemma number_of t z : parse_unwrap t = Ok z <-> number_line t z.
Proof.
  unfold parse_unwrap, number_line. split.
  - destruct (parse_i32 (trim t)) as [v|] eqn:E; [|discriminate]. intros H. apply ok_inj in H. subst v. apply parse_i32_of in E. destruct E as [E1 E2]. split; [exact E1|].
    destruct (trim_split t) as (a & b & H1 & H2 & H3). exists a, (trim t), b. auto.
  - intros [H (a & w & b & -> & Ha & Hb & Hw)]. destruct (signed_word w z Hw) as [W1 W2]. rewrite trim_around by assumption.
    rewrite (proj2 (parse_i32_of w z)); [reflexivity|auto].
Qed.

Lemma split_cases sep l : (~ In sep l /\ split_on sep l = [l]) \/ exists a r, l = a ++ sep :: r /\ ~ In sep a /\ split_on sep l = a :: split_on sep r.
Proof.
  induction l as [|c l IH]; [left; split; [intros []|reflexivity]|]. destruct (Z.eqb_spec c sep) as [-> |N].
  - right. exists [], l. split; [reflexivity|]. split; [intros []|]. cbn [split_on]. now rewrite Z.eqb_refl.
  - destruct IH as [[H1 H2]|(a & r & H1 & H2 & H3)].
    + left. split; [intros [H|H]; [congruence|contradiction]|]. apply split_none. intros [H|H]; [congruence|contradiction].
    + right. exists (c :: a), r. subst l. split; [reflexivity|]. assert (G : ~ In sep (c :: a)) by (intros [H|H]; [congruence|contradiction]). split; [exact G|].
      change (c :: a ++ sep :: r) with ((c :: a) ++ sep :: r). now apply split_some.
Qed.
Lemma number_no_comma t z : number_line t z -> ~ In ch_comma t.
Proof.
  intros [_ (a & w & b & -> & Ha & Hb & Hw)] Hi. destruct (signed_word w z Hw) as [W _]. unfold blank in *. rewrite Forall_forall in *.
  apply in_app_iff in Hi. destruct Hi as [Hi|Hi]; [apply Ha in Hi; unfold ch_comma in *; lia|]. apply in_app_iff in Hi.
  destruct Hi as [Hi|Hi]; [apply W in Hi; unfold ink, ch_comma in *; lia|apply Hb in Hi; unfold ch_comma in *; lia].
Qed.
Lemma segment_of_line t s : load_segment t = Ok s <-> segment_line t s.
Proof.
  unfold load_segment, segment_line. split.
  - intros H. destruct (map_res parse_unwrap (split_on ch_comma t)) as [vals|q] eqn:E; cbn [bind] in H; [|discriminate H].
    assert (M : forall l vals, map_res parse_unwrap l = Ok vals -> Forall2 number_line l vals).
    { clear. induction l as [|x l IH]; intros vals H; cbn [map_res] in H; [apply ok_inj in H; subst; constructor|].
      destruct (parse_unwrap x) as [z|q] eqn:E; cbn [bind] in H; [|discriminate H]. destruct (map_res parse_unwrap l) as [vs|q] eqn:E2; cbn [bind] in H; [|discriminate H].
      apply ok_inj in H. subst. constructor; [now apply number_of|now apply IH]. }
    apply M in E. destruct vals as [|a [|b [|c [|d [|e l]]]]]; try discriminate H. apply ok_inj in H. subst s.
    destruct (split_cases ch_comma t) as [[_ S1]|(p1 & r1 & -> & C1 & S1)]; rewrite S1 in E; [inversion E as [|? ? ? ? _ G]; inversion G|]. inversion E as [|? ? ? ? N1 E1]; subst. clear E S1.
    destruct (split_cases ch_comma r1) as [[_ S1]|(p2 & r2 & -> & C2 & S1)]; rewrite S1 in E1; [inversion E1 as [|? ? ? ? _ G]; inversion G|]. inversion E1 as [|? ? ? ? N2 E2]; subst. clear E1 S1.
    destruct (split_cases ch_comma r2) as [[_ S1]|(p3 & r3 & -> & C3 & S1)]; rewrite S1 in E2; [inversion E2 as [|? ? ? ? _ G]; inversion G|]. inversion E2 as [|? ? ? ? N3 E3]; subst. clear E2 S1.
    destruct (split_cases ch_comma r3) as [[_ S1]|(p4 & r4 & -> & C4 & S1)]; rewrite S1 in E3; [|inversion E3 as [|? ? ? ? _ G]; subst; inversion G as [E5|]; symmetry in E5; now apply split_nonempty in E5].
    inversion E3 as [|? ? ? ? N4 _]; subst. exists p1, p2, p3, r3. split; [reflexivity|]. cbn [sg_m sg_x sg_y sg_n]. auto.
  - intros (m & x & y & n & -> & H1 & H2 & H3 & H4). cbn [app]. change 44 with ch_comma.
    rewrite !split_some by (eapply number_no_comma; eassumption). rewrite split_none by (eapply number_no_comma; eassumption).
    cbn [map_res]. apply number_of in H1, H2, H3, H4. rewrite H1, H2, H3, H4. cbn [bind]. now destruct s.
Qed.

(** Cutting off a carriage return does not matter for a number or a segment. *)
Lemma strip_cr_cases l : strip_cr l = l \/ l = strip_cr l ++ [13].
Proof.
  unfold strip_cr. destruct (rev l) as [|c r] eqn:E; apply (f_equal (@rev Z)) in E; rewrite rev_involutive in E; [left; now subst|].
  destruct (Z.eqb_spec c ch_cr) as [-> |]; [right|left; reflexivity]. now rewrite E at 1.
Qed.
Lemma number_cr t z : number_line (t ++ [13]) z <-> number_line t z.
Proof.
  split; intros [R (a & w & b & E & Ha & Hb & Hw)]; (split; [exact R|]).
  - destruct (signed_word w z Hw) as [W1 W2]. destruct b as [|c b] using rev_ind.
    + exfalso. rewrite app_nil_r in E. destruct w as [|x w] using rev_ind; [congruence|]. rewrite app_assoc in E. apply app_inj_tail in E. destruct E as [_ E]. subst x.
      apply Forall_app in W1. destruct W1 as [_ W1]. inversion W1 as [|? ? W _]. unfold ink in W. lia.
    + rewrite !app_assoc in E. apply app_inj_tail in E. destruct E as [E _]. exists a, w, b. unfold blank in Hb. apply Forall_app in Hb. rewrite <- app_assoc in E. tauto.
  - exists a, w, (b ++ [13]). split; [subst; now rewrite !app_assoc|]. split; [exact Ha|]. split; [|exact Hw]. apply Forall_app. split; [exact Hb|]. constructor; [lia|constructor].
Qed.
Lemma segment_cr t s : segment_line (t ++ [13]) s <-> segment_line t s.
Proof.
  split; intros (m & x & y & n & E & H1 & H2 & H3 & H4).
  - destruct n as [|c n _] using rev_ind; [destruct H4 as [_ (a & w & b & E2 & _ & _ & Hw)]; symmetry in E2; apply app_eq_nil in E2; destruct E2 as [_ E2]; apply app_eq_nil in E2; destruct E2 as [E2 _]; apply signed_word in Hw; tauto|].
    assert (E' : t ++ [13] = (m ++ [44] ++ x ++ [44] ++ y ++ [44] ++ n) ++ [c]) by (rewrite E; repeat (rewrite <- app_assoc; cbn [app]); reflexivity).
    apply app_inj_tail in E'. destruct E' as [-> <-]. exists m, x, y, n. split; [reflexivity|]. apply (proj1 (number_cr n _)) in H4. auto.
  - exists m, x, y, (n ++ [13]). split; [subst; repeat (rewrite <- app_assoc; cbn [app]); reflexivity|]. apply (proj2 (number_cr n _)) in H4. auto.
Qed.
Lemma strip_number l z : number_line (strip_cr l) z <-> number_line l z.
Proof. destruct (strip_cr_cases l) as [-> |E]; [reflexivity|]. rewrite E at 2. symmetry. apply number_cr. Qed.
Lemma strip_segment l z : segment_line (strip_cr l) z <-> segment_line l z.
Proof. destruct (strip_cr_cases l) as [-> |E]; [reflexivity|]. rewrite E at 2. symmetry. apply segment_cr. Qed.

(** The lines of a file, up to such carriage returns. *)
Definition about (a b : list Z) : Prop := a = b \/ a = strip_cr b.
Lemma lines_of_text bytes : exists ls, lines_text ls bytes /\ Forall2 about (lines bytes) ls.
Proof.
  remember (length bytes) as n eqn:En. assert (Hn : (length bytes <= n)%nat) by lia. clear En. revert bytes Hn. induction n as [|n IH]; intros bytes Hn.
  - destruct bytes; [|cbn in Hn; lia]. exists []. split; constructor.
  - unfold lines. destruct (split_cases ch_nl bytes) as [[H1 ->]|(a & r & -> & H2 & ->)].
    + destruct bytes as [|c bytes]; [exists []; split; constructor|]. exists [c :: bytes]. split; [apply last_line; [discriminate|exact H1]|]. constructor; [now left|constructor].
    + rewrite app_length in Hn. cbn [length] in Hn. destruct (IH r ltac:(lia)) as (ls & G1 & G2). exists (a :: ls). split; [change (a ++ ch_nl :: r) with (a ++ [10] ++ r); now constructor|].
      cbn [lines_of]. destruct (split_on ch_nl r) eqn:E; [now apply split_nonempty in E|]. rewrite <- E. constructor; [now right|exact G2].
Qed.
Lemma lines_text_unique bytes ls : lines_text ls bytes -> forall ls', lines_text ls' bytes -> ls = ls'.
Proof.
  assert (Ap : forall a b t u : list Z, ~ In 10 a -> ~ In 10 b -> a ++ 10 :: t = b ++ 10 :: u -> a = b /\ t = u).
  { induction a as [|x a IHa]; intros [|y b] t u Ha Hb E; cbn in E; [split; congruence| | |].
    - exfalso. apply Hb. left. congruence.
    - exfalso. apply Ha. left. congruence.
    - destruct (IHa b t u) as [-> ->]; [intros G; apply Ha; now right|intros G; apply Hb; now right|congruence|]. split; congruence. }
  induction 1 as [|l N H|l ls t H T IH]; intros ls' G; inversion G as [E|l' N' H' E|l' ls2 t' H' T' E]; subst; try reflexivity; try congruence.
  - destruct l'; discriminate.
  - exfalso. apply H. apply in_or_app. right. now left.
  - destruct l; discriminate.
  - exfalso. apply H'. apply in_or_app. right. now left.
  - cbn [app] in H0. apply Ap in H0; [|assumption|assumption]. destruct H0 as [-> ->]. f_equal. now apply IH.
Qed.

Lemma segments_about l : forall ls segs, Forall2 about l ls -> (map_res load_segment l = Ok segs <-> Forall2 segment_line ls segs).
Proof.
  induction l as [|x l IH]; intros ls segs H; inversion H as [|? y ? ls' A B]; subst; cbn [map_res].
  - split; [intros E; apply ok_inj in E; subst; constructor|intros E; inversion E; reflexivity].
  - assert (L : forall s, load_segment x = Ok s <-> segment_line y s).
    { intros s. rewrite segment_of_line. destruct A as [-> | ->]; [reflexivity|apply strip_segment]. }
    split.
    + destruct (load_segment x) as [s|q] eqn:E; cbn [bind]; [|discriminate]. destruct (map_res load_segment l) as [ss|q] eqn:E2; cbn [bind]; [|discriminate].
      intros G. apply ok_inj in G. subst. constructor; [now apply L|]. now apply IH.
    + intros G. inversion G as [|? s ? ss G1 G2]; subst. apply L in G1. rewrite G1. cbn [bind]. apply (IH ls' ss B) in G2. now rewrite G2.
Qed.

(** A file is accepted exactly if it is the text of an index, and then it is read as that index: numbers in decimal with or without sign
    and with any blanks around them, carriage returns before line feeds, the last line feed or not. Every other file makes the load panic. *)
Theorem C34_accepted_texts : forall bytes v, load bytes = Ok v <-> index_text v bytes.
Proof.
  intros bytes v. destruct (lines_of_text bytes) as (ls & H1 & H2). unfold load, index_text.
  assert (U : forall Q, (exists ls', lines_text ls' bytes /\ Q ls') <-> Q ls).
  { intros Q. split; [|intros G; now exists ls]. intros (ls' & G & G2). now rewrite (lines_text_unique _ _ H1 _ G). }
  rewrite U. clear U. assert (N : forall x y z, about x y -> (parse_unwrap x = Ok z <-> number_line y z)).
  { intros x y z A. rewrite number_of. destruct A as [-> | ->]; [reflexivity|apply strip_number]. }
  destruct H2 as [|x a l ls' A B]; [split; [intros G; now apply ok_inj in G|intros ->; reflexivity]|].
  destruct B as [|y b l ls' A' B].
  - split.
    + destruct (parse_unwrap x) as [z|q] eqn:E; cbn [bind]; [|discriminate]. intros G. apply ok_inj in G. subst v. cbn [vs_min vs_max vs_segs]. apply (N x a z A) in E. auto.
    + intros (G1 & G2 & G3). apply (N x a _ A) in G1. rewrite G1. cbn [bind]. destruct v. cbn in *. now subst.
  - split.
    + destruct (parse_unwrap x) as [z|q] eqn:E; cbn [bind]; [|discriminate]. destruct (parse_unwrap y) as [z'|q] eqn:E2; cbn [bind]; [|discriminate].
      destruct (map_res load_segment l) as [ss|q] eqn:E3; cbn [bind]; [|discriminate]. intros G. apply ok_inj in G. subst v. cbn [vs_min vs_max vs_segs].
      apply (N x a z A) in E. apply (N y b z' A') in E2. apply (segments_about l ls' ss B) in E3. auto.
    + intros (G1 & G2 & G3). apply (N x a _ A) in G1. apply (N y b _ A') in G2. apply (segments_about l ls' _ B) in G3. rewrite G1, G2, G3. cbn [bind]. now destruct v.
Qed.
Print Assumptions C34_accepted_texts.

(** A file written elsewhere, with spaces, plus signs, leading zeros and carriage returns. *)
Example C34_accepted_example :
  load ([32; 49; 48; 13; 10] ++ [43; 48; 57; 48; 9; 13; 10] ++ [50; 48; 44; 32; 48; 44; 49; 48; 32; 44; 45; 53]) = Ok (Vsri 10 90 [Seg 20 0 10 (-5)]).
Proof. vm_compute. reflexivity. Qed.
Example C34_not_a_number : exists q, load [49; 48; 10; 49; 120] = Panic q. Proof. eexists. vm_compute. reflexivity. Qed.
