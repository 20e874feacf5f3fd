(** C80: which command lines are accepted, and what they mean. *)
From Coq Require Import List ZArith Bool Lia String ZifyBool Permutation.
From Verif Require Import Base Model_Float Model_Csv Spec_Csv Spec_CsvTable CsvFacts Model_Stream Model_Cli Model_Args Spec_Args Props_CsvTable Props_Cli Props_Csvc.
Import ListNotations.
Open Scope Z_scope.

(** * Words *)
(** The tables of options: no name twice, no long name empty or with an equals sign, no dash as a letter. *)
Definition table_ok (ds : list opt_decl) : Prop :=
  (forall i d c, nth_error ds i = Some d -> od_short d = Some c -> find_short ds c = Some (i, d)) /\
  (forall i d n, nth_error ds i = Some d -> od_long d = Some n -> find_long ds n = Some (i, d) /\ ~ In 61 n /\ n <> []) /\
  find_short ds 45 = None.

Lemma find_from_some {A} (f : A -> bool) l : forall i j x, find_from f l i = Some (j, x) -> (i <= j)%nat /\ nth_error l (j - i) = Some x /\ f x = true.
Proof.
  induction l as [|y l IH]; intros i j x H; cbn [find_from] in H; [discriminate H|]. destruct (f y) eqn:E.
  - assert (j = i /\ x = y) as [-> ->] by (split; congruence). split; [lia|]. rewrite Nat.sub_diag. split; [reflexivity|exact E].
  - apply IH in H. destruct H as (H1 & H2 & H3). split; [lia|]. split; [|exact H3]. replace (j - i)%nat with (S (j - S i)) by lia. exact H2.
Qed.
Lemma find_short_some ds c i d : find_short ds c = Some (i, d) -> nth_error ds i = Some d /\ od_short d = Some c.
Proof.
  intros H. apply find_from_some in H. destruct H as (_ & H & E). rewrite Nat.sub_0_r in H. split; [exact H|]. destruct (od_short d) as [s|]; [|discriminate E]. f_equal. lia.
Qed.
Lemma find_long_some ds n i d : find_long ds n = Some (i, d) -> nth_error ds i = Some d /\ od_long d = Some n.
Proof.
  intros H. apply find_from_some in H. destruct H as (_ & H & E). rewrite Nat.sub_0_r in H. split; [exact H|]. destruct (od_long d) as [s|]; [|discriminate E]. apply text_eqb_spec in E. now subst.
Qed.

Lemma split_eq_none l n : split_eq l = (n, None) -> l = n /\ ~ In 61 n.
Proof.
  revert n. induction l as [|c l IH]; intros n H; cbn [split_eq] in H; [assert (n = []) as -> by congruence; split; [reflexivity|intros []]|].
  destruct (Z.eqb_spec c 61) as [E|E]; [discriminate H|]. destruct (split_eq l) as [m [v|]]; [discriminate H|]. assert (n = c :: m) as -> by congruence. destruct (IH m eq_refl) as [-> I]. split; [reflexivity|]. intros [X|X]; [congruence|contradiction].
Qed.
Lemma split_eq_some l n v : split_eq l = (n, Some v) -> l = n ++ 61 :: v /\ ~ In 61 n.
Proof.
  revert n. induction l as [|c l IH]; intros n H; cbn [split_eq] in H; [discriminate H|].
  destruct (Z.eqb_spec c 61) as [->|E]; [assert (n = [] /\ l = v) as [-> ->] by (split; congruence); split; [reflexivity|intros []]|]. destruct (split_eq l) as [m [v'|]]; [|discriminate H].
  assert (n = c :: m /\ v' = v) as [-> ->] by (split; congruence). destruct (IH m eq_refl) as [-> I]. split; [reflexivity|]. intros [X|X]; [congruence|contradiction].
Qed.
Lemma split_eq_plain n : ~ In 61 n -> split_eq n = (n, None).
Proof. induction n as [|c n IH]; intros H; [reflexivity|]. cbn [split_eq]. destruct (Z.eqb_spec c 61) as [->|E]; [exfalso; apply H; now left|]. rewrite IH; [reflexivity|]. intros X. apply H. now right. Qed.
Lemma split_eq_value n v : ~ In 61 n -> split_eq (n ++ 61 :: v) = (n, Some v).
Proof. induction n as [|c n IH]; intros H; [reflexivity|]. cbn [app split_eq]. destruct (Z.eqb_spec c 61) as [->|E]; [exfalso; apply H; now left|]. rewrite IH; [reflexivity|]. intros X. apply H. now right. Qed.

Lemma value_word_spec w : value_word w = true <-> undashed w.
Proof.
  unfold undashed, value_word. destruct w as [|c [|d r]]; cbn [hd_error].
  - split; [intros _; right; discriminate|reflexivity].
  - split; intros _; [destruct (Z.eq_dec c 45) as [->|E]; [now left|right; congruence]|apply orb_true_r].
  - rewrite orb_false_r. split; [intros H; right; intros X; assert (c = 45) by congruence; lia|]. intros [H|H]; [discriminate H|]. destruct (Z.eqb_spec c 45) as [->|E]; [congruence|reflexivity].
Qed.

Lemma one_word_long ds l : one_word ds (45 :: 45 :: l) =
  (let (n, v) := split_eq l in
   match find_long ds n, v with
   | None, _ => None
   | Some (i, d), Some v => if od_takes d then Some ([Given i v], None) else None
   | Some (i, d), None => if od_takes d then Some ([], Some i) else Some ([Flag i], None)
   end).
Proof. reflexivity. Qed.
Lemma one_word_short ds c l : c <> 45 -> one_word ds (45 :: c :: l) = short_word ds (c :: l).
Proof. intros H. unfold one_word. destruct c as [|q|q]; try reflexivity. do 6 (destruct q as [q|q|]; try reflexivity). congruence. Qed.
Lemma one_word_input ds w : undashed w -> one_word ds w = Some ([Input w], None).
Proof.
  intros H. destruct w as [|c r]; [reflexivity|]. destruct (Z.eq_dec c 45) as [->|E]; [destruct H as [H|H]; [rewrite H; reflexivity|exfalso; now apply H]|].
  clear H. unfold one_word. destruct c as [|q|q]; try reflexivity. do 6 (destruct q as [q|q|]; try reflexivity). congruence.
Qed.
Lemma word_cases (w : text) : (exists l, w = 45 :: 45 :: l) \/ (exists c l, w = 45 :: c :: l /\ c <> 45) \/ undashed w.
Proof.
  destruct w as [|c r]; [right; right; right; discriminate|]. destruct (Z.eq_dec c 45) as [->|E]; [|right; right; right; cbn; congruence].
  destruct r as [|d l]; [right; right; now left|]. destruct (Z.eq_dec d 45) as [->|E]; [left; now exists l|right; left; now exists d, l].
Qed.

Section Words.
Variable ds : list opt_decl.
Hypothesis Ht : table_ok ds.

Lemma short_letter c i d : find_short ds c = Some (i, d) -> c <> 45.
Proof. destruct Ht as (_ & _ & H). intros E ->. congruence. Qed.

Lemma short_word_line l : forall os n, l <> [] -> short_word ds l = Some (os, n) ->
  hd_error l <> Some 45 /\
  match n with
  | None => forall os' ws, line ds os' ws -> line ds (os ++ os') ((45 :: l) :: ws)
  | Some i => forall v os' ws, undashed v -> line ds os' ws -> line ds (os ++ Given i v :: os') ((45 :: l) :: v :: ws)
  end.
Proof.
  induction l as [|c r IH]; intros os n Hne H; [congruence|]. clear Hne. cbn [short_word] in H. destruct (find_short ds c) as [[i d]|] eqn:Ef; [|discriminate H].
  split; [assert (X := short_letter _ _ _ Ef); cbn; congruence|]. apply find_short_some in Ef. destruct Ef as [E1 E2]. destruct d as [s m tk]. cbn [od_short] in E2. subst s. cbn [od_takes] in H. destruct tk.
  - destruct r as [|e v].
    + assert (os = [] /\ n = Some i) as [-> ->] by (split; congruence). intros v os' ws Hv L. exact (line_short_next ds i c m v os' ws E1 Hv L).
    + assert (os = [Given i (if e =? 61 then v else e :: v)] /\ n = None) as [-> ->] by (split; congruence). intros os' ws L. destruct (Z.eqb_spec e 61) as [->|E].
      * exact (line_short_equals ds i c m v os' ws E1 L).
      * apply (line_short_value ds i c m (e :: v) os' ws E1); [discriminate|cbn; congruence|exact L].
  - destruct (short_word ds r) as [[os1 n1]|] eqn:Er; [|discriminate H]. assert (os = Flag i :: os1 /\ n = n1) as [-> ->] by (split; congruence). destruct r as [|e r].
    + cbn in Er. assert (os1 = [] /\ n1 = None) as [-> ->] by (split; congruence). intros os' ws L. exact (line_short_flag ds i c m os' ws E1 L).
    + destruct (IH os1 n1 ltac:(discriminate) eq_refl) as [D I]. assert (De : e <> 45) by (cbn in D; congruence). destruct n1 as [j|].
      * intros v os' ws Hv L. exact (line_cluster ds i c m e r _ _ E1 De (I v os' ws Hv L)).
      * intros os' ws L. exact (line_cluster ds i c m e r _ _ E1 De (I os' ws L)).
Qed.

(** The parser accepts exactly the spelled command lines. *)
Lemma parse_words_line : forall k ws os, (length ws <= k)%nat -> parse_words ds ws = Some os -> line ds os ws.
Proof.
  induction k as [|k IH]; intros ws os Hk H; [destruct ws; [cbn in H; assert (os = []) as -> by congruence; constructor|cbn in Hk; lia]|].
  destruct ws as [|w r]; [cbn in H; assert (os = []) as -> by congruence; constructor|]. cbn [length] in Hk. cbn [parse_words] in H.
  destruct (text_eqb w [45; 45]) eqn:E; [apply text_eqb_spec in E; subst w; assert (os = map Input r) as -> by congruence; apply (line_rest ds r)|].
  assert (Nd : w <> [45; 45]) by (intros ->; rewrite (proj2 (text_eqb_spec _ _) eq_refl) in E; discriminate E). clear E.
  destruct (word_cases w) as [(l & ->)|[(c & l & -> & Hc)|Hw]].
  - rewrite one_word_long in H. destruct (split_eq l) as [n v] eqn:Es. destruct (find_long ds n) as [[i d]|] eqn:Ef; [|discriminate H]. apply find_long_some in Ef. destruct Ef as [E1 E2]. destruct d as [s m tk]. cbn [od_long] in E2. subst m. cbn [od_takes] in H.
    destruct v as [v|].
    + apply split_eq_some in Es. destruct Es as [-> _]. destruct tk; [|discriminate H]. destruct (parse_words ds r) as [os1|] eqn:Er; [|discriminate H]. cbn [option_map app] in H. assert (os = Given i v :: os1) as -> by congruence.
      exact (line_long_value ds i s n v os1 r E1 (IH r os1 ltac:(lia) Er)).
    + apply split_eq_none in Es. destruct Es as [-> _]. destruct tk.
      * destruct r as [|v r]; [discriminate H|]. destruct (value_word v) eqn:Ev; [|discriminate H]. apply value_word_spec in Ev. destruct (parse_words ds r) as [os1|] eqn:Er; [|discriminate H]. cbn [option_map app] in H. assert (os = Given i v :: os1) as -> by congruence.
        exact (line_long_next ds i s n v os1 r E1 Ev (IH r os1 ltac:(cbn in Hk; lia) Er)).
      * destruct (parse_words ds r) as [os1|] eqn:Er; [|discriminate H]. cbn [option_map app] in H. assert (os = Flag i :: os1) as -> by congruence. exact (line_long_flag ds i s n os1 r E1 (IH r os1 ltac:(lia) Er)).
  - rewrite one_word_short in H by exact Hc. destruct (short_word ds (c :: l)) as [[os0 [i|]]|] eqn:Es; [| |discriminate H].
    + destruct r as [|v r]; [discriminate H|]. destruct (value_word v) eqn:Ev; [|discriminate H]. apply value_word_spec in Ev. destruct (parse_words ds r) as [os1|] eqn:Er; [|discriminate H]. cbn [option_map] in H. assert (os = os0 ++ Given i v :: os1) as -> by congruence.
      destruct (short_word_line (c :: l) os0 (Some i) ltac:(discriminate) Es) as [_ L]. exact (L v os1 r Ev (IH r os1 ltac:(cbn in Hk; lia) Er)).
    + destruct (parse_words ds r) as [os1|] eqn:Er; [|discriminate H]. cbn [option_map] in H. assert (os = os0 ++ os1) as -> by congruence.
      destruct (short_word_line (c :: l) os0 None ltac:(discriminate) Es) as [_ L]. exact (L os1 r (IH r os1 ltac:(lia) Er)).
  - rewrite one_word_input in H by exact Hw. destruct (parse_words ds r) as [os1|] eqn:Er; [|discriminate H]. cbn [option_map app] in H. assert (os = Input w :: os1) as -> by congruence. exact (line_input ds w os1 r Hw (IH r os1 ltac:(lia) Er)).
Qed.

Lemma not_marker w : hd_error w <> Some 45 \/ (exists c l, w = 45 :: c :: l /\ c <> 45) \/ (exists c l, w = 45 :: 45 :: c :: l) \/ w = [45] -> text_eqb w [45; 45] = false.
Proof.
  intros H. destruct (text_eqb w [45; 45]) eqn:E; [|reflexivity]. apply text_eqb_spec in E. subst w. destruct H as [H|[(c & l & H & N)|[(c & l & H)|H]]]; [now cbn in H|congruence|discriminate H|discriminate H].
Qed.
Lemma long_word n v : n <> [] -> text_eqb (45 :: 45 :: n ++ v) [45; 45] = false.
Proof. intros H. apply not_marker. right. right. left. destruct n as [|c n]; [congruence|]. exists c, (n ++ v). reflexivity. Qed.

Lemma line_parse_words os ws : line ds os ws -> parse_words ds ws = Some os.
Proof.
  destruct Ht as (Hs & Hl & H45). induction 1 as [|t os ws U L IH|i s n v os ws E L IH|i s n v os ws E U L IH|i s n os ws E L IH|i c n v os ws E N Q L IH|i c n v os ws E L IH|i c n v os ws E U L IH|i c n os ws E L IH|i c n d r os ws E D L IH|ts];
    cbn [parse_words].
  - reflexivity.
  - rewrite not_marker by (destruct U as [U|U]; auto). rewrite one_word_input, IH by exact U. reflexivity.
  - destruct (Hl _ _ _ E eq_refl) as (F & P & Ne).
    change (txt "--" ++ n ++ txt "=" ++ v) with (45 :: 45 :: n ++ 61 :: v). rewrite long_word by exact Ne. rewrite one_word_long, split_eq_value, F by exact P. cbn [od_takes]. rewrite IH. reflexivity.
  - destruct (Hl _ _ _ E eq_refl) as (F & P & Ne). change (txt "--" ++ n) with (45 :: 45 :: n). assert (X := long_word n [] Ne). rewrite app_nil_r in X. rewrite X, one_word_long, split_eq_plain, F by exact P. cbn [od_takes].
    rewrite (proj2 (value_word_spec v) U), IH. reflexivity.
  - destruct (Hl _ _ _ E eq_refl) as (F & P & Ne). change (txt "--" ++ n) with (45 :: 45 :: n). assert (X := long_word n [] Ne). rewrite app_nil_r in X. rewrite X, one_word_long, split_eq_plain, F by exact P. cbn [od_takes].
    rewrite IH. reflexivity.
  - assert (F := Hs _ _ _ E eq_refl). assert (Nc := short_letter _ _ _ F). change (txt "-" ++ c :: v) with (45 :: c :: v). rewrite not_marker by (right; left; eauto). rewrite one_word_short by exact Nc. cbn [short_word]. rewrite F. cbn [od_takes].
    destruct v as [|x v]; [congruence|]. replace (x =? 61) with false by (cbn in Q; destruct (Z.eqb_spec x 61); congruence). rewrite IH. reflexivity.
  - assert (F := Hs _ _ _ E eq_refl). assert (Nc := short_letter _ _ _ F). change (txt "-" ++ c :: txt "=" ++ v) with (45 :: c :: 61 :: v). rewrite not_marker by (right; left; eauto). rewrite one_word_short by exact Nc. cbn [short_word]. rewrite F. cbn [od_takes].
    change (61 =? 61) with true. rewrite IH. reflexivity.
  - assert (F := Hs _ _ _ E eq_refl). assert (Nc := short_letter _ _ _ F). change (txt "-" ++ [c]) with [45; c]. rewrite not_marker by (right; left; eauto). rewrite one_word_short by exact Nc. cbn [short_word]. rewrite F. cbn [od_takes].
    rewrite (proj2 (value_word_spec v) U), IH. reflexivity.
  - assert (F := Hs _ _ _ E eq_refl). assert (Nc := short_letter _ _ _ F). change (txt "-" ++ [c]) with [45; c]. rewrite not_marker by (right; left; eauto). rewrite one_word_short by exact Nc. cbn [short_word]. rewrite F. cbn [od_takes].
    rewrite IH. reflexivity.
  - assert (F := Hs _ _ _ E eq_refl). assert (Nc := short_letter _ _ _ F). change (txt "-" ++ c :: d :: r) with (45 :: c :: d :: r). change (txt "-" ++ d :: r) with (45 :: d :: r) in IH. rewrite not_marker by (right; left; eauto). rewrite one_word_short by exact Nc.
    cbn [parse_words] in IH. rewrite not_marker in IH by (right; left; eauto). rewrite one_word_short in IH by exact D.
    change (short_word ds (c :: d :: r)) with (match find_short ds c with None => None | Some (i, d0) => if od_takes d0 then Some ([Given i (if d =? 61 then r else d :: r)], None) else match short_word ds (d :: r) with Some (os, n) => Some (Flag i :: os, n) | None => None end end).
    rewrite F. cbn [od_takes]. destruct (short_word ds (d :: r)) as [[os0 [j|]]|]; [| |discriminate IH].
    + destruct ws as [|v ws]; [discriminate IH|]. destruct (value_word v); [|discriminate IH]. destruct (parse_words ds ws) as [os1|]; [|discriminate IH]. cbn [option_map app] in *. congruence.
    + destruct (parse_words ds ws) as [os1|]; [|discriminate IH]. cbn [option_map app] in *. congruence.
  - reflexivity.
Qed.
End Words.

(** * From the uses to the settings *)
Definition fits (ds : list opt_decl) (o : occurrence) : Prop :=
  match o with
  | Given i _ => exists d, nth_error ds i = Some d /\ od_takes d = true
  | Flag i => exists d, nth_error ds i = Some d /\ od_takes d = false
  | Input _ => True
  end.
Lemma line_fits ds os ws : line ds os ws -> Forall (fits ds) os.
Proof.
  induction 1; try (constructor; [|assumption]); cbn [fits]; eauto.
  - induction ts as [|t ts IH]; cbn [map]; constructor; [exact I|exact IH].
Qed.
Lemma occ_which i o : occ_of i o = true <-> which o = Some i.
Proof. destruct o as [j v|j|t]; cbn [occ_of which]; [rewrite Nat.eqb_eq; split; congruence..|split; discriminate]. Qed.

Lemma once_filter os i o : each_once os -> In o os -> which o = Some i -> filter (occ_of i) os = [o].
Proof.
  unfold each_once. intros N H W. induction os as [|x os IH]; [destruct H|]. cbn [map] in N. inversion N as [|y l Nx Nr]; subst. cbn [filter].
  destruct H as [->|H].
  - rewrite (proj2 (occ_which i o) W). f_equal. destruct (filter (occ_of i) os) as [|z r] eqn:E; [reflexivity|]. exfalso. apply Nx. rewrite W.
    assert (I : In z (filter (occ_of i) os)) by (rewrite E; now left). apply filter_In in I. destruct I as [I1 I2]. apply occ_which in I2. rewrite <- I2. now apply in_map.
  - destruct (occ_of i x) eqn:E; [|now apply IH]. exfalso. apply occ_which in E. apply Nx. rewrite E, <- W. now apply in_map.
Qed.
Lemma filter_none os i : (forall o, In o os -> which o <> Some i) -> filter (occ_of i) os = [].
Proof.
  intros H. destruct (filter (occ_of i) os) as [|z r] eqn:E; [reflexivity|]. assert (I : In z (filter (occ_of i) os)) by (rewrite E; now left). apply filter_In in I. destruct I as [I1 I2]. apply occ_which in I2. destruct (H z I1 I2).
Qed.
Lemma inputs_in os t : In (Input t) os <-> In t (inputs os).
Proof.
  unfold inputs. rewrite in_flat_map. split; [intros H; exists (Input t); split; [exact H|now left]|]. intros (o & H1 & H2). destruct o as [i v|i|u]; [destruct H2|destruct H2|]. destruct H2 as [->|[]]. exact H1.
Qed.
Lemma once_inputs os t : each_once os -> In (Input t) os -> inputs os = [t].
Proof.
  unfold each_once. intros N H. induction os as [|x os IH]; [destruct H|]. cbn [map] in N. inversion N as [|y l Nx Nr]; subst. destruct H as [->|H].
  - change (inputs (Input t :: os)) with (t :: inputs os). f_equal. destruct (inputs os) as [|u r] eqn:E; [reflexivity|]. exfalso. apply Nx. assert (I : In u (inputs os)) by (rewrite E; now left). apply inputs_in in I. now apply (in_map which) in I.
  - destruct x as [i v|i|u]; [apply IH; assumption..|]. exfalso. apply Nx. now apply (in_map which) in H.
Qed.
Lemma once_given os : (forall i, (length (filter (occ_of i) os) <= 1)%nat) -> (length (inputs os) <= 1)%nat -> each_once os.
Proof.
  unfold each_once. induction os as [|x os IH]; intros H1 H2; [constructor|]. cbn [map]. constructor.
  - intros I. apply in_map_iff in I. destruct I as (y & E & I). destruct (which x) as [i|] eqn:W.
    + specialize (H1 i). cbn [filter] in H1. rewrite (proj2 (occ_which i x) W) in H1. assert (Iy : In y (filter (occ_of i) os)) by (apply filter_In; split; [exact I|now apply occ_which]). destruct (filter (occ_of i) os); [destruct Iy|cbn in H1; lia].
    + destruct x as [i v|i|u]; [discriminate W..|]. destruct y as [i v|i|u']; [discriminate E..|]. apply inputs_in in I. change (inputs (Input u :: os)) with (u :: inputs os) in H2. destruct (inputs os); [destruct I|cbn in H2; lia].
  - apply IH.
    + intros i. specialize (H1 i). cbn [filter] in H1. destruct (occ_of i x); cbn [length] in H1; lia.
    + destruct x as [i v|i|u]; [exact H2..|]. change (inputs (Input u :: os)) with (u :: inputs os) in H2. cbn [length] in H2. lia.
Qed.
Lemma at_most_once_spec ds os : Forall (fits ds) os -> (at_most_once (length ds) os = true <-> forall i, (length (filter (occ_of i) os) <= 1)%nat).
Proof.
  intros F. unfold at_most_once. rewrite forallb_forall. split.
  - intros H i. destruct (Nat.lt_ge_cases i (length ds)) as [L|L]; [apply Nat.leb_le, H; apply in_seq; lia|]. rewrite filter_none; [cbn; lia|]. intros o I W. rewrite Forall_forall in F. specialize (F o I).
    destruct o as [j v|j|t]; cbn [which fits] in *; [assert (j = i) as -> by congruence; destruct F as (d & F & _); apply nth_error_None in L; congruence..|discriminate W].
  - intros H i _. apply Nat.leb_le, H.
Qed.
Lemma has_flag_spec ds os i d : Forall (fits ds) os -> nth_error ds i = Some d -> od_takes d = false -> (has_flag i os = true <-> In (Flag i) os).
Proof.
  intros F E T. unfold has_flag. rewrite existsb_exists. split.
  - intros (o & I & O). apply occ_which in O. rewrite Forall_forall in F. specialize (F o I). destruct o as [j v|j|t]; cbn [which fits] in *; [|assert (j = i) as -> by congruence; exact I|discriminate O].
    assert (j = i) as -> by congruence. destruct F as (d' & F1 & F2). congruence.
  - intros I. exists (Flag i). split; [exact I|]. cbn. apply Nat.eqb_refl.
Qed.
Lemma value_of_spec ds os i d : Forall (fits ds) os -> nth_error ds i = Some d -> od_takes d = true -> each_once os ->
  (forall v, value_of i os = Some v <-> In (Given i v) os).
Proof.
  intros F E T N v. unfold value_of. split.
  - destruct (filter (occ_of i) os) as [|x r] eqn:Ef; [discriminate|]. assert (I : In x (filter (occ_of i) os)) by (rewrite Ef; now left). apply filter_In in I. destruct I as [I1 I2]. apply occ_which in I2.
    destruct x as [j w|j|t]; [|discriminate..]. cbn in I2. intros H. assert (j = i) as -> by congruence. assert (w = v) as -> by congruence. exact I1.
  - intros I. rewrite (once_filter os i (Given i v) N I eq_refl). reflexivity.
Qed.
Lemma setting {A} ds os i d (f : text -> option A) (R : text -> A -> Prop) (dflt a : A) :
  Forall (fits ds) os -> nth_error ds i = Some d -> od_takes d = true -> each_once os -> (forall t x, f t = Some x <-> R t x) ->
  (with_default dflt f (value_of i os) = Some a <-> set_to os i R dflt a).
Proof.
  intros F E T N H. assert (V := value_of_spec ds os i d F E T N). unfold set_to, with_default. destruct (value_of i os) as [v|] eqn:Ev.
  - assert (I := proj1 (V v) eq_refl). rewrite H. split; [intros X; left; now exists v|]. intros [(w & W & X)|[W _]]; [|destruct (W v I)]. apply V in W. assert (w = v) as -> by congruence. exact X.
  - split; [intros X; right; split; [|congruence]|].
    + intros v W. apply V in W. discriminate W.
    + intros [(w & W & X)|[W ->]]; [apply V in W; discriminate W|reflexivity].
Qed.

Lemma ranged_spec n t z : 0 <= n < 2 ^ 63 -> (ranged (n + 1) t = Some z <-> number_to n t z).
Proof.
  intros Hn. unfold ranged, number_to. assert (P := fun z => parse_signed_of 10 dec_digit t z digit_dec). destruct (parse_signed 64 10 dec_digit t) as [y|] eqn:E.
  - destruct (proj1 (P y) eq_refl) as [P1 P2]. split.
    + destruct ((0 <=? y) && (y <? n + 1)) eqn:B; [|discriminate]. intros H. assert (y = z) as -> by congruence. split; [exact P2|lia].
    + intros [H1 H2]. assert (Some y = Some z) by (apply P; split; [lia|exact H1]). assert (y = z) as -> by congruence. replace ((0 <=? z) && (z <? n + 1)) with true by lia. reflexivity.
  - split; [discriminate|]. intros [H1 H2]. exfalso. assert (None = Some z) by (apply P; split; [lia|exact H1]). discriminate.
Qed.
Lemma compressor_named_spec t c : compressor_named t = Some c <-> compressor_text t c.
Proof.
  unfold compressor_named, compressor_text. cbn [In]. split.
  - intros X. repeat match type of X with (if text_eqb ?s ?n then _ else _) = _ => let H := fresh in destruct (text_eqb s n) eqn:H; [apply text_eqb_spec in H; injection X as <-; rewrite H; tauto|clear H] end. discriminate X.
  - intros H. repeat destruct H as [H|H]; try (assert (Et := f_equal fst H); assert (Ec := f_equal snd H); cbn [fst snd] in Et, Ec; subst t c; reflexivity). destruct H.
Qed.

(** * The two tools *)
Lemma atsc_same : atsc_decls = atsc_options. Proof. reflexivity. Qed.
Lemma csvc_same : csvc_decls = csvc_options. Proof. reflexivity. Qed.
Lemma atsc_table : table_ok atsc_options.
Proof.
  rewrite <- atsc_same. split; [|split; [|reflexivity]].
  - intros i d c H E. unfold atsc_decls in H. cbn [nth_error] in H.
    do 10 (destruct i as [|i]; [injection H as <-; cbv in E; (discriminate E || (injection E as <-; reflexivity))|cbn [nth_error] in H]). destruct i; discriminate H.
  - intros i d n H E. unfold atsc_decls in H. cbn [nth_error] in H.
    do 10 (destruct i as [|i]; [injection H as <-; cbn [od_long] in E; (discriminate E || (injection E as <-; split; [vm_compute; reflexivity|split; [vm_compute; intuition discriminate|discriminate]]))|cbn [nth_error] in H]). destruct i; discriminate H.
Qed.
Lemma csvc_table : table_ok csvc_options.
Proof.
  rewrite <- csvc_same. split; [|split; [|reflexivity]].
  - intros i d c H E. unfold csvc_decls in H. cbn [nth_error] in H.
    do 11 (destruct i as [|i]; [injection H as <-; cbv in E; (discriminate E || (injection E as <-; reflexivity))|cbn [nth_error] in H]). destruct i; discriminate H.
  - intros i d n H E. unfold csvc_decls in H. cbn [nth_error] in H.
    do 11 (destruct i as [|i]; [injection H as <-; cbn [od_long] in E; (discriminate E || (injection E as <-; split; [vm_compute; reflexivity|split; [vm_compute; intuition discriminate|discriminate]]))|cbn [nth_error] in H]). destruct i; discriminate H.
Qed.

Lemma flag_false ds os i d : Forall (fits ds) os -> nth_error ds i = Some d -> od_takes d = false -> (has_flag i os = false <-> ~ In (Flag i) os).
Proof. intros F E T. rewrite <- (has_flag_spec ds os i d F E T). destruct (has_flag i os); split; congruence. Qed.
Lemma once_iff ds os t : Forall (fits ds) os -> (at_most_once (length ds) os = true /\ inputs os = [t] <-> each_once os /\ In (Input t) os).
Proof.
  intros F. rewrite (at_most_once_spec ds os F). split.
  - intros [H1 H2]. split; [apply once_given; [exact H1|rewrite H2; cbn; lia]|]. apply inputs_in. rewrite H2. now left.
  - intros [H1 H2]. split; [|now apply once_inputs]. intros i. destruct (filter (occ_of i) os) as [|x r] eqn:E; [cbn; lia|].
    assert (I : In x (filter (occ_of i) os)) by (rewrite E; now left). apply filter_In in I. destruct I as [I1 I2]. apply occ_which in I2. rewrite (once_filter os i x H1 I1 I2) in E. rewrite <- E. cbn. lia.
Qed.
Lemma fields_spec (t x : text) : Some t = Some x <-> t = x.
Proof. split; congruence. Qed.

(** C80, atsc: accepted are exactly the command lines of the vocabulary, with exactly their meaning. *)
Theorem C80_atsc ws input a : atsc_parse ws = Some (input, a) <-> exists uses, atsc_means uses ws input a.
Proof.
  assert (E51 : forall t z, ranged 51 t = Some z <-> number_to 50 t z) by (intros; apply (ranged_spec 50); lia).
  assert (E7 : forall t z, ranged 7 t = Some z <-> number_to 6 t z) by (intros; apply (ranged_spec 6); lia).
  split.
  - unfold atsc_parse. rewrite atsc_same. destruct (parse_words atsc_options ws) as [os|] eqn:Ep; [|discriminate]. assert (L := parse_words_line atsc_options atsc_table (length ws) ws os (le_n _) Ep). assert (F := line_fits _ _ _ L).
    destruct (negb (at_most_once 10 os) || has_flag 8 os || has_flag 9 os) eqn:B; [discriminate|]. apply orb_false_elim in B. destruct B as [B B9]. apply orb_false_elim in B. destruct B as [B B8]. apply negb_false_iff in B.
    destruct (inputs os) as [|t [|t2 ts]] eqn:Ei; [discriminate| |discriminate].
    assert (N : each_once os /\ In (Input t) os) by (apply (once_iff atsc_options); auto). destruct N as [N Ni].
    destruct (with_default Auto compressor_named (value_of 0 os)) as [c|] eqn:E0; [|discriminate]. destruct (with_default 3 (ranged 51) (value_of 1 os)) as [e|] eqn:E1; [|discriminate]. destruct (with_default 0 (ranged 7) (value_of 3 os)) as [l|] eqn:E3; [|discriminate].
    destruct t as [|t0 t]; [discriminate|]. intros H. injection H as <- <-. exists os. constructor; cbn [a_compressor a_error a_level a_uncompress a_csv a_no_header a_fields].
    + exact L.
    + exact N.
    + split; [apply (flag_false atsc_options os 8 _ F eq_refl eq_refl), B8|apply (flag_false atsc_options os 9 _ F eq_refl eq_refl), B9].
    + split; [exact Ni|discriminate].
    + apply (setting atsc_options os 0 _ compressor_named compressor_text Auto c F eq_refl eq_refl N compressor_named_spec). exact E0.
    + apply (setting atsc_options os 1 _ (ranged 51) (number_to 50) 3 e F eq_refl eq_refl N E51). exact E1.
    + apply (setting atsc_options os 3 _ (ranged 7) (number_to 6) 0 l F eq_refl eq_refl N E7). exact E3.
    + apply (setting atsc_options os 7 _ Some eq (txt "time,value") _ F eq_refl eq_refl N fields_spec). unfold with_default. destruct (value_of 7 os); reflexivity.
    + exact (has_flag_spec atsc_options os 2 _ F eq_refl eq_refl).
    + exact (has_flag_spec atsc_options os 5 _ F eq_refl eq_refl).
    + exact (has_flag_spec atsc_options os 6 _ F eq_refl eq_refl).
  - intros [os [L N [R8 R9] [Ni Nn] M0 M1 M3 M7 F2 F5 F6]]. assert (F := line_fits _ _ _ L). unfold atsc_parse. rewrite atsc_same. rewrite (line_parse_words atsc_options atsc_table os ws L).
    destruct (proj2 (once_iff atsc_options os input F) (conj N Ni)) as [B Ei]. change (length atsc_options) with 10%nat in B. rewrite B, (proj2 (flag_false atsc_options os 8 _ F eq_refl eq_refl) R8), (proj2 (flag_false atsc_options os 9 _ F eq_refl eq_refl) R9), Ei. cbn [negb orb].
    rewrite (proj2 (setting atsc_options os 0 _ compressor_named compressor_text Auto _ F eq_refl eq_refl N compressor_named_spec) M0).
    rewrite (proj2 (setting atsc_options os 1 _ (ranged 51) (number_to 50) 3 _ F eq_refl eq_refl N E51) M1).
    rewrite (proj2 (setting atsc_options os 3 _ (ranged 7) (number_to 6) 0 _ F eq_refl eq_refl N E7) M3).
    destruct input as [|i0 input]; [congruence|]. f_equal. f_equal. apply (setting atsc_options os 7 _ Some eq (txt "time,value") _ F eq_refl eq_refl N fields_spec) in M7. unfold with_default in M7.
    destruct a as [c e l u cv nh f]. cbn [a_compressor a_error a_level a_uncompress a_csv a_no_header a_fields] in *.
    assert (Bool : forall b i d, nth_error atsc_options i = Some d -> od_takes d = false -> (b = true <-> In (Flag i) os) -> has_flag i os = b).
    { intros b i d E T X. rewrite <- (has_flag_spec atsc_options os i d F E T) in X. destruct b, (has_flag i os); intuition congruence. }
    f_equal; [eapply (Bool u 2%nat)|eapply (Bool cv 5%nat)|eapply (Bool nh 6%nat)|destruct (value_of 7 os); congruence]; try reflexivity; assumption.
Qed.
Print Assumptions C80_atsc.

Lemma path_value_spec t o : path_value t = Some o <-> t <> [] /\ o = Some t.
Proof. destruct t as [|c t]; cbn [path_value]; split; [discriminate|intros [H _]; congruence|intros H; split; [discriminate|congruence]|intros [_ ->]; reflexivity]. Qed.
Lemma csvc_compressor_named_spec t k : csvc_compressor_named t = Some k <-> compressor_text t k /\ k <> RLE.
Proof.
  unfold csvc_compressor_named. rewrite <- compressor_named_spec. destruct (text_eqb t (txt "rle")) eqn:E.
  - apply text_eqb_spec in E. subst t. split; [discriminate|]. intros [H N]. exfalso. apply N. change (compressor_named (txt "rle")) with (Some RLE) in H. congruence.
  - split; [|intros [H _]; exact H]. intros H. split; [exact H|]. intros ->. apply compressor_named_spec in H. unfold compressor_text in H. cbn [In] in H.
    repeat destruct H as [H|H]; try (assert (Ec := f_equal snd H); cbn [snd] in Ec; discriminate Ec); [|exact H]. assert (Et := f_equal fst H). cbn [fst] in Et. rewrite <- Et, (proj2 (text_eqb_spec _ _) eq_refl) in E. discriminate E.
Qed.

(** C80, csv-compressor. *)
Theorem C80_csvc ws c : csvc_parse ws = Some c <-> exists uses, csvc_means uses ws c.
Proof.
  assert (E51 : forall t z, ranged 51 t = Some z <-> number_to 50 t z) by (intros; apply (ranged_spec 50); lia).
  assert (E7 : forall t z, ranged 7 t = Some z <-> number_to 6 t z) by (intros; apply (ranged_spec 6); lia).
  split.
  - unfold csvc_parse. rewrite csvc_same. destruct (parse_words csvc_options ws) as [os|] eqn:Ep; [|discriminate]. assert (L := parse_words_line csvc_options csvc_table (length ws) ws os (le_n _) Ep). assert (F := line_fits _ _ _ L).
    destruct (negb (at_most_once 11 os) || has_flag 9 os || has_flag 10 os) eqn:B; [discriminate|]. apply orb_false_elim in B. destruct B as [B B9]. apply orb_false_elim in B. destruct B as [B B8]. apply negb_false_iff in B.
    destruct (inputs os) as [|t [|t2 ts]] eqn:Ei; [discriminate| |discriminate].
    assert (N : each_once os /\ In (Input t) os) by (apply (once_iff csvc_options); auto). destruct N as [N Ni].
    destruct (with_default None path_value (value_of 0 os)) as [o|] eqn:E0; [|discriminate]. destruct (with_default Auto csvc_compressor_named (value_of 6 os)) as [k|] eqn:E1; [|discriminate].
    destruct (with_default 5 (ranged 51) (value_of 7 os)) as [e|] eqn:E2; [|discriminate]. destruct (with_default 0 (ranged 7) (value_of 8 os)) as [l|] eqn:E3; [|discriminate].
    destruct t as [|t0 t]; [discriminate|]. intros H. injection H as <-. exists os. constructor; cbn [c_input c_output c_uncompress c_no_compression c_output_vsri c_output_wavbrro c_compressor c_error c_level].
    + exact L.
    + exact N.
    + split; [apply (flag_false csvc_options os 9 _ F eq_refl eq_refl), B8|apply (flag_false csvc_options os 10 _ F eq_refl eq_refl), B9].
    + split; [exact Ni|discriminate].
    + apply (setting csvc_options os 0 _ path_value _ None o F eq_refl eq_refl N path_value_spec). exact E0.
    + apply (setting csvc_options os 6 _ csvc_compressor_named _ Auto k F eq_refl eq_refl N csvc_compressor_named_spec). exact E1.
    + apply (setting csvc_options os 7 _ (ranged 51) (number_to 50) 5 e F eq_refl eq_refl N E51). exact E2.
    + apply (setting csvc_options os 8 _ (ranged 7) (number_to 6) 0 l F eq_refl eq_refl N E7). exact E3.
    + exact (has_flag_spec csvc_options os 1 _ F eq_refl eq_refl).
    + exact (has_flag_spec csvc_options os 2 _ F eq_refl eq_refl).
    + exact (has_flag_spec csvc_options os 3 _ F eq_refl eq_refl).
    + exact (has_flag_spec csvc_options os 4 _ F eq_refl eq_refl).
  - intros [os [L N [R8 R9] [Ni Nn] M0 M6 M7 M8 F1 F2 F3 F4]]. assert (F := line_fits _ _ _ L). unfold csvc_parse. rewrite csvc_same. rewrite (line_parse_words csvc_options csvc_table os ws L).
    destruct (proj2 (once_iff csvc_options os (c_input c) F) (conj N Ni)) as [B Ei]. change (length csvc_options) with 11%nat in B. rewrite B, (proj2 (flag_false csvc_options os 9 _ F eq_refl eq_refl) R8), (proj2 (flag_false csvc_options os 10 _ F eq_refl eq_refl) R9), Ei. cbn [negb orb].
    rewrite (proj2 (setting csvc_options os 0 _ path_value _ None _ F eq_refl eq_refl N path_value_spec) M0).
    rewrite (proj2 (setting csvc_options os 6 _ csvc_compressor_named _ Auto _ F eq_refl eq_refl N csvc_compressor_named_spec) M6).
    rewrite (proj2 (setting csvc_options os 7 _ (ranged 51) (number_to 50) 5 _ F eq_refl eq_refl N E51) M7).
    rewrite (proj2 (setting csvc_options os 8 _ (ranged 7) (number_to 6) 0 _ F eq_refl eq_refl N E7) M8).
    destruct c as [input o u nc vs wb k e l]. cbn [c_input c_output c_uncompress c_no_compression c_output_vsri c_output_wavbrro c_compressor c_error c_level] in *. destruct input as [|i0 input]; [congruence|]. f_equal.
    assert (Bool : forall b i d, nth_error csvc_options i = Some d -> od_takes d = false -> (b = true <-> In (Flag i) os) -> has_flag i os = b).
    { intros b i d E T X. rewrite <- (has_flag_spec csvc_options os i d F E T) in X. destruct b, (has_flag i os); intuition congruence. }
    f_equal; [eapply (Bool u 1%nat)|eapply (Bool nc 2%nat)|eapply (Bool vs 3%nat)|eapply (Bool wb 4%nat)]; try reflexivity; assumption.
Qed.
Print Assumptions C80_csvc.

(** So every accepted command line is within the limits the other properties ask for. *)
Theorem C80_limits ws :
  (forall input a, atsc_parse ws = Some (input, a) -> accepted_args a) /\ (forall c, csvc_parse ws = Some c -> csvc_accepted c /\ c_compressor c <> RLE).
Proof.
  split.
  - intros input a H. apply C80_atsc in H. destruct H as [os M]. split.
    + destruct (am_error _ _ _ _ M) as [(v & _ & _ & H)|[_ ->]]; lia.
    + destruct (am_level _ _ _ _ M) as [(v & _ & _ & H)|[_ ->]]; lia.
  - intros c H. apply C80_csvc in H. destruct H as [os M]. split; [split|].
    + destruct (cm_error _ _ _ M) as [(v & _ & _ & H)|[_ ->]]; lia.
    + destruct (cm_level _ _ _ M) as [(v & _ & _ & H)|[_ ->]]; lia.
    + destruct (cm_compressor _ _ _ M) as [(v & _ & _ & H)|[_ ->]]; [exact H|discriminate].
Qed.
Print Assumptions C80_limits.

(** Two command lines with the same uses, in any order and in any spelling, mean the same. *)
Lemma set_to_perm {A} os os' i (R : text -> A -> Prop) d a : (forall o : occurrence, In o os <-> In o os') -> set_to os i R d a -> set_to os' i R d a.
Proof. intros P [(v & H & X)|[H ->]]; [left; exists v; split; [now apply P|exact X]|right; split; [|reflexivity]]. intros v I. apply (H v). now apply P. Qed.
Theorem C80_order uses uses' ws ws' : Permutation uses uses' ->
  (line atsc_options uses ws -> line atsc_options uses' ws' -> atsc_parse ws = atsc_parse ws') /\
  (line csvc_options uses ws -> line csvc_options uses' ws' -> csvc_parse ws = csvc_parse ws').
Proof.
  intros P.
  assert (A : forall os os' ws ws' input a, Permutation os os' -> line atsc_options os ws -> line atsc_options os' ws' -> atsc_parse ws = Some (input, a) -> atsc_parse ws' = Some (input, a)).
  { clear. intros os os' ws ws' input a P L L' H. apply C80_atsc in H. destruct H as [os1 M]. assert (os1 = os) as ->.
    { assert (X := line_parse_words _ atsc_table _ _ L). assert (Y := line_parse_words _ atsc_table _ _ (am_line _ _ _ _ M)). congruence. }
    assert (Q : forall o, In o os <-> In o os') by (intros o; split; apply Permutation_in; [exact P|now apply Permutation_sym]). apply C80_atsc. exists os'. destruct M as [M1 M2 [M3 M4] [M5 M6] M7 M8 M9 M10 M11 M12 M13].
    constructor; [exact L'|unfold each_once in *; eapply Permutation_NoDup; [apply Permutation_map, P|exact M2]|rewrite <- !Q; split; assumption|rewrite <- Q; split; assumption|eapply set_to_perm; eassumption..|rewrite <- Q; assumption|rewrite <- Q; assumption|rewrite <- Q; assumption]. }
  assert (C : forall os os' ws ws' c, Permutation os os' -> line csvc_options os ws -> line csvc_options os' ws' -> csvc_parse ws = Some c -> csvc_parse ws' = Some c).
  { clear. intros os os' ws ws' c P L L' H. apply C80_csvc in H. destruct H as [os1 M]. assert (os1 = os) as ->.
    { assert (X := line_parse_words _ csvc_table _ _ L). assert (Y := line_parse_words _ csvc_table _ _ (cm_line _ _ _ M)). congruence. }
    assert (Q : forall o, In o os <-> In o os') by (intros o; split; apply Permutation_in; [exact P|now apply Permutation_sym]). apply C80_csvc. exists os'. destruct M as [M1 M2 [M3 M4] [M5 M6] M7 M8 M9 M10 M11 M12 M13 M14].
    constructor; [exact L'|unfold each_once in *; eapply Permutation_NoDup; [apply Permutation_map, P|exact M2]|rewrite <- !Q; split; assumption|rewrite <- Q; split; assumption|eapply set_to_perm; eassumption..|rewrite <- Q; assumption|rewrite <- Q; assumption|rewrite <- Q; assumption|rewrite <- Q; assumption]. }
  split; intros L L'.
  - destruct (atsc_parse ws) as [[input a]|] eqn:E; [symmetry; exact (A _ _ _ _ _ _ P L L' E)|]. destruct (atsc_parse ws') as [[input a]|] eqn:E'; [|reflexivity]. rewrite (A _ _ _ _ _ _ (Permutation_sym P) L' L E') in E. discriminate E.
  - destruct (csvc_parse ws) as [c|] eqn:E; [symmetry; exact (C _ _ _ _ _ P L L' E)|]. destruct (csvc_parse ws') as [c|] eqn:E'; [|reflexivity]. rewrite (C _ _ _ _ _ (Permutation_sym P) L' L E') in E. discriminate E.
Qed.
Print Assumptions C80_order.

(** A file name alone: the defaults. Refused: nothing, two inputs, an option twice, any other word starting with a dash. *)
Theorem C80_defaults input : input <> [] -> undashed input ->
  atsc_parse [input] = Some (input, {| a_compressor := Auto; a_error := 3; a_level := 0; a_uncompress := false; a_csv := false; a_no_header := false; a_fields := txt "time,value" |}) /\
  csvc_parse [input] = Some {| c_input := input; c_output := None; c_uncompress := false; c_no_compression := false; c_output_vsri := false; c_output_wavbrro := false;
                               c_compressor := Auto; c_error := 5; c_level := 0 |}.
Proof.
  intros N U. assert (N1 : each_once [Input input]) by (repeat constructor; intros []).
  assert (S0 : forall A i (R : text -> A -> Prop) d, set_to [Input input] i R d d) by (intros; right; split; [intros v [H|[]]; discriminate H|reflexivity]).
  assert (F0 : forall i, ~ In (Flag i) [Input input]) by (intros i [H|[]]; discriminate H).
  assert (B0 : forall i, false = true <-> In (Flag i) [Input input]) by (intros i; split; [discriminate|intros H; destruct (F0 i H)]).
  assert (L : forall ds, line ds [Input input] [input]) by (intros ds; apply line_input; [exact U|constructor]).
  split; [apply C80_atsc|apply C80_csvc]; exists [Input input]; constructor; cbn [a_compressor a_error a_level a_uncompress a_csv a_no_header a_fields c_input c_output c_uncompress c_no_compression c_output_vsri c_output_wavbrro c_compressor c_error c_level];
    auto; split; auto; now left.
Qed.
Print Assumptions C80_defaults.

(** [atsc -u --csv -e7 data.csv --fields t,v] and [csv-compressor -uc 2 --output=out --error 0 -- -in]. *)
Example C80_applies :
  (exists uses, line atsc_options uses [txt "-u"; txt "--csv"; txt "-e7"; txt "data.csv"; txt "--fields"; txt "t,v"] /\ Permutation uses [Input (txt "data.csv"); Given 7 (txt "t,v"); Given 1 (txt "7"); Flag 2; Flag 5]) /\
  atsc_parse [txt "-u"; txt "--csv"; txt "-e7"; txt "data.csv"; txt "--fields"; txt "t,v"] =
    Some (txt "data.csv", {| a_compressor := Auto; a_error := 7; a_level := 0; a_uncompress := true; a_csv := true; a_no_header := false; a_fields := txt "t,v" |}) /\
  csvc_parse [txt "-uc"; txt "2"; txt "--output=out"; txt "--error"; txt "0"; txt "--"; txt "-in"] =
    Some {| c_input := txt "-in"; c_output := Some (txt "out"); c_uncompress := true; c_no_compression := false; c_output_vsri := false; c_output_wavbrro := false;
            c_compressor := Auto; c_error := 0; c_level := 2 |} /\
  map (fun l => atsc_parse (map txt l))
    [[]; ["a"; "b"]; ["a"; "-e"; "51"]; ["a"; "-e"; "-1"]; ["a"; "--error"]; ["a"; "--err"; "5"]; ["a"; "-u"; "-u"]; ["a"; "-c7"]; ["a"; "--csv=yes"];
     ["a"; "--compressor=FFT"]; ["a"; "--uncompress"]; ["a"; "-h"]; ["a"; "--output"; "b"]]%string = repeat None 13 /\
  csvc_parse [txt "a"; txt "--compressor"; txt "rle"] = None /\ (exists a, atsc_parse [txt "a"; txt "--compressor"; txt "rle"] = Some (txt "a", a) /\ a_compressor a = RLE).
Proof.
  split.
  - exists [Flag 2; Flag 5; Given 1 (txt "7"); Input (txt "data.csv"); Given 7 (txt "t,v")]. split; [apply (parse_words_line atsc_options atsc_table 6); [cbn; lia|vm_compute; reflexivity]|].
    apply (NoDup_Permutation_bis); [repeat constructor; cbn; intuition discriminate|cbn; lia|intros o; cbn [In]; tauto].
  - do 4 (split; [vm_compute; reflexivity|]). eexists. split; [vm_compute; reflexivity|reflexivity].
Qed.
