(** C71: a CSV file is read as the table it shows, however its fields are quoted and its lines ended. *)
From Coq Require Import List ZArith Bool Lia ZifyBool.
From Verif Require Import Base Model_Float Model_Vsri TextFacts Model_Utf8 Spec_Utf8 Utf8Facts Model_Csv Spec_Csv Spec_CsvTable CsvFacts Props_Csv.
Import ListNotations.
Open Scope Z_scope.

(** * Rows *)
Definition ended (st : csv_state) : Prop := st = InField \/ st = StartField \/ st = QuoteInQuoted.
Lemma run_doubled f : forall acc rec rest, csv_run InQuoted acc rec (doubled f ++ rest) = csv_run InQuoted (acc ++ f) rec rest.
Proof.
  induction f as [|c f IH]; intros acc rec rest; [now rewrite app_nil_r|]. unfold doubled. cbn [flat_map]. fold (doubled f). destruct (Z.eqb_spec c 34) as [-> |H].
  - cbn [app csv_run]. change (34 =? ch_quote) with true. cbn match. rewrite IH, <- app_assoc. reflexivity.
  - cbn [app csv_run]. replace (c =? ch_quote) with false by (unfold ch_quote; lia). cbn match. rewrite IH, <- app_assoc. reflexivity.
Qed.
Lemma unquoted_char c : c <> 44 /\ c <> 34 /\ c <> 10 /\ c <> 13 -> (c =? ch_quote) = false /\ (c =? ch_comma) = false /\ is_term c = false.
Proof. intros H. unfold ch_quote, ch_comma, is_term, ch_nl, ch_cr. repeat split; lia. Qed.
Lemma plain_unquoted f : plain f -> unquoted f.
Proof. intros H. eapply Forall_impl; [|exact H]. cbn. intros c Hc. lia. Qed.
Lemma run_unquoted f : forall acc rec rest, unquoted f -> csv_run InField acc rec (f ++ rest) = csv_run InField (acc ++ f) rec rest.
Proof.
  induction f as [|c f IH]; intros acc rec rest H; [now rewrite app_nil_r|]. inversion H as [|? ? Hc Hf]; subst. destruct (unquoted_char c Hc) as (H1 & H2 & H3).
  cbn [app csv_run]. rewrite H2, H3, IH by exact Hf. now rewrite <- app_assoc.
Qed.
Lemma run_any_field f t rec rest : field_text f t -> (forall c r, rest = c :: r -> c = 44 \/ c = 10 \/ c = 13) -> exists st, ended st /\ csv_run StartField [] rec (t ++ rest) = csv_run st f rec rest.
Proof.
  intros [(Hp & ->)| ->] Hr.
  - destruct f as [|c f]; [exists StartField; split; [unfold ended; auto|reflexivity]|]. exists InField. split; [unfold ended; auto|].
    inversion Hp as [|? ? Hc Hf]; subst. destruct (unquoted_char c Hc) as (H1 & H2 & H3). cbn [app csv_run]. rewrite H1, H2, H3. now rewrite run_unquoted.
  - exists QuoteInQuoted. split; [unfold ended; auto|]. rewrite <- !app_assoc. cbn [app csv_run]. change (34 =? ch_quote) with true. cbn match. rewrite run_doubled. reflexivity.
Qed.
Lemma ended_comma st f rec rest : ended st -> csv_run st f rec (44 :: rest) = csv_run StartField [] (rec ++ [f]) rest.
Proof. intros [-> | [-> | ->]]; reflexivity. Qed.
Lemma ended_line st f rec c rest : ended st -> c = 10 \/ c = 13 -> csv_run st f rec (c :: rest) = (rec ++ [f]) :: csv_run StartRecord [] [] rest.
Proof. intros [-> | [-> | ->]] [-> | ->]; reflexivity. Qed.
Lemma ended_eof st f rec : ended st -> csv_run st f rec [] = [rec ++ [f]].
Proof. intros [-> | [-> | ->]]; reflexivity. Qed.

Lemma run_any_row r u : row_of r u -> forall rec,
  (forall c rest, c = 10 \/ c = 13 -> csv_run StartField [] rec (u ++ c :: rest) = (rec ++ r) :: csv_run StartRecord [] [] rest) /\
  csv_run StartField [] rec u = [rec ++ r].
Proof.
  induction 1 as [f t Hf|f t r u Hf Hr IH]; intros rec.
  - split; [intros c rest Hc|].
    + destruct (run_any_field f t rec (c :: rest) Hf) as (st & Hs & ->); [intros c' r' E; assert (c' = c) by congruence; lia|]. now apply ended_line.
    + rewrite <- (app_nil_r t). destruct (run_any_field f t rec [] Hf) as (st & Hs & ->); [intros c r' E; discriminate E|]. now apply ended_eof.
  - assert (C : forall rest, csv_run StartField [] rec ((t ++ [44] ++ u) ++ rest) = csv_run StartField [] (rec ++ [f]) (u ++ rest)).
    { intros rest. rewrite <- !app_assoc. destruct (run_any_field f t rec ([44] ++ u ++ rest) Hf) as (st & Hs & ->); [intros c r' E; cbn in E; assert (c = 44) by congruence; lia|]. cbn [app]. now apply ended_comma. }
    destruct (IH (rec ++ [f])) as [I1 I2]. split.
    + intros c rest Hc. rewrite C, I1 by exact Hc. now rewrite <- app_assoc.
    + rewrite <- (app_nil_r (t ++ [44] ++ u)), C, app_nil_r, I2. now rewrite <- app_assoc.
Qed.

(** A row's text starts with no line end. *)
Lemma any_row_head r u : row_of r u -> u <> [] -> exists c t, u = c :: t /\ is_term c = false.
Proof.
  assert (F : forall f t, field_text f t -> t <> [] -> exists c r, t = c :: r /\ is_term c = false).
  { intros f t [(Hp & ->)| ->] Hn; [|exists 34; eexists; split; reflexivity].
    destruct f as [|c f]; [congruence|]. inversion Hp as [|? ? Hc _]; subst. exists c, f. split; [reflexivity|]. now apply unquoted_char. }
  intros H Hn. destruct H as [f t Hf|f t r u Hf Hr]; [now apply (F f t)|]. destruct t as [|c t].
  - exists 44, u. split; reflexivity.
  - destruct (F f (c :: t) Hf ltac:(discriminate)) as (c' & t' & E & E2). exists c', (t' ++ [44] ++ u). split; [rewrite E; reflexivity|exact E2].
Qed.
Lemma start_any r u rest : row_of r u -> u <> [] -> csv_run StartRecord [] [] (u ++ rest) = csv_run StartField [] [] (u ++ rest).
Proof. intros H Hn. destruct (any_row_head r u H Hn) as (c & t & -> & T). cbn [app csv_run]. now rewrite T. Qed.

(** *** A table's text is read as that table *)
Lemma run_any_table rows t : table_of rows t -> csv_run StartRecord [] [] t = rows.
Proof.
  induction 1 as [|c rows t Hc H IH|r u c rows t Hr Hn Hc H IH|r u Hr Hn].
  - reflexivity.
  - destruct Hc as [-> | ->]; exact IH.
  - rewrite (start_any r) by assumption. rewrite (proj1 (run_any_row r u Hr []) c t Hc), IH. reflexivity.
  - rewrite <- (app_nil_r u), (start_any r), app_nil_r by assumption. exact (proj2 (run_any_row r u Hr [])).
Qed.
Lemma strip_no_mark t : no_mark t -> strip_bom t = t.
Proof.
  intros H. unfold strip_bom. destruct t as [|a [|b [|c r]]]; try reflexivity. destruct ((a =? 239) && (b =? 187) && (c =? 191)) eqn:G; [|reflexivity]. exfalso. apply (H r). cbn [app]. repeat f_equal; lia.
Qed.
Lemma any_records rows t : table_of rows t -> no_mark t -> csv_records t = rows.
Proof. intros H Hn. unfold csv_records. rewrite strip_no_mark by exact Hn. now apply run_any_table. Qed.

(** The readers see only the table: all its texts read alike, with both readers of the library and csv-compressor's. *)
Theorem C71_same_table : forall nt rows t u ts_field value_field, table_of rows t -> table_of rows u -> no_mark t -> no_mark u ->
  read_samples_with_headers nt (Some t) ts_field value_field = read_samples_with_headers nt (Some u) ts_field value_field /\
  read_samples nt (Some t) = read_samples nt (Some u) /\
  read_samples_from_csv_file nt (Some t) = read_samples_from_csv_file nt (Some u).
Proof.
  intros nt rows t u tf vf Ht Hu Nt Nu. unfold read_samples_with_headers, read_samples, read_samples_from_csv_file. rewrite (any_records rows t Ht Nt), (any_records rows u Hu Nu).
  split; [reflexivity|]. split; reflexivity.
Qed.
Print Assumptions C71_same_table.

(** The unquoted texts of C42 and C48 are among them. *)
Lemma row_text_of r : r <> [] -> Forall plain r -> row_of r (row_text r).
Proof.
  induction r as [|f r IH]; intros Hn Hp; [congruence|]. inversion Hp as [|? ? Hf Hr]; subst. destruct r as [|g r]; [apply row_one; left; split; [now apply plain_unquoted|reflexivity]|].
  change (row_text (f :: g :: r)) with (f ++ [44] ++ row_text (g :: r)). apply row_more; [left; split; [now apply plain_unquoted|reflexivity]|]. apply IH; [discriminate|exact Hr].
Qed.
Theorem C71_plain_tables : forall rows t, Forall row_ok rows -> file_of rows t -> table_of rows t /\ no_mark t.
Proof.
  intros rows t H F. split; cycle 1.
  { intros r E. destruct F as (eol & last_eol & He & Hl & ->). destruct rows as [|r0 rows]; [discriminate E|]. inversion H as [|? ? Hr _]; subst. destruct (row_head r0 Hr) as (c & s & Ec & _ & L).
    destruct rows as [|r2 rows]; cbn [table_text] in E; rewrite Ec in E; cbn [app] in E; (assert (c = 239) by congruence; lia). }
  destruct F as (eol & last_eol & He & Hl & ->).
  assert (E : forall r us u, row_of r u -> u <> [] -> table_of us [] \/ us <> [] -> forall t, table_of us t -> table_of (r :: us) (u ++ eol ++ t)).
  { intros r us u Hr Hn _ t Ht. destruct He as [-> | [-> | ->]]; cbn [app]; apply table_row; auto. apply table_blank; auto. }
  induction H as [|r rows Hr Hrs IH]; [constructor|].
  assert (Ne : row_text r <> []) by (destruct (row_head r Hr) as (c & s & -> & _); discriminate).
  assert (Ro : row_of r (row_text r)) by (destruct Hr as (H1 & _ & H3); now apply row_text_of).
  destruct rows as [|r2 rows].
  - cbn [table_text]. destruct Hl as [-> | ->]; [|rewrite app_nil_r; now apply table_last].
    rewrite <- (app_nil_r eol). apply E; auto; constructor || (left; constructor).
  - change (table_text eol last_eol (r :: r2 :: rows)) with (row_text r ++ eol ++ table_text eol last_eol (r2 :: rows)). apply E; auto. right. discriminate.
Qed.
Print Assumptions C71_plain_tables.

(** * Integers *)
Lemma digit_dec c d : dec_digit c = Some d <-> digit_of 10 c d.
Proof. unfold dec_digit, is_digit, digit_of. destruct (_ && _) eqn:E; split; intros H; try (injection H; intros); try discriminate H; try (f_equal); lia. Qed.
Lemma digit_hex c d : hex_digit c = Some d <-> digit_of 16 c d.
Proof.
  unfold hex_digit, is_digit, digit_of. destruct ((48 <=? c) && _) eqn:E; [|destruct ((97 <=? c) && _) eqn:E2; [|destruct ((65 <=? c) && _) eqn:E3]];
  split; intros H; try (injection H; intros); try discriminate H; try (f_equal); lia.
Qed.
Lemma parse_radix_snoc radix dig t c : forall acc, parse_radix radix dig (t ++ [c]) acc =
  match parse_radix radix dig t acc with Some v => match dig c with Some d => Some (v * radix + d) | None => None end | None => None end.
Proof. induction t as [|x t IH]; intros acc; cbn [app parse_radix]; [reflexivity|]. destruct (dig x); [apply IH|reflexivity]. Qed.
Lemma parse_radix_of radix dig t v : (forall c d, dig c = Some d <-> digit_of radix c d) -> t <> [] -> (parse_radix radix dig t 0 = Some v <-> digits_of radix t v).
Proof.
  intros Hd Hn. split.
  - revert v Hn. induction t as [|c t IH] using rev_ind; intros v Hn H; [congruence|]. rewrite parse_radix_snoc in H. destruct t as [|c0 t].
    + cbn in H. destruct (dig c) as [d|] eqn:E; [|discriminate H]. assert (v = d) by (injection H; lia). subst. apply digits_one. now apply Hd.
    + destruct (parse_radix radix dig (c0 :: t) 0) as [w|] eqn:E; [|discriminate H]. destruct (dig c) as [d|] eqn:E2; [|discriminate H]. assert (v = w * radix + d) by congruence. subst v.
      apply digits_more; [apply IH; [discriminate|reflexivity]|now apply Hd].
  - intros H. clear Hn. induction H as [c d H|t v c d H IH H2].
    + cbn. apply Hd in H. rewrite H. reflexivity.
    + rewrite parse_radix_snoc, IH. apply Hd in H2. now rewrite H2.
Qed.
Lemma digits_not_empty base t v : digits_of base t v -> t <> [].
Proof. destruct 1; [discriminate|destruct t; discriminate]. Qed.
Lemma digits_no_sign base t v : digits_of base t v -> match t with c :: _ => (c =? ch_minus) || (c =? ch_plus) = false | [] => True end.
Proof.
  intros H. assert (G : match t with c :: _ => exists d, digit_of base c d | [] => False end).
  { induction H as [c d H|t v c d H IH H2]; [now exists d|]. destruct t as [|x t]; [destruct IH|exact IH]. }
  destruct t as [|c t]; [exact I|]. destruct G as [d G]. unfold digit_of, ch_minus, ch_plus in *. lia.
Qed.
Lemma parse_signed_of radix dig t z : (forall c d, dig c = Some d <-> digit_of radix c d) ->
  (parse_signed 64 radix dig t = Some z <-> - 2 ^ 63 <= z < 2 ^ 63 /\ signed_text radix t z).
Proof.
  intros Hd. assert (Chk : forall v w, (if in_sb 64 v then Some v else None) = Some w <-> w = v /\ - 2 ^ 63 <= w < 2 ^ 63).
  { intros v w. unfold in_sb. change (64 - 1) with 63. destruct (_ && _) eqn:E; split; intros H; try discriminate H; [assert (v = w) by congruence; lia|f_equal; lia|lia]. }
  unfold parse_signed. destruct t as [|c r].
  { split; [discriminate|]. intros [_ [H|[(u & H & _)|(u & v & H & _)]]]; [destruct (digits_not_empty _ _ _ H eq_refl)|discriminate H|discriminate H]. }
  destruct ((c =? ch_minus) || (c =? ch_plus)) eqn:E.
  - assert (Not : forall v, ~ digits_of radix (c :: r) v) by (intros v H; apply digits_no_sign in H; congruence).
    destruct r as [|c2 r].
    { split; [discriminate|]. intros [_ [H|[(u & H & H2)|(u & v & H & H2 & _)]]]; [destruct (Not _ H)| |]; assert (u = []) by congruence; subst; destruct (digits_not_empty _ _ _ H2 eq_refl). }
    assert (P := fun v => parse_radix_of radix dig (c2 :: r) v Hd ltac:(discriminate)).
    split.
    + destruct (parse_radix radix dig (c2 :: r) 0) as [v|] eqn:Ev; [|discriminate]. intros H. apply Chk in H. destruct H as [-> H]. split; [exact H|]. specialize (P v). apply proj1 in P. specialize (P eq_refl).
      destruct (Z.eqb_spec c ch_minus) as [-> |N]; [right; right; exists (c2 :: r), v; auto|right; left; exists (c2 :: r)]. split; [f_equal; unfold ch_plus, ch_minus in *; lia|exact P].
    + intros [H [H1|[(u & H1 & H2)|(u & v & H1 & H2 & ->)]]]; [destruct (Not _ H1)| |]; assert (u = c2 :: r) by congruence; subst u; apply P in H2; rewrite H2; apply Chk.
      * replace (c =? ch_minus) with false; [auto|]. assert (c = 43) by congruence. subst. reflexivity.
      * replace (c =? ch_minus) with true; [auto|]. assert (c = 45) by congruence. subst. reflexivity.
  - assert (P := fun v => parse_radix_of radix dig (c :: r) v Hd ltac:(discriminate)). split.
    + destruct (parse_radix radix dig (c :: r) 0) as [v|] eqn:Ev; [|discriminate]. intros H. apply Chk in H. destruct H as [-> H]. split; [exact H|]. left. now apply P.
    + intros [H [H1|[(u & H1 & H2)|(u & v & H1 & H2 & _)]]].
      * apply P in H1. rewrite H1. apply Chk. auto.
      * assert (c = 43) by congruence. subst. discriminate E.
      * assert (c = 45) by congruence. subst. discriminate E.
Qed.
Lemma parse_i64_of t z : parse_i64 t = Some z <-> int_text t z.
Proof.
  unfold int_text. assert (D := fun s => parse_signed_of 10 dec_digit s z digit_dec). assert (X := fun s => parse_signed_of 16 hex_digit s z digit_hex).
  assert (NoX : forall r w, ~ signed_text 10 (48 :: 120 :: r) w).
  { intros r w [H|[(u & H & _)|(u & v & H & _)]]; [|discriminate H|discriminate H].
    assert (G : forall t v, digits_of 10 t v -> ~ In 120 t).
    { clear. induction 1 as [c d H|t v c d H IH H2]; [|intros G; apply in_app_or in G; destruct G as [G|G]; [now apply IH|]]; [intros G|]; (destruct G as [G|[]]; subst; unfold digit_of in *; lia). }
    apply (G _ _ H). right. now left. }
  destruct t as [|a [|b r]]; cbn [parse_i64]; try (rewrite D; split; [intros [H1 H2]; auto|intros [H1 [H2|(u & H2 & _)]]; [auto|discriminate H2]]).
  destruct ((a =? 48) && (b =? 120)) eqn:E.
  - assert (a = 48) by lia. assert (b = 120) by lia. subst. rewrite X. split; [intros [H1 H2]; split; [exact H1|right; now exists r]|].
    intros [H1 [H2|(u & H2 & H3)]]; [destruct (NoX _ _ H2)|]. assert (u = r) by congruence. subst u. auto.
  - rewrite D. split; [intros [H1 H2]; auto|]. intros [H1 [H2|(u & H2 & _)]]; [auto|]. exfalso. assert (a = 48) by congruence. assert (b = 120) by congruence. lia.
Qed.

(** * csv-compressor's reader *)
Definition shows (nt : number_text) (headers : list text) (i j : nat) (row : list text) (s : sample) : Prop :=
  length row = length headers /\ (exists f, nth_error row i = Some f /\ int_text f (sm_ts s)) /\ reads_as nt j row (sm_val s).

Lemma deserialize_of nt headers : forall fields ts v s, length fields = length headers ->
  (deserialize_sample nt headers fields ts v = Some s <->
   ((ts = Some (sm_ts s) /\ ~ In field_timestamp headers) \/ (ts = None /\ exists i f, only_column field_timestamp headers i /\ nth_error fields i = Some f /\ int_text f (sm_ts s))) /\
   ((v = Some (sm_val s) /\ ~ In field_value headers) \/ (v = None /\ exists j, only_column field_value headers j /\ reads_as nt j fields (sm_val s)))).
Proof.
  assert (Sh : forall n h hs i, h <> n -> (only_column n hs i <-> only_column n (h :: hs) (S i))).
  { intros n h hs i Hh. split; intros H j.
    - destruct j as [|j]; cbn [nth_error]; [split; intros X; [congruence|lia]|]. rewrite (H j). lia.
    - specialize (H (S j)). cbn [nth_error] in H. rewrite H. lia. }
  assert (Z0 : forall n h hs, h <> n -> ~ only_column n (h :: hs) 0%nat).
  { intros n h hs Hh H. specialize (H 0%nat). cbn [nth_error] in H. assert (Some h = Some n) by now apply H. congruence. }
  assert (Fst : forall n hs i, only_column n (n :: hs) i -> i = 0%nat /\ ~ In n hs).
  { intros n hs i H. assert (H0 := proj1 (H 0%nat) eq_refl). subst i. split; [reflexivity|]. intros G. apply In_nth_error in G. destruct G as [k G]. assert (X := proj1 (H (S k)) G). discriminate X. }
  assert (Fst' : forall n hs, ~ In n hs -> only_column n (n :: hs) 0%nat).
  { intros n hs Hn [|j]; cbn [nth_error]; [split; reflexivity|]. split; [intros G; exfalso; apply Hn; eapply nth_error_In; exact G|discriminate]. }
  assert (TV : field_timestamp <> field_value) by discriminate.
  induction headers as [|h hs IH]; intros fields ts v s Hl.
  - destruct fields; [|discriminate Hl]. cbn [deserialize_sample]. split.
    + destruct ts as [t|]; [|discriminate]. destruct v as [x|]; [|discriminate]. intros H. assert (s = Sample t x) by congruence. subst. cbn. split; left; split; auto.
    + intros [[(-> & _)|(-> & i & f & H & _)] [(-> & _)|(-> & j & H2 & _)]].
      * destruct s; reflexivity.
      * assert (X := proj2 (H2 j) eq_refl). destruct j; discriminate X.
      * assert (X := proj2 (H i) eq_refl). destruct i; discriminate X.
      * assert (X := proj2 (H i) eq_refl). destruct i; discriminate X.
  - destruct fields as [|f fields]; [discriminate Hl|]. assert (Hl' : length fields = length hs) by (cbn in Hl; lia). cbn [deserialize_sample].
    destruct (text_eqb h field_timestamp) eqn:E1; [|destruct (text_eqb h field_value) eqn:E2].
    + apply text_eqb_spec in E1. subst h. destruct ts as [t|].
      * split; [discriminate|]. intros [[(_ & H)|(H & _)] _]; [exfalso; apply H; now left|discriminate H].
      * assert (Vs : forall j, only_column field_value hs j <-> only_column field_value (field_timestamp :: hs) (S j)) by (intros j; apply Sh; exact TV).
        split.
        -- destruct (parse_i64 f) as [t|] eqn:Ep; [|discriminate]. intros H. apply IH in H; [|exact Hl']. destruct H as [[(H1 & H2)|(H1 & _)] H3]; [|discriminate H1].
           split; [right; split; [reflexivity|]; exists 0%nat, f; split; [now apply Fst'|]; split; [reflexivity|]; apply parse_i64_of; congruence|].
           destruct H3 as [(H3 & H4)|(H3 & j & H4 & H5)]; [left; split; [exact H3|]; intros [G|G]; [now apply TV|contradiction]|right; split; [exact H3|]; exists (S j); split; [now apply Vs|exact H5]].
        -- intros [[(H & _)|(_ & i & g & H1 & H2 & H3)] H4]; [discriminate H|]. destruct (Fst _ _ _ H1) as [-> Hn]. assert (g = f) by (cbn in H2; congruence). subst g.
           apply parse_i64_of in H3. rewrite H3. apply IH; [exact Hl'|]. split; [left; auto|].
           destruct H4 as [(H4 & H5)|(H4 & j & H5 & H6)]; [left; split; [exact H4|]; intros G; apply H5; now right|right; split; [exact H4|]].
           destruct j as [|j]; [destruct (Z0 _ _ _ TV H5)|]. exists j. split; [now apply Vs|exact H6].
    + apply text_eqb_spec in E2. subst h. assert (TV' : field_value <> field_timestamp) by congruence. destruct v as [x|].
      * split; [discriminate|]. intros [_ [(_ & H)|(H & _)]]; [exfalso; apply H; now left|discriminate H].
      * assert (Vs : forall j, only_column field_timestamp hs j <-> only_column field_timestamp (field_value :: hs) (S j)) by (intros j; apply Sh; exact TV').
        split.
        -- destruct (parse_f64 nt f) as [x|] eqn:Ep; [|discriminate]. intros H. apply IH in H; [|exact Hl']. destruct H as [H3 [(H1 & H2)|(H1 & _)]]; [|discriminate H1].
           split; [|right; split; [reflexivity|]; exists 0%nat; split; [now apply Fst'|]; exists f; split; [reflexivity|congruence]].
           destruct H3 as [(H3 & H4)|(H3 & j & g & H4 & H5 & H6)]; [left; split; [exact H3|]; intros [G|G]; [now apply TV'|contradiction]|right; split; [exact H3|]; exists (S j), g; split; [now apply Vs|auto]].
        -- intros [H4 [(H & _)|(_ & i & H1 & g & H2 & H3)]]; [discriminate H|]. destruct (Fst _ _ _ H1) as [-> Hn]. assert (g = f) by (cbn in H2; congruence). subst g.
           rewrite H3. apply IH; [exact Hl'|]. split; [|left; auto].
           destruct H4 as [(H4 & H5)|(H4 & j & g & H5 & H6 & H7)]; [left; split; [exact H4|]; intros G; apply H5; now right|right; split; [exact H4|]].
           destruct j as [|j]; [destruct (Z0 _ _ _ TV' H5)|]. exists j, g. split; [now apply Vs|auto].
    + assert (N1 : h <> field_timestamp) by (intros ->; rewrite (proj2 (text_eqb_spec _ _) eq_refl) in E1; discriminate E1).
      assert (N2 : h <> field_value) by (intros ->; rewrite (proj2 (text_eqb_spec _ _) eq_refl) in E2; discriminate E2).
      rewrite IH by exact Hl'. split; intros [H1 H2]; split.
      * destruct H1 as [(H1 & H3)|(H1 & i & g & H3 & H4)]; [left; split; [exact H1|]; intros [G|G]; congruence|right; split; [exact H1|]; exists (S i), g; split; [now apply Sh|exact H4]].
      * destruct H2 as [(H2 & H3)|(H2 & i & H3 & H4)]; [left; split; [exact H2|]; intros [G|G]; congruence|right; split; [exact H2|]; exists (S i); split; [now apply Sh|exact H4]].
      * destruct H1 as [(H1 & H3)|(H1 & i & g & H3 & H4)]; [left; split; [exact H1|]; intros G; apply H3; now right|right; split; [exact H1|]]. destruct i as [|i]; [destruct (Z0 _ _ _ N1 H3)|]. exists i, g. split; [now apply Sh in H3|exact H4].
      * destruct H2 as [(H2 & H3)|(H2 & i & H3 & H4)]; [left; split; [exact H2|]; intros G; apply H3; now right|right; split; [exact H2|]]. destruct i as [|i]; [destruct (Z0 _ _ _ N2 H3)|]. exists i. split; [now apply Sh in H3|exact H4].
Qed.

(** csv-compressor reads a table exactly if each row has as many fields as the header and there is, as soon as there is a row, exactly
    one timestamp and exactly one value column, the former holding integers (decimal, or hexadecimal after 0x) and the latter numbers;
    the contents of other columns do not matter, as long as they are UTF-8. (The header row is UTF-8 too; C84 says what happens otherwise.) *)
Theorem C71_rows_read : forall nt headers rows t samples, table_of (headers :: rows) t -> no_mark t -> Forall is_utf8 headers ->
  (read_samples_from_csv_file nt (Some t) = Some samples <->
   Forall2 (fun row s => exists i j, only_column name_timestamp headers i /\ only_column name_value headers j /\ shows nt headers i j row s /\ Forall is_utf8 row) rows samples).
Proof.
  change name_timestamp with field_timestamp. change name_value with field_value.
  intros nt headers rows t samples Ht Nt Uh. unfold read_samples_from_csv_file. rewrite (any_records _ _ Ht Nt). clear Ht. apply cells_utf8 in Uh. rewrite Uh. revert samples.
  induction rows as [|r rows IH]; intros samples; cbn [collect_deserialized].
  { split; intros H; [assert (samples = []) by congruence; subst; constructor|inversion H; reflexivity]. }
  assert (D := fun s (L : length r = length headers) => deserialize_of nt headers r None None s L).
  assert (Ur := cells_utf8 r). destruct (Nat.eqb_spec (length r) (length headers)) as [L|L]; [destruct (forallb utf8 r); cbn [andb]|].
  - assert (U : Forall is_utf8 r) by now apply Ur. split.
    + destruct (deserialize_sample nt headers r None None) as [s|] eqn:Es; [|discriminate]. destruct (collect_deserialized (length headers) _ rows) as [ss|]; [|discriminate].
      cbn [option_map]. intros H. assert (samples = s :: ss) by congruence. subst. constructor; [|now apply IH].
      destruct (proj1 (D s L) eq_refl) as [[(X & _)|(_ & i & f & I1 & I2 & I3)] [(Y & _)|(_ & j & J1 & J2)]]; try discriminate X; try discriminate Y. exists i, j. split; [exact I1|]. split; [exact J1|]. split; [split; [exact L|]; split; [now exists f|exact J2]|exact U].
    + intros H. inversion H as [|? s ? ss (i & j & I1 & J1 & (_ & (f & I2 & I3) & J2) & _) H']; subst. apply IH in H'. rewrite H'.
      assert (Es : deserialize_sample nt headers r None None = Some s) by (apply D; [exact L|]; split; right; (split; [reflexivity|]); [exists i, f; auto|exists j; auto]). rewrite Es. reflexivity.
  - split; [discriminate|]. intros H. inversion H as [|? ? ? ? (i & j & _ & _ & _ & X) _]; subst. apply Ur in X. discriminate X.
  - split; [discriminate|]. intros H. inversion H as [|? ? ? ? (i & j & _ & _ & (X & _) & _) _]; subst. contradiction.
Qed.
Print Assumptions C71_rows_read.

(** * The library's readers *)
Lemma collect_exact nt w i rows : (i < w)%nat -> forall acc out, collect_samples nt w i rows acc = Ok (Samples out) <->
  exists vals, out = acc ++ map (Sample 0) vals /\ Forall2 (fun r v => length r = w /\ reads_as nt i r v /\ Forall is_utf8 r) rows vals.
Proof.
  intros Hi. induction rows as [|r rows IH]; intros acc out; cbn [collect_samples].
  - split; [intros H; exists []; split; [cbn; rewrite app_nil_r; congruence|constructor]|intros (vals & -> & H); inversion H; cbn; now rewrite app_nil_r].
  - assert (Ur := cells_utf8 r). destruct (Nat.eqb_spec (length r) w) as [L|L]; [destruct (forallb utf8 r); cbn [andb]|].
    + assert (U : Forall is_utf8 r) by now apply Ur. destruct (nth_error r i) as [f|] eqn:Ef; [|apply nth_error_None in Ef; lia]. split.
      * destruct (parse_f64 nt f) as [v|] eqn:Ev; [|discriminate]. intros H. apply IH in H. destruct H as (vals & -> & H). exists (v :: vals). split; [now rewrite <- app_assoc|].
        constructor; [split; [exact L|]; split; [now exists f|exact U]|exact H].
      * intros (vals & -> & H). inversion H as [|? v ? vs (_ & (g & G1 & G2) & _) H']; subst. assert (g = f) by congruence. subst g. rewrite G2. apply IH. exists vs. split; [now rewrite <- app_assoc|exact H'].
    + split; [discriminate|]. intros (vals & _ & H). inversion H as [|? ? ? ? (_ & _ & X) _]; subst. apply Ur in X. discriminate X.
    + split; [discriminate|]. intros (vals & _ & H). inversion H as [|? ? ? ? (X & _) _]; subst. contradiction.
Qed.
(** The reader with header names gives samples exactly if both columns exist, every row is as wide as the header and the first column of
    that name holds a number in each, and every cell is UTF-8; the times are dropped. The reader without header names takes the first column of every row. *)
Theorem C71_values_read : forall nt headers rows t ts_field value_field out, table_of (headers :: rows) t -> no_mark t ->
  (read_samples_with_headers nt (Some t) ts_field value_field = Ok (Samples out) <->
   Forall is_utf8 headers /\ In ts_field headers /\
   exists i vals, first_column value_field headers i /\ out = map (Sample 0) vals /\ Forall2 (fun r v => length r = length headers /\ reads_as nt i r v /\ Forall is_utf8 r) rows vals) /\
  (read_samples nt (Some t) = Ok (Samples out) <->
   exists vals, out = map (Sample 0) vals /\ Forall2 (fun r v => length r = length headers /\ reads_as nt 0 r v /\ Forall is_utf8 r) (headers :: rows) vals).
Proof.
  intros nt headers rows t tf vf out Ht Nt. unfold read_samples_with_headers, read_samples. rewrite (any_records _ _ Ht Nt). cbn [hd].
  assert (Hpos : (0 < length headers)%nat).
  { destruct headers; [|cbn; lia]. exfalso. clear - Ht. remember ([] :: rows) as l eqn:E. revert E. induction Ht as [|c l t Hc H IH|r u c l t Hr Hn Hc H IH|r u Hr Hn]; intros E; try discriminate E; [auto| |];
    (assert (r = []) by congruence; subst; inversion Hr). }
  split.
  - assert (Uh := cells_utf8 headers). destruct (forallb utf8 headers); [|split; [discriminate|]; intros (X & _); apply Uh in X; discriminate X]. assert (U : Forall is_utf8 headers) by now apply Uh.
    assert (Pt := position_first tf headers). assert (Pv := position_first vf headers). destruct (position tf headers) as [k|].
    + destruct (position vf headers) as [i|].
      * assert (Li : (i < length headers)%nat) by (apply nth_error_Some; destruct Pv as [Pv _]; congruence). rewrite (collect_exact nt _ i rows Li [] out). split.
        -- intros (vals & -> & H). split; [exact U|]. split; [eapply first_column_in; exact Pt|]. exists i, vals. auto.
        -- intros (_ & _ & i' & vals & Hi & -> & H). rewrite (first_column_unique _ _ _ _ Hi Pv) in H. exists vals. auto.
      * split; [discriminate|]. intros (_ & _ & i & vals & Hi & _). exfalso. eapply Pv, first_column_in; exact Hi.
    + split; [discriminate|]. intros (_ & H & _). contradiction.
  - exact (collect_exact nt _ 0 (headers :: rows) Hpos [] out).
Qed.
Print Assumptions C71_values_read.

(** note "a, ""b""" in a third column, CRLF, a blank line, a hexadecimal time. *)
Example C71_example : exists t, table_of [[field_value; [110]; field_timestamp]; [[49; 46; 53]; [97; 44; 34; 98; 34]; [48; 120; 49; 70; 97]]; [[50]; []; [45; 55]]] t /\
  no_mark t /\ Forall is_utf8 [field_value; [110]; field_timestamp] /\ int_text [48; 120; 49; 70; 97] 506 /\ int_text [45; 55] (-7) /\
  read_samples_from_csv_file toy_numbers (Some t) = Some [Sample 506 (from_bits 4609434218613702656); Sample (-7) (from_bits 4611686018427387904)].
Proof.
  exists (field_value ++ [44; 110; 44] ++ field_timestamp ++ [13; 10; 10] ++ [49; 46; 53; 44; 34; 97; 44; 34; 34; 98; 34; 34; 34; 44; 48; 120; 49; 70; 97] ++ [10] ++ [34; 50; 34; 44; 44; 45; 55]).
  assert (Pl : forall f, forallb (fun c => (0 <=? c) && (c <? 128) && negb (c =? 44) && negb (c =? 34) && negb (c =? 10) && negb (c =? 13)) f = true -> unquoted f).
  { intros f H. apply Forall_forall. intros c Hc. rewrite forallb_forall in H. specialize (H c Hc). lia. }
  assert (P : forall f, forallb (fun c => (0 <=? c) && (c <? 128) && negb (c =? 44) && negb (c =? 34) && negb (c =? 10) && negb (c =? 13)) f = true -> field_text f f) by (intros f H; left; split; [now apply Pl|reflexivity]).
  split; [|split; [intros r E; discriminate E|split; [apply cells_utf8; vm_compute; reflexivity|split; [|split; [|vm_compute; reflexivity]]]]].
  - apply (table_row _ (field_value ++ [44] ++ [110] ++ [44] ++ field_timestamp) 13 _ (10 :: 10 :: [49; 46; 53; 44; 34; 97; 44; 34; 34; 98; 34; 34; 34; 44; 48; 120; 49; 70; 97] ++ [10] ++ [34; 50; 34; 44; 44; 45; 55])); [| |lia|].
    + apply row_more; [now apply P|]. apply (row_more [110] [110] [field_timestamp]); [now apply P|]. apply row_one. now apply P.
    + discriminate.
    + apply table_blank; [lia|]. apply table_blank; [lia|].
      apply (table_row _ ([49; 46; 53] ++ [44] ++ [34; 97; 44; 34; 34; 98; 34; 34; 34] ++ [44] ++ [48; 120; 49; 70; 97]) 10 _ [34; 50; 34; 44; 44; 45; 55]); [| |lia|].
      * apply row_more; [now apply P|]. apply (row_more [97; 44; 34; 98; 34] _ [[48; 120; 49; 70; 97]]); [right; reflexivity|]. apply row_one. now apply P.
      * discriminate.
      * apply table_last; [|discriminate]. apply (row_more [50] [34; 50; 34] _ [44; 45; 55]); [right; reflexivity|]. apply (row_more [] [] _ [45; 55]); [now apply P|]. apply row_one. now apply P.
  - split; [lia|]. right. exists [49; 70; 97]. split; [reflexivity|]. left. change 506 with ((1 * 16 + 15) * 16 + 10). apply (digits_more 16 [49; 70] (1 * 16 + 15) 97); [|unfold digit_of; lia].
    apply (digits_more 16 [49] 1 70); [apply digits_one|]; unfold digit_of; lia.
  - split; [lia|]. left. right; right. exists [55], 7. split; [reflexivity|]. split; [apply digits_one; unfold digit_of; lia|reflexivity].
Qed.
