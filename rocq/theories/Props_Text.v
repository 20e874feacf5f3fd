(** C84: CSV files in any language, and files that are not UTF-8. *)
From Coq Require Import List ZArith Bool Lia ZifyBool String.
From Verif Require Import Base Model_Float Spec_Utf8 Model_Utf8 Utf8Facts Spec_Csv Spec_CsvTable Model_Vsri Model_Csv CsvFacts CsvTextFacts Props_Csv Props_CsvTable Model_Stream Model_Wavbrro Model_Cli Props_Cli Props_Crash Props_Interop
  Model_Args Spec_Args Model_Command Props_Command Spec_Number Model_Number.
Import ListNotations.
Open Scope Z_scope.

(** * A file is UTF-8 exactly if the cells of its table are *)
Lemma doubled_app a b : doubled (a ++ b) = doubled a ++ doubled b.
Proof. apply flat_map_app. Qed.
Lemma doubled_high f : Forall (fun c => 128 <= c) f -> doubled f = f.
Proof. induction 1 as [|c f Hc H IH]; [reflexivity|]. unfold doubled. cbn [flat_map]. fold (doubled f). rewrite IH. replace (c =? 34) with false by lia. reflexivity. Qed.
Lemma doubled_utf8 f : is_utf8 f -> is_utf8 (doubled f).
Proof.
  intros (us & H & ->). induction H as [|u us Hu H IH]; [apply is_utf8_nil|]. cbn [flat_map]. rewrite doubled_app. apply is_utf8_app; [|exact IH].
  assert (E : is_utf8 (encoded u)) by (rewrite <- (app_nil_r (encoded u)); apply is_utf8_cons; [exact Hu|apply is_utf8_nil]).
  destruct (encoded_cases u Hu) as [(R & Eu)|[(a & b & Eu & A1 & A2 & _)|[(a & b & c & Eu & A1 & A2 & A3 & A4 & A5 & _)|(a & b & c & d & Eu & A1 & A2 & A3 & A4 & A5 & A6 & _)]]]; rewrite Eu in *.
  - apply is_utf8_ascii. unfold doubled. cbn [flat_map]. destruct (u =? 34) eqn:Q; cbn [app]; repeat apply Forall_cons; try apply Forall_nil; lia.
  - rewrite doubled_high; [exact E|]. repeat apply Forall_cons; try apply Forall_nil; lia.
  - rewrite doubled_high; [exact E|]. repeat apply Forall_cons; try apply Forall_nil; lia.
  - rewrite doubled_high; [exact E|]. repeat apply Forall_cons; try apply Forall_nil; lia.
Qed.
Lemma ascii_one c : 0 <= c < 128 -> is_utf8 [c].
Proof. intros H. apply is_utf8_ascii. apply Forall_cons; [exact H|apply Forall_nil]. Qed.
Lemma field_utf8 f t : field_text f t -> is_utf8 f -> is_utf8 t.
Proof.
  intros [(_ & ->)| ->] H; [exact H|]. apply is_utf8_app; [apply ascii_one; lia|]. apply is_utf8_app; [now apply doubled_utf8|apply ascii_one; lia].
Qed.
Lemma row_of_utf8 r u : row_of r u -> Forall is_utf8 r -> is_utf8 u.
Proof.
  induction 1 as [f t Hf|f t r u Hf Hr IH]; intros H; inversion H as [|? ? H1 H2]; subst; [now apply (field_utf8 f)|].
  apply is_utf8_app; [now apply (field_utf8 f)|]. apply is_utf8_app; [apply ascii_one; lia|now apply IH].
Qed.
Theorem C84_cells : forall rows t, table_of rows t -> (is_utf8 t <-> Forall (Forall is_utf8) rows).
Proof.
  intros rows t Ht. split.
  - intros (us & Hu & ->). rewrite <- (run_any_table rows _ Ht). apply run_utf8; [exact Hu|apply is_utf8_nil|constructor].
  - induction Ht as [|c rows t Hc Ht IH|r u c rows t Hr Hn Hc Ht IH|r u Hr Hn]; intros H.
    + apply is_utf8_nil.
    + change (c :: t) with ([c] ++ t). apply is_utf8_app; [apply ascii_one; lia|now apply IH].
    + inversion H as [|? ? H1 H2]; subst. apply is_utf8_app; [now apply (row_of_utf8 r)|]. change (c :: t) with ([c] ++ t). apply is_utf8_app; [apply ascii_one; lia|now apply IH].
    + inversion H; subst. now apply (row_of_utf8 r).
Qed.
Print Assumptions C84_cells.

(** * UTF-8 files *)
Definition byte_order_mark : text := [239; 187; 191].
Lemma marked_records mark t rows : mark = [] /\ no_mark t \/ mark = byte_order_mark -> table_of rows t -> csv_records (mark ++ t) = rows.
Proof. intros [[-> Hn]| ->] Ht; [now apply any_records|]. unfold csv_records. cbn [byte_order_mark app strip_bom]. change ((239 =? 239) && (187 =? 187) && (191 =? 191)) with true. cbn match. now apply run_any_table. Qed.

(** A UTF-8 table whose header names, in any language, are those asked for with --fields; the other columns hold any text. With or without a
    byte-order mark in front, atsc --csv compresses the numbers of the value column. *)
Theorem C84_any_language : forall e p nt a fs x old (mark t : text) headers rows time value more i vals bytes,
  proper_stem x -> proper_ext old -> a_uncompress a = false -> a_csv a = true -> a_no_header a = false -> split_on 44 (a_fields a) = time :: value :: more ->
  fs (named x old) = Some (mark ++ t) -> (mark = [] /\ no_mark t \/ mark = byte_order_mark) -> is_utf8 t -> table_of (headers :: rows) t ->
  In time headers -> first_column value headers i -> Forall2 (fun r v => List.length r = List.length headers /\ reads_as nt i r v) rows vals ->
  compress_data e p vals (a_compressor a) (a_error a) (a_level a) = Ok bytes ->
  exists fs1, process_single_file e p nt a fs (named x old) = (fs1, Done) /\ fs1 (named x ext_bro) = Some bytes /\ only_changes (named x ext_bro) fs fs1.
Proof.
  intros e p nt a fs x old mark t headers rows time value more i vals bytes Hx Ho A1 A2 A3 A4 Hf Hm Hu Ht Hin Hv Hr Cb. exists (put fs (named x ext_bro) bytes).
  split; [|split; [apply put_same|intros m Hm'; now apply put_other]]. unfold process_single_file, compress_to. rewrite A1, A2, A3. change (split_on ch_comma (a_fields a)) with (split_on 44 (a_fields a)). rewrite A4, Hf.
  unfold read_samples_with_headers. rewrite (marked_records mark t _ Hm Ht). pose proof (proj1 (C84_cells _ _ Ht) Hu) as Us. inversion Us as [|? ? Uh Ur]; subst. rewrite (proj2 (cells_utf8 headers) Uh).
  assert (Pt := position_first time headers). destruct (position time headers) as [k|]; [|contradiction]. assert (Pv := position_first value headers). destruct (position value headers) as [j|]; [|exfalso; eapply Pv, first_column_in; exact Hv].
  rewrite (first_column_unique _ _ _ _ Pv Hv). assert (Li : (i < List.length headers)%nat) by (apply nth_error_Some; destruct Hv as [Hv _]; congruence).
  assert (G : collect_samples nt (List.length headers) i rows [] = Ok (Samples (map (Sample 0) vals))).
  { apply (collect_exact nt _ i rows Li [] _). exists vals. split; [reflexivity|]. clear - Hr Ur. induction Hr as [|r v rows vals [H1 H2] Hr IH]; [constructor|]. inversion Ur; subst. constructor; auto. }
  rewrite G. cbn [bind]. rewrite map_map. cbn [sm_val]. rewrite map_id, Cb, set_ext_named by assumption. reflexivity.
Qed.
Print Assumptions C84_any_language.

(** * Files that are not UTF-8 *)
(** atsc never compresses one, with or without header names: it ends with status 1 or 101 and changes nothing. *)
Theorem C84_not_utf8_refused : forall e p nt ws fs sp x old a t rows,
  atsc_parse ws = Some (named x old, a) -> proper_stem x -> proper_ext old -> a_uncompress a = false -> a_csv a = true ->
  fs (named x old) = Some t -> table_of rows t -> no_mark t -> ~ is_utf8 t ->
  exists fs' st, atsc_command e p nt ws fs sp = (fs', Some st) /\ (st = 1 \/ st = 101) /\ unchanged fs fs'.
Proof.
  intros e p nt ws fs sp x old a t rows Hp Hx Ho A1 A2 Hf Ht Hn Hu. remember (atsc_command e p nt ws fs sp) as res eqn:E. destruct res as [fs' st].
  destruct (C81_compress_status e p nt ws fs sp x old a fs' st Hp A1 Hx Ho ltac:(congruence) (eq_sym E)) as [(-> & data & bytes & Hs & _)|([-> | ->] & U & _)]; [|now exists fs', 1; auto|now exists fs', 101; auto].
  exfalso. apply Hu. apply (proj2 (C84_cells rows t Ht)). unfold file_samples in Hs. rewrite A2, Hf in Hs. destruct rows as [|headers rows]; [constructor|].
  assert (G : forall i vals, Forall2 (fun r v => List.length r = List.length headers /\ reads_as nt i r v /\ Forall is_utf8 r) rows vals -> Forall (Forall is_utf8) rows).
  { clear. intros i vals H. induction H as [|r v rows' vals (_ & _ & H1) H IH]; constructor; [exact H1|exact IH]. }
  destruct Hs as (samples & -> & [(N & R)|(N & time & value & more & Es & R)]).
  - apply (proj2 (C71_values_read nt headers rows t [] [] samples Ht Hn)) in R. destruct R as (vals & _ & F). inversion F as [|? ? ? ? (_ & _ & F1) F2]; subst. constructor; [exact F1|now apply (G 0%nat l')].
  - apply (proj1 (C71_values_read nt headers rows t time value samples Ht Hn)) in R. destruct R as (Uh & _ & i & vals & _ & _ & F). constructor; [exact Uh|now apply (G i vals)].
Qed.
Print Assumptions C84_not_utf8_refused.

(** Which of the two: a header row that is not UTF-8 is an error (status 1) ... *)
Theorem C84_header_not_utf8 : forall e p nt ws fs sp input a t headers rows time value more,
  atsc_parse ws = Some (input, a) -> a_uncompress a = false -> a_csv a = true -> a_no_header a = false -> split_on 44 (a_fields a) = time :: value :: more ->
  fs input = Some t -> table_of (headers :: rows) t -> no_mark t -> ~ Forall is_utf8 headers ->
  atsc_command e p nt ws fs sp = (fs, Some 1).
Proof.
  intros e p nt ws fs sp input a t headers rows time value more Hp A1 A2 A3 A4 Hf Ht Hn Hu. unfold atsc_command, atsc_process_args, process_single_file. rewrite Hp, Hf, A1, A2, A3. change (split_on ch_comma (a_fields a)) with (split_on 44 (a_fields a)). rewrite A4.
  unfold read_samples_with_headers. rewrite (any_records _ _ Ht Hn). destruct (forallb utf8 headers) eqn:E; [|reflexivity]. exfalso. now apply Hu, cells_utf8.
Qed.
Print Assumptions C84_header_not_utf8.
(** ... and a later row that is not UTF-8, in whichever column, a panic (status 101), once the rows before it could be read. *)
Theorem C84_row_not_utf8 : forall e p nt ws fs sp input a t headers good bad rest vals time value more i,
  atsc_parse ws = Some (input, a) -> a_uncompress a = false -> a_csv a = true -> a_no_header a = false -> split_on 44 (a_fields a) = time :: value :: more ->
  fs input = Some t -> table_of (headers :: good ++ bad :: rest) t -> no_mark t -> Forall (Forall is_utf8) (headers :: good) ->
  In time headers -> first_column value headers i -> Forall2 (fun r v => List.length r = List.length headers /\ reads_as nt i r v) good vals -> ~ Forall is_utf8 bad ->
  atsc_command e p nt ws fs sp = (fs, Some 101).
Proof.
  intros e p nt ws fs sp input a t headers good bad rest vals time value more i Hp A1 A2 A3 A4 Hf Ht Hn Hu Hin Hv Hg Hb. unfold atsc_command, atsc_process_args, process_single_file. rewrite Hp, Hf, A1, A2, A3. change (split_on ch_comma (a_fields a)) with (split_on 44 (a_fields a)). rewrite A4.
  unfold read_samples_with_headers. rewrite (any_records _ _ Ht Hn). inversion Hu as [|? ? Uh Ug]; subst. rewrite (proj2 (cells_utf8 headers) Uh).
  assert (Pt := position_first time headers). destruct (position time headers) as [k|]; [|contradiction]. assert (Pv := position_first value headers). destruct (position value headers) as [j|]; [|exfalso; eapply Pv, first_column_in; exact Hv].
  rewrite (first_column_unique _ _ _ _ Pv Hv). assert (W : Forall (fun r : list text => List.length r = List.length headers /\ forallb utf8 r = true) good /\ Forall2 (reads_as nt i) good vals).
  { clear - Hg Ug. induction Hg as [|r v good vals [H1 H2] Hg IH]; [split; constructor|]. inversion Ug as [|? ? U1 U2]; subst. destruct (IH U2) as [I1 I2]. split; constructor; auto. split; [exact H1|now apply cells_utf8]. }
  rewrite (collect_good nt _ i good vals (proj1 W) (proj2 W)). cbn [collect_samples]. destruct (forallb utf8 bad) eqn:E; [exfalso; now apply Hb, cells_utf8|]. rewrite andb_false_r. reflexivity.
Qed.
Print Assumptions C84_row_not_utf8.

(** * csv-compressor *)
Lemma collected_utf8 w de rows : forall samples, collect_deserialized w de rows = Some samples -> Forall (Forall is_utf8) rows.
Proof.
  induction rows as [|r rows IH]; intros samples H; [constructor|]. cbn [collect_deserialized] in H. destruct (Nat.eqb _ _); [|discriminate H]. destruct (forallb utf8 r) eqn:E; [cbn [andb] in H|discriminate H].
  destruct (de r); [|discriminate H]. destruct (collect_deserialized w de rows) as [ss|]; [|discriminate H]. constructor; [now apply cells_utf8|now apply (IH ss)].
Qed.
(** It refuses a file with a row, other than the header, that is not UTF-8, and changes nothing. *)
Theorem C84_csvc_row_not_utf8 : forall e p nt c fs t headers rows,
  c_uncompress c = false -> fs (c_input c) = Some t -> table_of (headers :: rows) t -> no_mark t -> Exists (fun r => ~ Forall is_utf8 r) rows ->
  csvc_process_args e p nt c fs = (fs, Panicked).
Proof.
  intros e p nt c fs t headers rows A Hf Ht Hn He. unfold csvc_process_args, csvc_compress, process_csv. rewrite A, Hf. destruct (read_samples_from_csv_file nt (Some t)) as [samples|] eqn:E; [|reflexivity].
  exfalso. unfold read_samples_from_csv_file in E. rewrite (any_records _ _ Ht Hn) in E. apply collected_utf8 in E. clear - E He. induction He as [r rows H|r rows H IH]; inversion E; auto.
Qed.
Print Assumptions C84_csvc_row_not_utf8.

(** A header row that is not UTF-8 is not noticed: the names are forgotten, and the first column is taken for the timestamps, the second for the values. *)
Definition by_position (nt : number_text) (headers row : list text) (s : sample) : Prop :=
  List.length row = List.length headers /\ Forall is_utf8 row /\ (exists f, nth_error row 0 = Some f /\ int_text f (sm_ts s)) /\ reads_as nt 1 row (sm_val s).
Theorem C84_csvc_header_not_utf8 : forall nt headers rows t samples,
  table_of (headers :: rows) t -> no_mark t -> ~ Forall is_utf8 headers ->
  (read_samples_from_csv_file nt (Some t) = Some samples <-> Forall2 (by_position nt headers) rows samples).
Proof.
  intros nt headers rows t samples Ht Hn Hu. unfold read_samples_from_csv_file. rewrite (any_records _ _ Ht Hn). destruct (forallb utf8 headers) eqn:Eh; [exfalso; now apply Hu, cells_utf8|]. clear Ht Hn Eh Hu t. revert samples.
  induction rows as [|r rows IH]; intros samples; cbn [collect_deserialized].
  { split; intros H; [assert (samples = []) by congruence; subst; constructor|inversion H; reflexivity]. }
  assert (Ur := cells_utf8 r). destruct (Nat.eqb_spec (List.length r) (List.length headers)) as [L|L]; [destruct (forallb utf8 r); cbn [andb]|].
  - assert (U : Forall is_utf8 r) by now apply Ur. split.
    + destruct r as [|f0 [|f1 r]]; [discriminate|discriminate|]. unfold deserialize_positional at 1. destruct (parse_i64 f0) as [ts|] eqn:E0; [|discriminate]. destruct (parse_f64 nt f1) as [v|] eqn:E1; [|discriminate].
      destruct (collect_deserialized _ _ rows) as [ss|]; [|discriminate]. cbn [option_map]. intros H. assert (samples = Sample ts v :: ss) by congruence. subst. constructor; [|now apply IH].
      split; [exact L|]. split; [exact U|]. split; [exists f0; split; [reflexivity|]; now apply parse_i64_of|]. now exists f1.
    + intros H. inversion H as [|? s ? ss (_ & _ & (f & I1 & I2) & (g & J1 & J2)) H']; subst. apply IH in H'. rewrite H'. destruct r as [|f0 [|f1 r]]; [discriminate I1|discriminate J1|].
      cbn [nth_error] in I1, J1. assert (f0 = f) by congruence. assert (f1 = g) by congruence. subst. unfold deserialize_positional. apply parse_i64_of in I2. rewrite I2, J2. destruct s; reflexivity.
  - split; [discriminate|]. intros H. inversion H as [|? ? ? ? (_ & X & _) _]; subst. apply Ur in X. discriminate X.
  - split; [discriminate|]. intros H. inversion H as [|? ? ? ? (X & _) _]; subst. contradiction.
Qed.
Print Assumptions C84_csvc_header_not_utf8.

(** So csv-compressor does not always read the columns by their names: the table
      value,timestamp,caf<E9>
      5,7,x
    (Latin-1) is read as the value 7 at time 5. *)
Definition latin1 : text := ascii_text "value,timestamp,caf" ++ [233; 10] ++ ascii_text "5,7,x" ++ [10].
Definition latin1_headers : list text := [name_value; name_timestamp; ascii_text "caf" ++ [233]].
Definition latin1_rows : list (list text) := [[ascii_text "5"; ascii_text "7"; ascii_text "x"]].
Lemma latin1_table : table_of (latin1_headers :: latin1_rows) latin1 /\ no_mark latin1 /\ ~ Forall is_utf8 latin1_headers.
Proof.
  assert (P : forall f, forallb (fun c => negb (c =? 44) && negb (c =? 34) && negb (c =? 10) && negb (c =? 13)) f = true -> field_text f f).
  { intros f H. left. split; [|reflexivity]. apply Forall_forall. intros c Hc. rewrite forallb_forall in H. specialize (H c Hc). lia. }
  split; [|split; [intros r E; discriminate E|]].
  - apply (table_row latin1_headers (name_value ++ [44] ++ name_timestamp ++ [44] ++ ascii_text "caf" ++ [233]) 10 latin1_rows (ascii_text "5,7,x" ++ [10])); [| |lia|].
    + apply row_more; [now apply P|]. apply row_more; [now apply P|]. apply row_one. now apply P.
    + discriminate.
    + apply (table_row [ascii_text "5"; ascii_text "7"; ascii_text "x"] (ascii_text "5" ++ [44] ++ ascii_text "7" ++ [44] ++ ascii_text "x") 10 [] []); [| |lia|apply table_end].
      * apply row_more; [now apply P|]. apply row_more; [now apply P|]. apply row_one. now apply P.
      * discriminate.
  - intros H. apply cells_utf8 in H. vm_compute in H. discriminate H.
Qed.
Theorem C84_columns_by_name_refuted : exists t headers rows i j samples,
  table_of (headers :: rows) t /\ no_mark t /\ only_column name_timestamp headers i /\ only_column name_value headers j /\
  Forall (fun r => List.length r = List.length headers) rows /\ rows <> [] /\
  read_samples_from_csv_file std_numbers (Some t) = Some samples /\ ~ Forall2 (shows std_numbers headers i j) rows samples.
Proof.
  exists latin1, latin1_headers, latin1_rows, 1%nat, 0%nat. destruct latin1_table as (T & N & U).
  destruct (read_samples_from_csv_file std_numbers (Some latin1)) as [samples|] eqn:E; [|exfalso; apply (f_equal (fun o => match o with Some _ => true | None => false end)) in E; vm_compute in E; discriminate E].
  exists samples. split; [exact T|]. split; [exact N|]. split; [intros [|[|[|[|k]]]]; (split; [intros H; vm_compute in H; congruence || lia|intros H; congruence || lia || reflexivity])|].
  split; [intros [|[|[|[|k]]]]; (split; [intros H; vm_compute in H; congruence || lia|intros H; congruence || lia || reflexivity])|].
  split; [apply Forall_cons; [reflexivity|apply Forall_nil]|]. split; [discriminate|]. split; [reflexivity|].
  intros H. apply (f_equal (option_map (map sm_ts))) in E. assert (V : option_map (map sm_ts) (read_samples_from_csv_file std_numbers (Some latin1)) = Some [5]) by (vm_compute; reflexivity).
  rewrite E in V. cbn [option_map] in V. inversion H as [|r s rs ss (_ & (f & F1 & F2) & _) H' E1 E2]; subst. cbn [map] in V. assert (Hs : sm_ts s = 5) by congruence.
  cbn [nth_error] in F1. assert (f = ascii_text "7") by congruence. subst f. rewrite Hs in F2. apply parse_i64_of in F2. vm_compute in F2. discriminate F2.
Qed.
Print Assumptions C84_columns_by_name_refuted.

(** Cases that meet the hypotheses: a header in German and Greek with a quoted emoji cell; a Latin-1 cell in the second row. *)
Definition greek : text := ascii_text "Zeit," ++ [207; 132; 206; 185; 206; 188; 206; 174; 44] ++ ascii_text "Gr" ++ [195; 182; 195; 159] ++ ascii_text "e" ++ [10] ++ ascii_text "1,1.5," ++ [34; 240; 159; 152; 128; 34; 34; 34; 10].
Definition greek_headers : list text := [ascii_text "Zeit"; [207; 132; 206; 185; 206; 188; 206; 174]; ascii_text "Gr" ++ [195; 182; 195; 159] ++ ascii_text "e"].
Definition greek_rows : list (list text) := [[ascii_text "1"; ascii_text "1.5"; [240; 159; 152; 128; 34]]].
Example C84_example : table_of (greek_headers :: greek_rows) greek /\ no_mark greek /\ is_utf8 greek /\
  first_column [207; 132; 206; 185; 206; 188; 206; 174] greek_headers 1 /\ (exists v, Forall2 (fun r v => List.length r = List.length greek_headers /\ reads_as std_numbers 1 r v) greek_rows [v]) /\
  ~ is_utf8 latin1 /\ ~ Forall is_utf8 [ascii_text "5"; [233]] /\
  split_on 44 (ascii_text "Zeit," ++ [207; 132; 206; 185; 206; 188; 206; 174]) = [ascii_text "Zeit"; [207; 132; 206; 185; 206; 188; 206; 174]].
Proof.
  assert (P : forall f, forallb (fun c => negb (c =? 44) && negb (c =? 34) && negb (c =? 10) && negb (c =? 13)) f = true -> field_text f f).
  { intros f H. left. split; [|reflexivity]. apply Forall_forall. intros c Hc. rewrite forallb_forall in H. specialize (H c Hc). lia. }
  split; [|split; [intros r E; discriminate E|split; [apply utf8_spec; vm_compute; reflexivity|split; [split; [reflexivity|intros [|j] Hj; [discriminate|lia]]|split; [|split; [|split; [|vm_compute; reflexivity]]]]]]].
  - apply (table_row greek_headers (ascii_text "Zeit" ++ [44] ++ [207; 132; 206; 185; 206; 188; 206; 174] ++ [44] ++ (ascii_text "Gr" ++ [195; 182; 195; 159] ++ ascii_text "e")) 10 greek_rows (ascii_text "1,1.5," ++ [34; 240; 159; 152; 128; 34; 34; 34; 10])); [| |lia|].
    + apply row_more; [now apply P|]. apply row_more; [now apply P|]. apply row_one. now apply P.
    + discriminate.
    + apply (table_row [ascii_text "1"; ascii_text "1.5"; [240; 159; 152; 128; 34]] (ascii_text "1" ++ [44] ++ ascii_text "1.5" ++ [44] ++ [34; 240; 159; 152; 128; 34; 34; 34]) 10 [] []); [| |lia|apply table_end].
      * apply row_more; [now apply P|]. apply row_more; [now apply P|]. apply row_one. right. reflexivity.
      * discriminate.
  - destruct (std_parse (ascii_text "1.5")) as [v|] eqn:E; [|exfalso; apply (f_equal (fun o => match o with Some _ => true | None => false end)) in E; vm_compute in E; discriminate E].
    exists v. constructor; [|constructor]. split; [reflexivity|]. exists (ascii_text "1.5"). split; [reflexivity|exact E].
  - intros H. apply utf8_spec in H. vm_compute in H. discriminate H.
  - intros H. apply cells_utf8 in H. vm_compute in H. discriminate H.
Qed.
