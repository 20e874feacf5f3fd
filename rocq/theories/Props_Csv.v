(** C42, C48: reading and writing CSV files. *)
From Coq Require Import List ZArith Bool Lia ZifyBool.
From Verif Require Import Base Model_Float Model_Bincode BincodeFacts Model_Vsri Model_Utf8 Model_Csv Spec_Csv CsvFacts.
Import ListNotations.
Open Scope Z_scope.

(** * C42: the two readers of atsc *)

(** A table with headers, all rows as wide as the header row, stored with any of the three line ends, with or without the last one.
    The other columns do not matter; in particular the timestamps are never looked at. *)
Theorem C42_with_headers : forall nt headers rows t ts_field value_field,
  Forall row_ok (headers :: rows) -> Forall (fun r => length r = length headers) rows -> file_of (headers :: rows) t ->
  let answer := read_samples_with_headers nt (Some t) ts_field value_field in
  (~ In ts_field headers -> answer = Ok (CsvFailed TimestampFieldNotFound)) /\
  (In ts_field headers -> ~ In value_field headers -> answer = Ok (CsvFailed ValueFieldNotFound)) /\
  (In ts_field headers -> forall i, first_column value_field headers i ->
     (forall vals, Forall2 (reads_as nt i) rows vals -> answer = Ok (Samples (map (Sample 0) vals))) /\
     (Exists (unreadable nt i) rows -> answer = Ok (CsvFailed ParsingValueFailed))).
Proof.
  intros nt headers rows t tf vf Hok Hw Hf answer. unfold answer, read_samples_with_headers. rewrite (records_table _ _ Hok Hf).
  assert (Pt := position_first tf headers). assert (Pv := position_first vf headers).
  assert (Uh : forallb utf8 headers = true) by (inversion Hok; now apply row_utf8). assert (Ur : Forall (fun r : list text => length r = length headers /\ forallb utf8 r = true) rows).
  { inversion Hok as [|? ? _ Hr]; subst. clear - Hw Hr. induction Hw as [|r rows L Hw IH]; inversion Hr; subst; constructor; auto using row_utf8. }
  rewrite Uh. split; [|split].
  - intros H. destruct (position tf headers) as [i|]; [exfalso; eapply H, first_column_in; exact Pt|reflexivity].
  - intros Ht Hv. destruct (position tf headers) as [i|]; [|contradiction]. destruct (position vf headers) as [j|]; [exfalso; eapply Hv, first_column_in; exact Pv|reflexivity].
  - intros Ht i Hi. destruct (position tf headers) as [i'|]; [|contradiction]. destruct (position vf headers) as [j|]; [|exfalso; eapply Pv, first_column_in; exact Hi].
    rewrite (first_column_unique _ _ _ _ Pv Hi). clear answer Pt Pv Hf Hok i' Ht. split.
    + intros vals H. rewrite <- (app_nil_r rows). rewrite (collect_good nt (length headers) i rows vals Ur H). reflexivity.
    + assert (In_row : forall r : list text, length r = length headers -> exists f, nth_error r i = Some f).
      { intros r Hr. destruct (nth_error r i) eqn:E; [eauto|]. apply nth_error_None in E. destruct Hi as [Hi _].
        assert (i < length headers)%nat by (apply nth_error_Some; congruence). lia. }
      generalize (@nil sample) as acc. clear Hw. induction rows as [|r rows IH]; intros acc H; [inversion H|]. inversion Ur as [|? ? [Hr Hu] Hrs]; subst.
      cbn [collect_samples]. rewrite Hr, Nat.eqb_refl, Hu. cbn [andb]. destruct (In_row r Hr) as [f Ef]. rewrite Ef. destruct (parse_f64 nt f) as [v|] eqn:Ev; [|reflexivity].
      apply IH; [exact Hrs|]. inversion H as [? ? (g & G1 & G2)|? ? H']; subst; [congruence|exact H'].
Qed.
Print Assumptions C42_with_headers.

(** Without headers: the first column, whatever the others hold; the first unreadable value is reported. *)
Theorem C42_no_headers : forall nt width rows t,
  Forall row_ok rows -> Forall (fun r => length r = width) rows -> file_of rows t ->
  (forall vals, Forall2 (reads_as nt 0) rows vals -> read_samples nt (Some t) = Ok (Samples (map (Sample 0) vals))) /\
  (Exists (unreadable nt 0) rows -> read_samples nt (Some t) = Ok (CsvFailed ParsingValueFailed)).
Proof.
  intros nt width rows t Hok Hw Hf. unfold read_samples. rewrite (records_table _ _ Hok Hf).
  destruct rows as [|r0 rows]; [split; [intros vals H; inversion H; reflexivity|intros H; inversion H]|].
  assert (Ur : Forall (fun r : list text => length r = width /\ forallb utf8 r = true) (r0 :: rows)) by (rewrite Forall_forall in *; intros r Hr; split; [now apply Hw|now apply row_utf8, Hok]).
  assert (W0 : length r0 = width) by now inversion Hw. cbn [hd]. rewrite W0. split.
  - intros vals H. rewrite <- (app_nil_r (r0 :: rows)). rewrite (collect_good nt width 0 _ vals Ur H). reflexivity.
  - clear Hf W0 Ur. generalize (@nil sample) as acc. revert Hok Hw. generalize (r0 :: rows) as l. clear. induction l as [|r rows IH]; intros Hok Hw acc H; [inversion H|].
    inversion Hw as [|? ? Hr Hrs]; subst. inversion Hok as [|? ? Hr0 Hok']; subst. pose proof (row_utf8 r Hr0) as Hu. destruct Hr0 as (Hne & _).
    cbn [collect_samples]. rewrite Nat.eqb_refl, Hu. cbn [andb]. destruct r as [|f r]; [congruence|]. cbn [nth_error]. destruct (parse_f64 nt f) as [v|] eqn:Ev; [|reflexivity].
    apply IH; [exact Hok'|exact Hrs|]. inversion H as [? ? (g & G1 & G2)|? ? H']; subst; [cbn in G1; congruence|exact H'].
Qed.
Print Assumptions C42_no_headers.

(** A row of another width, after rows that could be read, makes the reader panic instead of reporting an error. *)
Theorem C42_ragged_row_panics : forall nt headers good bad rest vals t ts_field value_field i,
  Forall row_ok (headers :: good ++ bad :: rest) -> Forall (fun r => length r = length headers) good -> length bad <> length headers ->
  file_of (headers :: good ++ bad :: rest) t -> In ts_field headers -> first_column value_field headers i -> Forall2 (reads_as nt i) good vals ->
  read_samples_with_headers nt (Some t) ts_field value_field = Panic PUnwrap.
Proof.
  intros nt headers good bad rest vals t tf vf i Hok Hw Hb Hf Ht Hi Hv. unfold read_samples_with_headers. rewrite (records_table _ _ Hok Hf).
  assert (Pt := position_first tf headers). assert (Pv := position_first vf headers).
  assert (Uh : forallb utf8 headers = true) by (inversion Hok; now apply row_utf8). rewrite Uh.
  assert (Ur : Forall (fun r : list text => length r = length headers /\ forallb utf8 r = true) good) by (rewrite Forall_forall in *; intros r Hr; split; [now apply Hw|apply row_utf8, Hok; right; apply in_or_app; now left]).
  destruct (position tf headers); [|contradiction]. destruct (position vf headers) as [j|]; [|exfalso; eapply Pv, first_column_in; exact Hi].
  rewrite (first_column_unique _ _ _ _ Pv Hi). rewrite (collect_good nt _ i good vals Ur Hv). cbn [collect_samples].
  replace (length bad =? length headers)%nat with false by lia. reflexivity.
Qed.
Print Assumptions C42_ragged_row_panics.

Theorem C42_missing_file : forall nt a b, read_samples_with_headers nt None a b = Ok (CsvFailed OpenFileFailed) /\ read_samples nt None = Ok (CsvFailed OpenFileFailed).
Proof. split; reflexivity. Qed.
Print Assumptions C42_missing_file.

(** A file of the shipped tests, CRLF, with a number text that knows the two values only. *)
Definition toy_numbers : number_text := {|
  parse_f64 := fun t => if text_eqb t [49; 46; 53] then Some (from_bits 4609434218613702656) else if text_eqb t [50] then Some (from_bits 4611686018427387904) else None;
  show_f64 := fun x => if to_bits x =? 4609434218613702656 then [49; 46; 53] else [50] |}.
Definition text_time : text := [116; 105; 109; 101].
Example C42_example : exists t headers rows, headers = [text_time; field_value] /\ length rows = 2%nat /\
  Forall row_ok (headers :: rows) /\ Forall (fun r => length r = length headers) rows /\ file_of (headers :: rows) t /\ In text_time headers /\ first_column field_value headers 1 /\
  Forall2 (reads_as toy_numbers 1) rows [from_bits 4609434218613702656; from_bits 4611686018427387904].
Proof.
  pose (rows := [[[55]; [49; 46; 53]]; [[]; [50]]] : list (list text)). exists (table_text [13; 10] [] ([text_time; field_value] :: rows)), [text_time; field_value], rows.
  split; [reflexivity|]. split; [reflexivity|]. split.
  { repeat apply Forall_cons; try apply Forall_nil; (split; [discriminate|]; split; [discriminate|]); repeat apply Forall_cons; try apply Forall_nil; unfold plain; repeat apply Forall_cons; try apply Forall_nil; lia. }
  split; [repeat apply Forall_cons; try apply Forall_nil; reflexivity|]. split; [exists [13; 10], []; split; [right; left; reflexivity|split; [now right|reflexivity]]|].
  split; [left; reflexivity|]. split; [split; [reflexivity|]; intros [|j] Hj; [discriminate|lia]|].
  repeat apply Forall2_cons; try apply Forall2_nil; eexists; (split; [reflexivity|]); reflexivity.
Qed.
(** Blank lines and a quoted field: what the reader does with text that is not plain. *)
Example csv_quoted : csv_records [34; 97; 44; 34; 34; 98; 34; 44; 99; 10; 10; 100; 44; 10] = [[[97; 44; 34; 98]; [99]]; [[100]; []]].
Proof. reflexivity. Qed.

(** * C48: csv-compressor's files *)

(** Samples written to a CSV file are read back: the same timestamps and values, for 64-bit timestamps and values whose text is exact. *)
Theorem C48_write_read : forall nt samples,
  Forall (fun s => in_s 64 (sm_ts s) /\ text_exact nt (sm_val s)) samples ->
  read_samples_from_csv_file nt (Some (write_samples_text nt samples)) = Some samples.
Proof.
  intros nt samples H. destruct samples as [|s0 samples0] eqn:E; [reflexivity|]. rewrite <- E in *. assert (Hne : samples <> []) by (rewrite E; discriminate). clear E s0 samples0.
  unfold read_samples_from_csv_file.
  rewrite (records_table ([field_timestamp; field_value] :: map (fun s => [show_int (sm_ts s); show_f64 nt (sm_val s)]) samples)).
  - clear Hne. induction H as [|s samples [H1 H2] H IH]; [reflexivity|]. change (forallb utf8 [field_timestamp; field_value]) with true in *. cbn match in *. cbn [map collect_deserialized length Nat.eqb].
    assert (U : forallb utf8 [show_int (sm_ts s); show_f64 nt (sm_val s)] = true) by (destruct H2 as (H2 & _); cbn [forallb]; rewrite (plain_utf8 _ (proj1 (show_int_plain _ H1))), (plain_utf8 _ H2); reflexivity). rewrite U. cbn [andb].
    assert (D : deserialize_sample nt [field_timestamp; field_value] [show_int (sm_ts s); show_f64 nt (sm_val s)] None None = Some s).
    { unfold deserialize_sample. change (text_eqb field_timestamp field_timestamp) with true. change (text_eqb field_value field_timestamp) with false. change (text_eqb field_value field_value) with true. cbn match.
      rewrite parse_i64_show by exact H1. destruct H2 as (_ & _ & H2). rewrite H2. destruct s; reflexivity. }
    rewrite D. change (length [field_timestamp; field_value]) with 2%nat in IH. now rewrite IH.
  - constructor.
    + split; [discriminate|]. split; [discriminate|]. repeat apply Forall_cons; try apply Forall_nil; unfold plain; repeat apply Forall_cons; try apply Forall_nil; lia.
    + rewrite Forall_map. eapply Forall_impl; [|exact H]. intros s (H1 & H2 & H3 & _). split; [discriminate|]. split; [discriminate|].
      apply Forall_cons; [now apply show_int_plain|]. apply Forall_cons; [exact H2|apply Forall_nil].
  - exists [10], [10]. split; [now left|]. split; [now left|]. now apply written_table.
Qed.
Print Assumptions C48_write_read.

(** What is written: the line timestamp,value and one line per sample; nothing for no samples. *)
Theorem C48_layout : forall nt samples, write_samples_text nt samples =
  match samples with
  | [] => []
  | _ => name_timestamp ++ [44] ++ name_value ++ [10] ++ concat (map (fun s => show_int (sm_ts s) ++ [44] ++ show_f64 nt (sm_val s) ++ [10]) samples)
  end.
Proof. intros nt [|s l]; [reflexivity|]. unfold write_samples_text. rewrite flat_map_concat_map. reflexivity. Qed.
Print Assumptions C48_layout.

(** A CSV whose header row lacks one of the two columns is refused as soon as it has a record. *)
Theorem C48_missing_column : forall nt headers r rows t,
  Forall row_ok (headers :: r :: rows) -> file_of (headers :: r :: rows) t -> ~ In name_timestamp headers \/ ~ In name_value headers ->
  read_samples_from_csv_file nt (Some t) = None.
Proof.
  intros nt headers r rows t Hok Hf H. change name_timestamp with field_timestamp in H. change name_value with field_value in H. unfold read_samples_from_csv_file. rewrite (records_table _ _ Hok Hf). cbn [collect_deserialized].
  replace (forallb utf8 headers) with true by (symmetry; inversion Hok; now apply row_utf8).
  destruct ((length r =? length headers)%nat && _); [|reflexivity].
  enough (E : forall hs fs ts v, (~ In field_timestamp hs /\ ts = None) \/ (~ In field_value hs /\ v = None) -> deserialize_sample nt hs fs ts v = None) by (rewrite E; [reflexivity|tauto]).
  clear. induction hs as [|h hs IH]; intros fs ts v H; cbn [deserialize_sample].
  - destruct H as [[_ ->]|[_ ->]]; [reflexivity|destruct ts; reflexivity].
  - destruct fs as [|f fs]; [destruct H as [[_ ->]|[_ ->]]; [reflexivity|destruct ts; reflexivity]|].
    destruct (text_eqb h field_timestamp) eqn:E1; [|destruct (text_eqb h field_value) eqn:E2].
    + apply text_eqb_spec in E1. subst. destruct ts; [reflexivity|]. destruct (parse_i64 f); [|reflexivity]. apply IH. right. destruct H as [[H _]|[H ->]]; [exfalso; apply H; now left|].
      split; [intros X; apply H; now right|reflexivity].
    + apply text_eqb_spec in E2. subst. destruct v; [reflexivity|]. destruct (parse_f64 nt f); [|reflexivity]. apply IH. left. destruct H as [[H ->]|[H _]]; [|exfalso; apply H; now left].
      split; [intros X; apply H; now right|reflexivity].
    + apply IH. destruct H as [[H ->]|[H ->]]; [left|right]; (split; [intros X; apply H; now right|reflexivity]).
Qed.
Print Assumptions C48_missing_column.

Example C48_example : Forall (fun s => in_s 64 (sm_ts s) /\ text_exact toy_numbers (sm_val s)) [Sample 1 (from_bits 4609434218613702656); Sample (-5) (from_bits 4611686018427387904)] /\
  write_samples_text toy_numbers [Sample 1 (from_bits 4609434218613702656)] = name_timestamp ++ [44] ++ name_value ++ [10; 49; 44; 49; 46; 53; 10].
Proof.
  split; [|vm_compute; reflexivity]. repeat apply Forall_cons; try apply Forall_nil; (split; [unfold in_s; cbn; lia|]); unfold text_exact, plain.
  - assert (E : show_f64 toy_numbers (sm_val (Sample 1 (from_bits 4609434218613702656))) = [49; 46; 53]) by (vm_compute; reflexivity). rewrite E.
    split; [repeat apply Forall_cons; try apply Forall_nil; lia|]. split; [discriminate|reflexivity].
  - assert (E : show_f64 toy_numbers (sm_val (Sample (-5) (from_bits 4611686018427387904))) = [50]) by (vm_compute; reflexivity). rewrite E.
    split; [repeat apply Forall_cons; try apply Forall_nil; lia|]. split; [discriminate|reflexivity].
Qed.
