(** C79: the tools agree with each other (atsc and csv-compressor on the same files). *)
From Coq Require Import List ZArith Bool Lia Sorted ZifyBool.
From Flocq Require Import Core IEEE754.Binary.
From Verif Require Import Base Model_Float Model_Bincode BincodeFacts Spec Model_Vsri Model_Wavbrro Model_Utf8 Spec_Utf8 Utf8Facts Model_Csv Spec_Csv Spec_CsvTable CsvFacts CsvTextFacts TextFacts Model_Stream Model_Cli
  Props_Wavbrro Props_Csv Props_CsvTable Props_Cli Props_Tools Props_Csvc Props_Fft Props_Lossless.
Import ListNotations.
Open Scope Z_scope.

(** The settings of a call of csv-compressor and of atsc that influence compression are the same. *)
Definition same_settings (c : csvc_args) (a : atsc_args) : Prop :=
  a_compressor a = c_compressor c /\ a_error a = c_error c /\ a_level a = c_level c.
(** The call compresses x.old, and writes y.bro: the output name given has stem y, or none is given and y is x. *)
Definition csvc_compresses (c : csvc_args) (x : name) (old : text) (y : name) : Prop :=
  c_input c = named x old /\ c_uncompress c = false /\ c_no_compression c = false /\
  (c_output c = None /\ y = x \/ exists o, c_output c = Some (named y o) /\ proper_ext o).
Definition csvc_uncompresses (c : csvc_args) (x : name) (old : text) (y : name) : Prop :=
  c_input c = named x old /\ c_uncompress c = true /\
  (c_output c = None /\ y = x \/ exists o, c_output c = Some (named y o) /\ proper_ext o).
(** atsc --csv --fields=timestamp,value (44: the comma). *)
Definition reads_csv (a : atsc_args) : Prop :=
  a_uncompress a = false /\ a_csv a = true /\ a_no_header a = false /\ a_fields a = name_timestamp ++ [44] ++ name_value.

(** * Reading *)
Lemma only_first n headers i : only_column n headers i -> first_column n headers i.
Proof. intros H. split; [now apply H|]. intros j Hj E. apply H in E. lia. Qed.

Lemma readers_agree nt (t : text) samples : is_utf8 t -> read_samples_from_csv_file nt (Some t) = Some samples -> samples <> [] ->
  read_samples_with_headers nt (Some t) field_timestamp field_value = Ok (Samples (map (Sample 0) (values samples))).
Proof.
  intros Ut. unfold read_samples_from_csv_file, read_samples_with_headers. pose proof (records_utf8 t Ut) as Us. destruct (csv_records t) as [|h rs]; [intros H; assert (samples = []) by congruence; congruence|].
  assert (Uh : forallb utf8 h = true) by (inversion Us; now apply cells_utf8). rewrite Uh. intros H Hne. clear Us.
  assert (G : exists i j, only_column field_timestamp h i /\ only_column field_value h j).
  { destruct rs as [|r rs]; [cbn in H; assert (samples = []) by congruence; congruence|]. cbn [collect_deserialized] in H. destruct (Nat.eqb_spec (length r) (length h)) as [L|L]; [|discriminate H]. destruct (forallb utf8 r); [cbn [andb] in H|discriminate H].
    destruct (deserialize_sample nt h r None None) as [s|] eqn:Es; [|discriminate H]. apply (deserialize_of nt h r None None s L) in Es.
    destruct Es as [[(X & _)|(_ & i & f & I1 & _)] [(Y & _)|(_ & j & J1 & _)]]; try discriminate X; try discriminate Y. eauto. }
  destruct G as (i & j & Hi & Hj). assert (Pt := position_first field_timestamp h). assert (Pv := position_first field_value h).
  apply only_first in Hi. destruct (position field_timestamp h) as [i'|]; [|exfalso; eapply Pt, first_column_in; exact Hi].
  destruct (position field_value h) as [j'|]; [|exfalso; eapply Pv, first_column_in; exact (only_first _ _ _ Hj)].
  assert (j' = j) by (apply (first_column_unique _ _ _ _ Pv (only_first _ _ _ Hj))). subst j'. clear Pt Hne Hi i i'.
  assert (Lj : (j < length h)%nat) by (apply nth_error_Some; destruct Pv as [P _]; congruence).
  apply (collect_exact nt (length h) j rs Lj [] _). exists (values samples). split; [reflexivity|].
  revert samples H. induction rs as [|r rs IH]; intros samples H; cbn [collect_deserialized] in H; [assert (samples = []) as -> by congruence; constructor|].
  destruct (Nat.eqb_spec (length r) (length h)) as [L|L]; [|discriminate H]. destruct (forallb utf8 r) eqn:Ur; [cbn [andb] in H|discriminate H]. destruct (deserialize_sample nt h r None None) as [s|] eqn:Es; [|discriminate H].
  destruct (collect_deserialized (length h) _ rs) as [ss|] eqn:Er; [|discriminate H]. cbn [option_map] in H. assert (samples = s :: ss) as -> by congruence. cbn [values map].
  constructor; [|now apply IH]. split; [exact L|]. split; [|now apply cells_utf8]. apply (deserialize_of nt h r None None s L) in Es.
  destruct Es as [_ [(Y & _)|(_ & k & K1 & K2)]]; [discriminate Y|]. assert (k = j) as -> by (apply Hj, K1; reflexivity). exact K2.
Qed.

(** * What csv-compressor compresses *)
Lemma built_values p samples : forall w v m, well_chunked (wb_chunks w) -> 0 <= wb_count w -> wb_count w + Z.of_nat (length samples) < 2 ^ 32 ->
  append_samples p (Metric w v) samples = Ok (m, None) ->
  well_chunked (wb_chunks (mt_wbro m)) /\ wb_count (mt_wbro m) = wb_count w + Z.of_nat (length samples) /\ wb_bitdepth (mt_wbro m) = wb_bitdepth w /\ wb_samples (mt_wbro m) = wb_samples w ++ values samples.
Proof.
  induction samples as [|s samples IH]; intros w v m Hw H0 Hn H.
  - cbn in H. apply ok_inj in H. assert (m = Metric w v) as -> by congruence. cbn [mt_wbro values map length]. rewrite app_nil_r. repeat split; auto. cbn. lia.
  - cbn [append_samples] in H. destruct (day_elapsed_seconds _) as [ts|]; [|discriminate H]. cbn [bind mt_vsri mt_wbro] in H. destruct (update_for_point p v ts) as [[v1 b]|]; [|discriminate H]. cbn [bind] in H.
    destruct b; [|discriminate H]. cbn [length] in Hn. destruct (wb_add_spec p w (sm_val s) Hw H0) as (cs & Ea & Hcs & Hcc); [lia|]. rewrite Ea in H. cbn [bind] in H.
    destruct (IH (WB (wb_count w + 1) (wb_bitdepth w) cs) v1 m Hcs) as (I1 & I2 & I3 & I4); [cbn [wb_count]; lia|cbn [wb_count]; lia|exact H|].
    split; [exact I1|]. split; [rewrite I2; cbn [wb_count length]; lia|]. split; [exact I3|]. rewrite I4. unfold wb_samples at 1. cbn [wb_chunks]. rewrite Hcc, <- app_assoc. reflexivity.
Qed.

Lemma metric_wbro p samples m : Z.of_nat (length samples) < 2 ^ 32 -> from_samples p samples = Ok (MetricOk m) ->
  mt_wbro m = wb_from_slice (values samples) /\ wb_samples (mt_wbro m) = values samples.
Proof.
  intros Hn H. unfold from_samples, metric_default in H. destruct (append_samples p (Metric wb_new vsri_new) samples) as [[m' [s|]]|] eqn:E; cbn [bind] in H; try discriminate H. apply ok_inj in H. assert (m' = m) as -> by congruence.
  destruct (built_values p samples wb_new vsri_new m ltac:(now left) ltac:(cbn; lia) ltac:(cbn [wb_new wb_count]; lia) E) as (I3 & I4 & I5 & I2). split; [|exact I2].
  destruct (slice_chunks_spec (length (values samples)) (values samples) (le_n _)) as [W C]. assert (L : length (values samples) = length samples) by apply map_length.
  destruct (mt_wbro m) as [c b cs]. cbn [wb_count wb_bitdepth wb_chunks wb_new] in *. unfold wb_from_slice, wrap_u. rewrite Z.mod_small by lia.
  f_equal; [rewrite L; exact I4|exact I5|]. apply well_chunked_unique; [exact I3|exact W|]. rewrite C. exact I2.
Qed.

Lemma proper_wavbro : proper_ext ext_wavbro. Proof. unfold proper_ext, ext_wavbro. cbn. lia. Qed.

(** A compression call of csv-compressor that ends normally. *)
Lemma csvc_done e p nt c fs x old y samples fs1 : proper_stem x -> proper_stem y -> proper_ext old -> csvc_compresses c x old y ->
  read_samples_from_csv_file nt (fs (named x old)) = Some samples -> Z.of_nat (length samples) <= 2 ^ 28 -> csvc_process_args e p nt c fs = (fs1, Done) ->
  exists bytes, compress_data e p (values samples) (c_compressor c) (c_error c) (c_level c) = Ok bytes /\ fs1 (named y ext_bro) = Some bytes /\
    (c_output_wavbrro c = true -> from_file (fs1 (named y ext_wavbro)) = Ok (WbSamples (values samples))).
Proof.
  intros Hx Hy Ho (Hi & Hu & Hn & Hb) Hr Hl H. unfold csvc_process_args in H. rewrite Hu in H. unfold csvc_compress in H. rewrite Hi in H.
  assert (B : forall ext, set_extension (match c_output c with Some o => o | None => named x old end) ext = named y ext).
  { intros ext. destruct Hb as [(-> & ->)|(o & -> & Po)]; now apply set_ext_named. }
  rewrite !B in H. clear B Hb. unfold process_csv in H. rewrite Hr in H. destruct (from_samples p samples) as [[m|]|] eqn:Em; cbn [bind] in H; try discriminate H.
  destruct (metric_wbro p samples m ltac:(lia) Em) as [W V].
  destruct (put_wbro_reads fs (named y ext_wavbro) (values samples)) as (file & P & R); [unfold values; rewrite map_length; exact Hl|].
  rewrite Hn, W, P, <- W, V in H. assert (D1 := named_differ y ext_wavbro ext_bro ltac:(discriminate)). assert (D2 := named_differ y ext_wavbro ext_vsri ltac:(discriminate)).
  destruct (compress_data e p (values samples) (c_compressor c) (c_error c) (c_level c)) as [bytes|]; [|destruct (c_output_wavbrro c); cbn in H; discriminate H].
  exists bytes. split; [reflexivity|]. destruct (c_output_wavbrro c).
  - injection H as <-. split; [apply put_same|]. intros _. rewrite put_other by exact D1. destruct (c_output_vsri c); [rewrite put_other by exact D2|]; now rewrite put_same.
  - injection H as <-. split; [apply put_same|]. discriminate.
Qed.

(** *** C79 *)
(** A UTF-8 CSV file with at least one row that csv-compressor compresses: atsc with --csv --fields=timestamp,value and the same settings
    ends normally too, writes the same bytes to x.bro, and changes nothing else. *)
Theorem C79_same_compressed_file : forall e p nt c a fs x old y (t : text) samples fs1,
  proper_stem x -> proper_stem y -> proper_ext old -> csvc_compresses c x old y -> same_settings c a -> reads_csv a ->
  fs (named x old) = Some t -> is_utf8 t -> read_samples_from_csv_file nt (Some t) = Some samples -> samples <> [] -> Z.of_nat (length samples) <= 2 ^ 28 ->
  csvc_process_args e p nt c fs = (fs1, Done) ->
  exists fs2, process_single_file e p nt a fs (named x old) = (fs2, Done) /\
    (exists bytes, fs1 (named y ext_bro) = Some bytes /\ fs2 (named x ext_bro) = Some bytes) /\ only_changes (named x ext_bro) fs fs2.
Proof.
  intros e p nt c a fs x old y t samples fs1 Hx Hy Ho Hc (S1 & S2 & S3) (A1 & A2 & A3 & A4) Ef Ut Hr Hne Hl H. rewrite <- Ef in Hr.
  destruct (csvc_done e p nt c fs x old y samples fs1 Hx Hy Ho Hc Hr Hl H) as (bytes & Cb & F & _).
  exists (put fs (named x ext_bro) bytes). split; [|split; [exists bytes; split; [exact F|apply put_same]|intros m Hm; now apply put_other]].
  unfold process_single_file, compress_to. rewrite A1, A2, A3, A4, S1, S2, S3. change (split_on ch_comma (name_timestamp ++ [44] ++ name_value)) with [field_timestamp; field_value]. cbn match zeta.
  rewrite Ef in *. rewrite (readers_agree nt _ samples Ut Hr Hne). rewrite map_map. cbn [sm_val]. rewrite map_id, Cb, set_ext_named by assumption. reflexivity.
Qed.
Print Assumptions C79_same_compressed_file.

(** With --output-wavbrro: compressing the y.wavbro it leaves with atsc and the same settings gives y.bro again, byte by byte: no file
    changes. *)
Theorem C79_wavbro_recompressed : forall e p nt c a fs x old y samples fs1,
  proper_stem x -> proper_stem y -> proper_ext old -> csvc_compresses c x old y -> c_output_wavbrro c = true ->
  same_settings c a -> a_uncompress a = false -> a_csv a = false ->
  read_samples_from_csv_file nt (fs (named x old)) = Some samples -> Z.of_nat (length samples) <= 2 ^ 28 ->
  csvc_process_args e p nt c fs = (fs1, Done) ->
  exists fs2, process_single_file e p nt a fs1 (named y ext_wavbro) = (fs2, Done) /\ forall n, fs2 n = fs1 n.
Proof.
  intros e p nt c a fs x old y samples fs1 Hx Hy Ho Hc Hw (S1 & S2 & S3) A1 A2 Hr Hl H.
  destruct (csvc_done e p nt c fs x old y samples fs1 Hx Hy Ho Hc Hr Hl H) as (bytes & Cb & F & R). specialize (R Hw).
  exists (put fs1 (named y ext_bro) bytes). split.
  - unfold process_single_file, compress_to. rewrite A1, A2, R, S1, S2, S3, Cb, set_ext_named by auto using proper_wavbro. reflexivity.
  - intros n. destruct (list_eq_dec Z.eq_dec n (named y ext_bro)) as [->|D]; [now rewrite put_same|now apply put_other].
Qed.
Print Assumptions C79_wavbro_recompressed.

(** Uncompressing: what csv-compressor leaves in y.wbro is what atsc leaves in x.wbro. *)
Theorem C79_same_uncompressed_file : forall e p nt c a fs x old y fs1,
  proper_stem x -> proper_stem y -> proper_ext old -> csvc_uncompresses c x old y -> a_uncompress a = true ->
  csvc_process_args e p nt c fs = (fs1, Done) ->
  exists fs2, process_single_file e p nt a fs (named x old) = (fs2, Done) /\
    (fs1 = fs /\ fs2 = fs \/ fs1 (named y ext_wbro) = fs2 (named x ext_wbro) /\ fs2 (named x ext_wbro) <> None) /\
    only_changes (named x ext_wbro) fs fs2.
Proof.
  intros e p nt c a fs x old y fs1 Hx Hy Ho (Hi & Hu & Hb) A H. unfold csvc_process_args in H. rewrite Hu in H. unfold csvc_uncompress in H. rewrite Hi in H.
  assert (B : forall ext, set_extension (match c_output c with Some o => o | None => named x old end) ext = named y ext).
  { intros ext. destruct Hb as [(-> & ->)|(o & -> & Po)]; now apply set_ext_named. }
  rewrite !B in H. clear B Hb. unfold process_single_file. rewrite A, !set_ext_named by assumption. rewrite set_ext_named in H by assumption.
  destruct (fs (named x old)) as [b|]; [|discriminate H]. destruct (bro_read b) as [| |bytes]; [discriminate H|exists fs; assert (fs1 = fs) by congruence; split; [reflexivity|]; split; [now left|now intros m Hm]|].
  destruct (decompress_data e p bytes) as [out|]; [|discriminate H]. cbn [bind] in H. destruct (fold_res (wb_add p) out wb_new) as [w|]; [|discriminate H]. cbn [bind] in H.
  destruct (fs (named x ext_vsri)) as [ib|]; [|discriminate H]. destruct (load ib) as [idx|]; [|discriminate H].
  unfold put_wbro in *. destruct (do c0 <- wb_to_bytes (wb_from_slice out); wbro_file c0) as [file|]; [|discriminate H].
  destruct (get_samples p (Metric w idx)) as [ss|]; [|discriminate H]. injection H as <-.
  exists (put fs (named x ext_wbro) file). split; [reflexivity|]. split; [|intros m Hm; now apply put_other]. right.
  rewrite set_ext_named by auto using proper_wbro. rewrite put_other by (apply named_differ; discriminate). rewrite !put_same. split; [reflexivity|discriminate].
Qed.
Print Assumptions C79_same_uncompressed_file.

(** The CSV files csv-compressor writes: atsc --csv with its default --fields=time,value refuses them; with
    --fields=timestamp,value it compresses their values. *)
Theorem C79_default_fields_refuted : forall e p nt a fs x old samples,
  samples <> [] -> Forall (fun s => in_s 64 (sm_ts s) /\ text_exact nt (sm_val s)) samples ->
  fs (named x old) = Some (write_samples_text nt samples) ->
  a_uncompress a = false -> a_csv a = true -> a_no_header a = false -> a_fields a = [116; 105; 109; 101; 44] ++ name_value ->
  process_single_file e p nt a fs (named x old) = (fs, Failed (CsvError TimestampFieldNotFound)).
Proof.
  intros e p nt a fs x old samples Hne H Hf A1 A2 A3 A4. unfold process_single_file. rewrite A1, A2, A3, A4, Hf. change (split_on ch_comma ([116; 105; 109; 101; 44] ++ name_value)) with [[116; 105; 109; 101]; field_value]. cbn match zeta.
  unfold read_samples_with_headers. rewrite (records_table ([field_timestamp; field_value] :: map (fun s => [show_int (sm_ts s); show_f64 nt (sm_val s)]) samples)); [reflexivity| |].
  - constructor.
    + split; [discriminate|]. split; [discriminate|]. repeat apply Forall_cons; try apply Forall_nil; unfold plain; repeat apply Forall_cons; try apply Forall_nil; lia.
    + rewrite Forall_map. eapply Forall_impl; [|exact H]. intros s (H1 & H2 & H3 & _). split; [discriminate|]. split; [discriminate|].
      apply Forall_cons; [now apply show_int_plain|]. apply Forall_cons; [exact H2|apply Forall_nil].
  - exists [10], [10]. split; [now left|]. split; [now left|]. now apply written_table.
Qed.
Print Assumptions C79_default_fields_refuted.

Lemma written_utf8 nt samples : Forall (fun s => in_s 64 (sm_ts s) /\ text_exact nt (sm_val s)) samples -> is_utf8 (write_samples_text nt samples).
Proof.
  intros H. apply is_utf8_ascii. destruct samples as [|s0 l0] eqn:E; [constructor|]. rewrite <- E in *. replace (write_samples_text nt samples) with
    (field_timestamp ++ [ch_comma] ++ field_value ++ [ch_nl] ++ flat_map (fun s => show_int (sm_ts s) ++ [ch_comma] ++ show_f64 nt (sm_val s) ++ [ch_nl]) samples) by (rewrite E; reflexivity). clear E.
  assert (P : forall f, plain f -> Forall (fun c => 0 <= c < 128) f) by (intros f Hf; eapply Forall_impl; [|exact Hf]; cbn; intros c Hc; lia).
  assert (C : Forall (fun c => 0 <= c < 128) [ch_comma]) by (apply Forall_cons; [unfold ch_comma; lia|apply Forall_nil]).
  assert (N : Forall (fun c => 0 <= c < 128) [ch_nl]) by (apply Forall_cons; [unfold ch_nl; lia|apply Forall_nil]).
  apply Forall_app. split; [unfold field_timestamp; repeat apply Forall_cons; try apply Forall_nil; lia|]. apply Forall_app. split; [exact C|]. apply Forall_app. split; [unfold field_value; repeat apply Forall_cons; try apply Forall_nil; lia|].
  apply Forall_app. split; [exact N|]. induction H as [|s l (H1 & H2 & _) H IH]; [constructor|]. cbn [flat_map]. repeat (apply Forall_app; split); auto. apply P, show_int_plain, H1.
Qed.
Theorem C79_written_values_compressed : forall e p nt a fs x old samples bytes,
  proper_stem x -> proper_ext old -> reads_csv a ->
  samples <> [] -> Forall (fun s => in_s 64 (sm_ts s) /\ text_exact nt (sm_val s)) samples ->
  fs (named x old) = Some (write_samples_text nt samples) ->
  compress_data e p (map sm_val samples) (a_compressor a) (a_error a) (a_level a) = Ok bytes ->
  exists fs1, process_single_file e p nt a fs (named x old) = (fs1, Done) /\ fs1 (named x ext_bro) = Some bytes /\ only_changes (named x ext_bro) fs fs1.
Proof.
  intros e p nt a fs x old samples bytes Hx Ho (A1 & A2 & A3 & A4) Hne H Hf Cb. exists (put fs (named x ext_bro) bytes). split; [|split; [apply put_same|intros m Hm; now apply put_other]].
  unfold process_single_file, compress_to. rewrite A1, A2, A3, A4, Hf. change (split_on ch_comma (name_timestamp ++ [44] ++ name_value)) with [field_timestamp; field_value]. cbn match zeta.
  rewrite (readers_agree nt _ samples (written_utf8 nt samples H) (C48_write_read nt samples H) Hne). rewrite map_map. cbn [sm_val]. unfold values. rewrite map_id, Cb, set_ext_named by assumption. reflexivity.
Qed.
Print Assumptions C79_written_values_compressed.

(** Two samples at 00:00:05 and 00:01:05, written by csv-compressor, compressed with --compressor noop --output-vsri --output-wavbrro. *)
Definition noop_call : csvc_args := {| c_input := named w_x ext_csv; c_output := None; c_uncompress := false; c_no_compression := false; c_output_vsri := true; c_output_wavbrro := true;
  c_compressor := Noop; c_error := 5; c_level := 0 |}.
Definition noop_csv (uncompress csv : bool) : atsc_args := {| a_compressor := Noop; a_error := 5; a_level := 0; a_uncompress := uncompress; a_csv := csv; a_no_header := false; a_fields := name_timestamp ++ [44] ++ name_value |}.
Definition back_call : csvc_args := {| c_input := named w_x ext_bro; c_output := None; c_uncompress := true; c_no_compression := false; c_output_vsri := false; c_output_wavbrro := false;
  c_compressor := Noop; c_error := 5; c_level := 0 |}.
Example C79_example : forall e, csvc_compresses noop_call w_x ext_csv w_x /\ csvc_uncompresses back_call w_x ext_bro w_x /\ same_settings noop_call (noop_csv false true) /\ reads_csv (noop_csv false true) /\
  (exists t, csv_file (named w_x ext_csv) = Some t /\ is_utf8 t) /\ read_samples_from_csv_file toy_numbers (csv_file (named w_x ext_csv)) = Some two_samples /\ Forall (fun s => in_s 64 (sm_ts s) /\ text_exact toy_numbers (sm_val s)) two_samples /\
  exists fs1 fs2, csvc_process_args e Dev toy_numbers noop_call csv_file = (fs1, Done) /\ csvc_process_args e Dev toy_numbers back_call fs1 = (fs2, Done).
Proof.
  intros e. split; [repeat split; now left|]. split; [repeat split; now left|]. split; [repeat split|]. split; [repeat split|]. split; [eexists; split; [reflexivity|]; apply utf8_spec; vm_compute; reflexivity|]. split; [vm_compute; reflexivity|]. split.
  { assert (P : forall f, forallb (fun c => (0 <=? c) && (c <? 128) && negb (c =? 44) && negb (c =? 34) && negb (c =? 10) && negb (c =? 13)) f = true -> plain f).
    { intros f H. apply Forall_forall. intros c Hc. rewrite forallb_forall in H. specialize (H c Hc). lia. }
    apply Forall_cons; [|apply Forall_cons; [|apply Forall_nil]]; (split; [cbn [sm_ts]; unfold in_s; lia|]; split; [apply P; vm_compute; reflexivity|]; split; [vm_compute; discriminate|vm_compute; reflexivity]). }
  remember (csvc_process_args e Dev toy_numbers noop_call csv_file) as r eqn:E. destruct r as [fs1 o]. exists fs1.
  assert (o = Done) as -> by (change o with (snd (fs1, o)); rewrite E; vm_compute; reflexivity).
  remember (csvc_process_args e Dev toy_numbers back_call fs1) as r2 eqn:E2. destruct r2 as [fs2 o2]. exists fs2. split; [reflexivity|].
  assert (o2 = Done) as -> by (change o2 with (snd (fs2, o2)); rewrite E2; replace fs1 with (fst (csvc_process_args e Dev toy_numbers noop_call csv_file)) by (rewrite <- E; reflexivity); vm_compute; reflexivity). reflexivity.
Qed.
