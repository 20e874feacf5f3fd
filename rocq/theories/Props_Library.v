(** Further statements on C42, C44, C48 and C50: the byte-order mark, the library's own entry points of the Fourier
    compressor, and other output names of csv-compressor. *)
From Coq Require Import List ZArith Bool Lia ZifyBool.
From Verif Require Import Base Model_Float Model_Bincode BincodeFacts Spec Model_Utils Model_Stats Model_Compressors PolyLoopFacts Model_Polynomial Model_Fft Model_Stream FftFacts Props_Fft PlanFacts PipelineFacts Props_Poly Props_Plan Props_Pipeline
  Model_Vsri Spec_Vsri VsriFacts VsriLookup Props_Vsri Props_VsriFile Model_Wavbrro Props_Wavbrro Model_Csv Spec_Csv CsvFacts Props_Csv Model_Cli Props_Tools Props_Cli Props_Wav Props_Csvc.
Import ListNotations.
Open Scope Z_scope.

(** * The byte-order mark (EF BB BF) *)
Definition byte_order_mark : text := [239; 187; 191].

Lemma records_after_mark t : csv_records (byte_order_mark ++ t) = csv_run StartRecord [] [] t.
Proof. reflexivity. Qed.

(** A file is read the same with a mark in front of it as without (a second mark counts as text). *)
Theorem C42_byte_order_mark : forall nt t ts_field value_field, (forall u, t <> byte_order_mark ++ u) ->
  read_samples_with_headers nt (Some (byte_order_mark ++ t)) ts_field value_field = read_samples_with_headers nt (Some t) ts_field value_field /\
  read_samples nt (Some (byte_order_mark ++ t)) = read_samples nt (Some t).
Proof.
  intros nt t tf vf Hn. assert (E : csv_records (byte_order_mark ++ t) = csv_records t).
  { rewrite records_after_mark. unfold csv_records. f_equal. unfold strip_bom. destruct t as [|a [|b [|c r]]]; try reflexivity.
    destruct ((a =? 239) && (b =? 187) && (c =? 191)) eqn:G; [|reflexivity]. exfalso. apply (Hn r). cbn [app byte_order_mark]. repeat f_equal; lia. }
  unfold read_samples_with_headers, read_samples. rewrite E. split; reflexivity.
Qed.
Print Assumptions C42_byte_order_mark.
Theorem C48_byte_order_mark : forall nt t, (forall u, t <> byte_order_mark ++ u) ->
  read_samples_from_csv_file nt (Some (byte_order_mark ++ t)) = read_samples_from_csv_file nt (Some t).
Proof.
  intros nt t Hn. assert (E : csv_records (byte_order_mark ++ t) = csv_records t).
  { rewrite records_after_mark. unfold csv_records. f_equal. unfold strip_bom. destruct t as [|a [|b [|c r]]]; try reflexivity.
    destruct ((a =? 239) && (b =? 187) && (c =? 191)) eqn:G; [|reflexivity]. exfalso. apply (Hn r). cbn [app byte_order_mark]. repeat f_equal; lia. }
  unfold read_samples_from_csv_file. rewrite E. reflexivity.
Qed.
Print Assumptions C48_byte_order_mark.
Example C42_mark_example : exists t, (forall u, t <> byte_order_mark ++ u) /\ read_samples toy_numbers (Some t) = Ok (Samples [Sample 0 (from_bits 4609434218613702656)]).
Proof. exists [49; 46; 53; 10]. split; [intros u H; discriminate H|]. vm_compute. reflexivity. Qed.

(** * The library's own entry points of the Fourier compressor *)
Lemma scan_minmax l : forall s, fold_left minmax_step l (sc_min s, sc_max s) = (sc_min (fold_left scan_step l s), sc_max (fold_left scan_step l s)).
Proof.
  induction l as [|x l IH]; intros s; [reflexivity|]. cbn [fold_left]. rewrite <- IH. f_equal.
Qed.
Lemma minmax_stats data st : data_stats data = Ok st -> fft_minmax data = Ok (st_min st, st_max st).
Proof.
  destruct data as [|d l]; [discriminate|]. unfold data_stats, fft_minmax. intros H. apply ok_inj in H. subst st. cbn [st_min st_max].
  f_equal. exact (scan_minmax (d :: l) {| sc_i := 0; sc_max := d; sc_max_loc := 0; sc_min := d; sc_min_loc := 0; sc_sum := f0; sc_fractional := false |}).
Qed.

(** [fft_allowed_error] gives what the compressor object gives with that bound (so C44 and C25 speak about it too), and [fft]
    and [fft_set] with the default number of frequencies what it gives without a bound. *)
Theorem C44_library_calls : forall e p data bound, data <> [] ->
  fft_allowed_error (e_fft e) data bound = compress_results e p FFT data bound /\
  fft (e_fft e) data = compress e FFT data /\
  fft_set (e_fft e) data (default_freqs (length data)) = compress e FFT data.
Proof.
  intros e p data bound Hne. destruct (StatsFacts.data_stats_total data Hne) as [st Hst].
  unfold fft_allowed_error, compress_results, compress. rewrite (minmax_stats data st Hst), Hst. cbn [bind fst snd].
  split; [reflexivity|]. split; reflexivity.
Qed.
Print Assumptions C44_library_calls.

(** * csv-compressor with output names *)
(** An output argument whose files are y.bro, y.vsri, ...: y itself, with no dot in the file name, or y with some extension. *)
Definition undotted (y : name) : Prop := exists d f, y = d ++ f /\ directory d /\ f <> [] /\ ~ In 47 f /\ ~ In 46 f.
Definition output_base (o y : name) : Prop := proper_stem y /\ ((undotted y /\ o = y) \/ exists ext, proper_ext ext /\ o = named y ext).
Definition compress_to_call (a : csvc_args) (x o : name) : csvc_args := {|
  c_input := named x ext_csv; c_output := Some o; c_uncompress := false; c_no_compression := false; c_output_vsri := true; c_output_wavbrro := false;
  c_compressor := c_compressor a; c_error := c_error a; c_level := c_level a |}.
Definition uncompress_to_call (a : csvc_args) (y o : name) : csvc_args := {|
  c_input := named y ext_bro; c_output := Some o; c_uncompress := true; c_no_compression := false; c_output_vsri := false; c_output_wavbrro := false;
  c_compressor := c_compressor a; c_error := c_error a; c_level := c_level a |}.

Lemma no_dot l : ~ In 46 l -> last_dot l = None.
Proof.
  induction l as [|c l IH]; [reflexivity|]. intros H. cbn [last_dot]. rewrite IH by (intros G; apply H; now right).
  replace (c =? ch_dot) with false; [reflexivity|]. symmetry. apply Z.eqb_neq. intros ->. apply H. now left.
Qed.
Lemma base_ext o y ext : output_base o y -> set_extension o ext = named y ext.
Proof.
  intros (Hne & [((d & f & -> & Hd & H1 & H2 & H3) & ->)|(old & Ho & ->)]); [|now apply set_ext_named].
  rewrite set_ext_in by (try assumption; intros ->; apply H3; now left). unfold file_stem, named. now rewrite no_dot, <- !app_assoc.
Qed.

(** Compressed to y.bro and y.vsri and uncompressed to z.wbro and z.csv: as C50_round_trip, and no other file changes; in
    particular the original x.csv stays if z is another name. *)
Theorem C50_output_names : forall e p nt a fs x oy y oz z samples t0 d s,
  env_ok e -> proper_stem x -> output_base oy y -> output_base oz z -> csvc_accepted a -> read_samples_from_csv_file nt (fs (named x ext_csv)) = Some samples ->
  regular_day_samples t0 d samples -> In s samples -> finite (sm_val s) ->
  exists fs1 fs2 bytes out cleaned,
    csvc_process_args e p nt (compress_to_call a x oy) fs = (fs1, Done) /\
    csvc_process_args e p nt (uncompress_to_call a y oz) fs1 = (fs2, Done) /\
    compress_data e p (values samples) (c_compressor a) (c_error a) (c_level a) = Ok bytes /\ decompress_data e p bytes = Ok out /\
    subsequence_of finite (values samples) cleaned /\ length out = length cleaned /\
    fs1 (named y ext_bro) = Some bytes /\
    (forall m, m <> named y ext_bro -> m <> named y ext_vsri -> fs1 m = fs m) /\
    fs2 (named z ext_csv) = Some (write_samples_text nt (at_period t0 d out)) /\
    from_file (fs2 (named z ext_wbro)) = Ok (WbSamples out) /\
    (forall m, m <> named z ext_csv -> m <> named z ext_wbro -> fs2 m = fs1 m).
Proof.
  intros e p nt a fs x oy y oz z samples t0 d s He Hx Hy Hz (Ha1 & Ha2) Hr Hreg Hin Fin. assert (Hreg' := Hreg). destruct Hreg' as (Ha & Hd & Hb & Hne & Hdat & Hsec).
  assert (Hp : day_points (seconds samples)) by (rewrite Hsec; apply regular_day; assumption).
  assert (L86 : Z.of_nat (length samples) <= 86400) by (rewrite <- (map_length sample_second samples); now apply day_length).
  assert (Cl := clean_data_spec (values samples)). assert (Lc : (length (clean_data (values samples)) <= length samples)%nat).
  { rewrite <- (map_length sm_val samples). fold (values samples). clear - Cl. induction Cl; cbn [length]; lia. }
  assert (Hfit : fits_counter p (values samples)) by (left; rewrite <- clean_is; lia).
  destruct (C13_pipeline_sample_count e p (values samples) (c_compressor a) (c_error a) (c_level a) He ltac:(lia) Ha2 Hfit) as (bytes & out & Cb & Do & Len). rewrite <- clean_is in Len.
  assert (Rd := C15_nonempty_series_readable e p (values samples) (c_compressor a) (c_error a) (c_level a) bytes (sm_val s) He ltac:(lia) Ha2 Hfit (in_map sm_val _ _ Hin) Fin Cb).
  destruct (C39_increasing p samples Hdat Hp) as (w0 & v & E & V & I & _).
  assert (Hy0 : proper_stem y) by apply Hy.
  set (fs1 := put (put fs (named y ext_vsri) (flush_bytes v)) (named y ext_bro) bytes).
  assert (S1 : csvc_process_args e p nt (compress_to_call a x oy) fs = (fs1, Done)).
  { unfold csvc_process_args, compress_to_call. cbn [c_uncompress]. unfold csvc_compress, process_csv. cbn [c_input c_output c_output_wavbrro c_output_vsri c_no_compression c_compressor c_error c_level].
    rewrite Hr, E. cbn [bind mt_wbro mt_vsri]. rewrite V, Cb, !(base_ext oy y _ Hy). reflexivity. }
  destruct (put_wbro_reads fs1 (named z ext_wbro) out ltac:(lia)) as (file & P & F).
  assert (Hz0 : proper_stem z) by apply Hz.
  assert (S2 : csvc_process_args e p nt (uncompress_to_call a y oz) fs1 = (put (put fs1 (named z ext_wbro) file) (named z ext_csv) (write_samples_text nt (at_period t0 d out)), Done)).
  { unfold csvc_process_args, uncompress_to_call. cbn [c_uncompress]. unfold csvc_uncompress. cbn [c_input c_output].
    unfold fs1 at 1. rewrite put_same, Rd, Do. cbn [bind]. destruct (C36_accumulates p out ltac:(lia)) as (w & Ew & Sw & _). rewrite <- fold_add_all in Ew. rewrite Ew. cbn [bind].
    rewrite !(base_ext oz z _ Hz), !set_ext_named by auto using proper_bro, proper_wbro. unfold fs1 at 1. rewrite put_other by (apply named_differ; discriminate). rewrite put_same.
    rewrite (C34_day_index_round_trip p _ v Hp I), P. unfold get_samples. cbn [mt_vsri mt_wbro]. rewrite Sw.
    assert (T := pair_at_period p v t0 d (length samples) out). rewrite Hsec in I.
    rewrite (T (regular_times p t0 d (length samples) v Ha Hd Hb ltac:(destruct samples; [congruence|cbn; lia]) I) L86 0%nat ltac:(lia)).
    rewrite Z.mul_0_r, Z.add_0_r. reflexivity. }
  exists fs1, (put (put fs1 (named z ext_wbro) file) (named z ext_csv) (write_samples_text nt (at_period t0 d out))), bytes, out, (clean_data (values samples)).
  split; [exact S1|]. split; [exact S2|]. split; [exact Cb|]. split; [exact Do|]. split; [exact Cl|]. split; [exact Len|]. split; [apply put_same|].
  split; [intros m M1 M2; unfold fs1; now rewrite !put_other by assumption|]. split; [apply put_same|].
  split; [rewrite put_other by (apply named_differ; discriminate); rewrite put_same; exact F|].
  intros m M1 M2. now rewrite !put_other by assumption.
Qed.
Print Assumptions C50_output_names.

Example C50_names_example : output_base [111; 117; 116] [111; 117; 116] /\ output_base (named [111; 117; 116] ext_csv) [111; 117; 116] /\ [111; 117; 116] <> w_x.
Proof.
  split; [|split; [|discriminate]].
  - split; [plain_stem|]. left. split; [|reflexivity]. exists [], [111; 117; 116]. split; [reflexivity|]. split; [now left|]. split; [discriminate|]. cbn. lia.
  - split; [plain_stem|]. right. exists ext_csv. split; [exact proper_csv|reflexivity].
Qed.

(** A CSV file whose seconds of the day step back (for example one that runs past midnight) makes csv-compressor panic before anything is
    written, whatever the other arguments. *)
Theorem C50_disorder_refused : forall e p nt a fs good prev s rest, c_uncompress a = false ->
  read_samples_from_csv_file nt (fs (c_input a)) = Some ((good ++ [prev]) ++ s :: rest) ->
  Forall datable (good ++ [prev]) -> datable s -> day_points (seconds (good ++ [prev])) -> sample_second s < sample_second prev ->
  csvc_process_args e p nt a fs = (fs, Panicked).
Proof.
  intros e p nt a fs good prev s rest Hu Hr Hd Hs Hp Hlt. destruct (C28_counts p _ Hp) as (v & _ & Hv & _).
  assert (L : Z.of_nat (length (good ++ [prev])) < 2 ^ 32) by (rewrite <- (map_length sample_second); assert (B := day_length _ Hp); fold (seconds (good ++ [prev])); lia).
  assert (E := C39_decreasing_refused p good prev s rest v _ Hd Hs L (day_points_le _ Hp) Hlt Hv).
  unfold csvc_process_args. rewrite Hu. unfold csvc_compress, process_csv. rewrite Hr, E. reflexivity.
Qed.
Print Assumptions C50_disorder_refused.
(** Ten to midnight, then ten past. *)
Example C50_midnight : exists t, read_samples_from_csv_file toy_numbers (Some t) = Some (([] ++ [Sample 1704066600000 (from_bits 4611686018427387904)]) ++ Sample 1704067800000 (from_bits 4611686018427387904) :: []) /\
  Forall datable [Sample 1704066600000 (from_bits 4611686018427387904)] /\ day_points (seconds [Sample 1704066600000 (from_bits 4611686018427387904)]) /\
  sample_second (Sample 1704067800000 (from_bits 4611686018427387904)) < sample_second (Sample 1704066600000 (from_bits 4611686018427387904)).
Proof.
  exists (write_samples_text toy_numbers [Sample 1704066600000 (from_bits 4611686018427387904); Sample 1704067800000 (from_bits 4611686018427387904)]).
  split; [vm_compute; reflexivity|]. split; [apply Forall_cons; [unfold datable; vm_compute; split; intros H; discriminate H|apply Forall_nil]|].
  split; [|vm_compute; reflexivity]. split; [apply Sorted.SSorted_cons; [apply Sorted.SSorted_nil|apply Forall_nil]|apply seconds_range].
Qed.
