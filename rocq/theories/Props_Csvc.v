(** C50: csv-compressor, there and back. *)
From Coq Require Import List ZArith Bool Lia ZifyBool.
From Verif Require Import Base Model_Float Model_Bincode BincodeFacts Spec Model_Utils PolyLoopFacts Model_Fft Model_Stream FftFacts Props_Fft PlanFacts PipelineFacts Props_Poly Props_Plan Props_Pipeline Props_ErrorZero
  Model_Vsri Spec_Vsri VsriFacts VsriLookup Props_Vsri Props_VsriFile Model_Wavbrro Props_Wavbrro Model_Csv Spec_Csv CsvFacts Props_Csv Model_Cli Props_Tools Props_Cli Props_Wav.
Import ListNotations.
Open Scope Z_scope.

(** * Vocabulary *)
(** [csvc --output-vsri x.csv] and [csvc -u x.bro], with the compressor, error and level of [a]. *)
Definition compress_call (a : csvc_args) (x : name) (with_index : bool) : csvc_args := {|
  c_input := named x ext_csv; c_output := None; c_uncompress := false; c_no_compression := false; c_output_vsri := with_index; c_output_wavbrro := false;
  c_compressor := c_compressor a; c_error := c_error a; c_level := c_level a |}.
Definition uncompress_call (a : csvc_args) (x : name) : csvc_args := {|
  c_input := named x ext_bro; c_output := None; c_uncompress := true; c_no_compression := false; c_output_vsri := false; c_output_wavbrro := false;
  c_compressor := c_compressor a; c_error := c_error a; c_level := c_level a |}.
Definition csvc_accepted (a : csvc_args) : Prop := 0 <= c_error a <= 50 /\ 0 <= c_level a <= 6.
(** Samples at a fixed period [d] from second [t0] of one day on (timestamps in milliseconds). *)
Definition regular_day_samples (t0 d : Z) (samples : list sample) : Prop :=
  0 <= t0 /\ 0 < d /\ t0 + d * (Z.of_nat (length samples) - 1) < 86400 /\ samples <> [] /\ Forall datable samples /\
  seconds samples = map (fun i => t0 + d * Z.of_nat i) (seq 0 (length samples)).
(** Value k of [vals] at second t0 + d*k. *)
Fixpoint at_period (t0 d : Z) (vals : list f64) : list sample :=
  match vals with [] => [] | v :: r => Sample t0 v :: at_period (t0 + d) d r end.

Lemma proper_csv : proper_ext ext_csv. Proof. unfold proper_ext, ext_csv. cbn. lia. Qed.
Lemma proper_vsri : proper_ext ext_vsri. Proof. unfold proper_ext, ext_vsri. cbn. lia. Qed.
Lemma named_differ x e1 e2 : e1 <> e2 -> named x e1 <> named x e2.
Proof. unfold named. intros N H. apply app_inv_head in H. apply app_inv_head in H. contradiction. Qed.

Lemma regular_times p t0 d n v : 0 <= t0 -> 0 < d -> t0 + d * (Z.of_nat n - 1) < 86400 -> (1 <= n)%nat -> index_of p (map (fun i => t0 + d * Z.of_nat i) (seq 0 n)) v ->
  forall k, (k < n)%nat -> get_time p v (Z.of_nat k) = Ok (Some (t0 + d * Z.of_nat k)).
Proof.
  intros Ha Hd Hb H1 I k Hk. assert (Hp := regular_day t0 d n Ha Hd Hb).
  destruct (C31_get_time p _ v (Z.of_nat k) Hp I) as (T0 & _ & _ & T1). destruct k as [|k].
  - rewrite T0 by reflexivity. destruct n; [lia|]. reflexivity.
  - destruct T1 as (s & T1 & T2 & ->); [rewrite map_length, seq_length; lia|].
    destruct (C29_regular_series_exact p t0 d n Ha Hd ltac:(lia) Hb) as (v2 & I2 & S2 & _).
    assert (v2 = v) as -> by (destruct I as [x1 I], I2 as [x2 I2]; rewrite I in I2; apply ok_inj in I2; congruence).
    rewrite S2 in T1. destruct T1 as [<-|[]]. cbn [sg_y sg_m sg_x]. do 2 f_equal. lia.
Qed.
Lemma pair_at_period p v t0 d n vals : (forall k, (k < n)%nat -> get_time p v (Z.of_nat k) = Ok (Some (t0 + d * Z.of_nat k))) -> Z.of_nat n <= 86400 ->
  forall i, (i + length vals <= n)%nat -> pair_samples p v i vals = Ok (at_period (t0 + d * Z.of_nat i) d vals).
Proof.
  intros T Hn. induction vals as [|x vals IH]; intros i Hi; [reflexivity|]. cbn [pair_samples at_period length] in *.
  assert (W : wrap_s 32 (Z.of_nat i) = Z.of_nat i) by (unfold wrap_s; change (32 - 1) with 31; rewrite Z.mod_small by lia; lia). rewrite W, T by lia. cbn [bind].
  rewrite IH by lia. cbn [bind]. replace (t0 + d * Z.of_nat (S i)) with (t0 + d * Z.of_nat i + d) by lia. reflexivity.
Qed.
Lemma at_period_facts t0 d vals : map sm_val (at_period t0 d vals) = vals /\ map sm_ts (at_period t0 d vals) = map (fun i => t0 + d * Z.of_nat i) (seq 0 (length vals)).
Proof.
  revert t0. induction vals as [|x r IH]; intros t0; [split; reflexivity|]. cbn [at_period map length seq]. destruct (IH (t0 + d)) as [I1 I2]. cbn [sm_val sm_ts]. rewrite I1, I2.
  split; [reflexivity|]. f_equal; [lia|]. rewrite <- seq_shift, map_map. apply map_ext. intros i. lia.
Qed.

(** What compression leaves. *)
Lemma csvc_compress_step e p nt a fs x samples t0 d bytes b : env_ok e -> proper_stem x -> read_samples_from_csv_file nt (fs (named x ext_csv)) = Some samples -> regular_day_samples t0 d samples ->
  compress_data e p (values samples) (c_compressor a) (c_error a) (c_level a) = Ok bytes ->
  exists v, index_of p (seconds samples) v /\
    csvc_process_args e p nt (compress_call a x b) fs = (put (if b then put fs (named x ext_vsri) (flush_bytes v) else fs) (named x ext_bro) bytes, Done).
Proof.
  intros He Hx Hr (Ha & Hd & Hb & Hne & Hdat & Hsec) Cb. assert (Hp : day_points (seconds samples)) by (rewrite Hsec; apply regular_day; assumption).
  destruct (C39_increasing p samples Hdat Hp) as (w & v & E & V & I & _). exists v. split; [exact I|].
  unfold csvc_process_args, compress_call. cbn [c_uncompress]. unfold csvc_compress, process_csv. cbn [c_input c_output c_output_wavbrro c_output_vsri c_no_compression c_compressor c_error c_level].
  rewrite Hr, E. cbn [bind mt_wbro mt_vsri]. rewrite V, Cb, !set_ext_named; auto using proper_csv.
Qed.

(** The main theorem: a CSV file of samples at a fixed period within one day, with at least one finite value. Both calls end
    normally. Afterwards x.csv (overwritten) and x.wbro hold the values that decompression gives, one per finite input value; value
    k is attributed to the time of sample k as second of the day. *)
Theorem C50_round_trip : forall e p nt a fs x samples t0 d s,
  env_ok e -> proper_stem x -> csvc_accepted a -> read_samples_from_csv_file nt (fs (named x ext_csv)) = Some samples ->
  regular_day_samples t0 d samples -> In s samples -> finite (sm_val s) ->
  exists fs1 fs2 bytes out cleaned,
    csvc_process_args e p nt (compress_call a x true) fs = (fs1, Done) /\
    csvc_process_args e p nt (uncompress_call a x) fs1 = (fs2, Done) /\
    compress_data e p (values samples) (c_compressor a) (c_error a) (c_level a) = Ok bytes /\ decompress_data e p bytes = Ok out /\
    subsequence_of finite (values samples) cleaned /\ length out = length cleaned /\
    fs2 (named x ext_csv) = Some (write_samples_text nt (at_period t0 d out)) /\
    from_file (fs2 (named x ext_wbro)) = Ok (WbSamples out) /\
    (Forall (text_exact nt) out -> read_samples_from_csv_file nt (fs2 (named x ext_csv)) = Some (at_period t0 d out)).
Proof.
  intros e p nt a fs x samples t0 d s He Hx (Ha1 & Ha2) Hr Hreg Hin Fin. assert (Hreg' := Hreg). destruct Hreg' as (Ha & Hd & Hb & Hne & Hdat & Hsec).
  assert (Hp : day_points (seconds samples)) by (rewrite Hsec; apply regular_day; assumption).
  assert (L86 : Z.of_nat (length samples) <= 86400) by (rewrite <- (map_length sample_second samples); now apply day_length).
  assert (Lv : length (values samples) = length samples) by apply map_length.
  assert (Cl := clean_data_spec (values samples)). assert (Lc : (length (clean_data (values samples)) <= length samples)%nat).
  { rewrite <- Lv. clear - Cl. induction Cl; cbn [length]; lia. }
  assert (Hfit : fits_counter p (values samples)) by (left; rewrite <- clean_is; lia).
  destruct (C13_pipeline_sample_count e p (values samples) (c_compressor a) (c_error a) (c_level a) He ltac:(lia) Ha2 Hfit) as (bytes & out & Cb & Do & Len). rewrite <- clean_is in Len.
  assert (Rd := C15_nonempty_series_readable e p (values samples) (c_compressor a) (c_error a) (c_level a) bytes (sm_val s) He ltac:(lia) Ha2 Hfit (in_map sm_val _ _ Hin) Fin Cb).
  destruct (csvc_compress_step e p nt a fs x samples t0 d bytes true He Hx Hr Hreg Cb) as (v & I & S1).
  set (fs1 := put (put fs (named x ext_vsri) (flush_bytes v)) (named x ext_bro) bytes) in *.
  destruct (put_wbro_reads fs1 (named x ext_wbro) out ltac:(lia)) as (file & P & F).
  assert (S2 : csvc_process_args e p nt (uncompress_call a x) fs1 = (put (put fs1 (named x ext_wbro) file) (named x ext_csv) (write_samples_text nt (at_period t0 d out)), Done)).
  { unfold csvc_process_args, uncompress_call. cbn [c_uncompress]. unfold csvc_uncompress. cbn [c_input c_output].
    unfold fs1 at 1. rewrite put_same, Rd, Do. cbn [bind]. destruct (C36_accumulates p out ltac:(lia)) as (w & Ew & Sw & _). rewrite <- fold_add_all in Ew. rewrite Ew. cbn [bind].
    rewrite !set_ext_named by auto using proper_bro, proper_wbro. unfold fs1 at 1. rewrite put_other by (apply named_differ; discriminate). rewrite put_same.
    rewrite (C34_day_index_round_trip p _ v Hp I), P. unfold get_samples. cbn [mt_vsri mt_wbro]. rewrite Sw.
    assert (T := pair_at_period p v t0 d (length samples) out). rewrite Hsec in I.
    rewrite (T (regular_times p t0 d (length samples) v Ha Hd Hb ltac:(destruct samples; [congruence|cbn; lia]) I) L86 0%nat ltac:(lia)).
    rewrite Z.mul_0_r, Z.add_0_r. reflexivity. }
  exists fs1, (put (put fs1 (named x ext_wbro) file) (named x ext_csv) (write_samples_text nt (at_period t0 d out))), bytes, out, (clean_data (values samples)).
  split; [exact S1|]. split; [exact S2|]. split; [exact Cb|]. split; [exact Do|]. split; [exact Cl|]. split; [exact Len|]. split; [apply put_same|].
  split; [rewrite put_other by (apply named_differ; discriminate); rewrite put_same; exact F|].
  intros Hex. rewrite put_same. apply C48_write_read. destruct (at_period_facts t0 d out) as [V1 V2]. apply Forall_forall. intros o Ho. split.
  - assert (X := in_map sm_ts _ _ Ho). rewrite V2 in X. apply in_map_iff in X. destruct X as (i & <- & Hi). apply in_seq in Hi. unfold in_s. change (64 - 1) with 63.
    assert (0 <= d * Z.of_nat i <= d * (Z.of_nat (length samples) - 1)) by nia. lia.
  - rewrite Forall_forall in Hex. apply Hex. rewrite <- V1. now apply in_map.
Qed.
Print Assumptions C50_round_trip.

(** With automatic selection, error 0 and integer values (up to 2^24 in magnitude) x.csv ends with exactly the original values, at
    their seconds of the day. *)
Theorem C50_error_zero_exact : forall e p nt a fs x samples t0 d,
  env_ok e -> proper_stem x -> c_error a = 0 -> c_level a = 0 -> c_compressor a = Auto -> read_samples_from_csv_file nt (fs (named x ext_csv)) = Some samples ->
  regular_day_samples t0 d samples -> Forall (fun s => finite (sm_val s) /\ no_negative_zero (sm_val s) /\ exists z, is_int (sm_val s) z /\ Z.abs z <= 2 ^ 24) samples ->
  exists fs1 fs2 out,
    csvc_process_args e p nt (compress_call a x true) fs = (fs1, Done) /\
    csvc_process_args e p nt (uncompress_call a x) fs1 = (fs2, Done) /\
    fs2 (named x ext_csv) = Some (write_samples_text nt (at_period t0 d out)) /\ same_series out (values samples).
Proof.
  intros e p nt a fs x samples t0 d He Hx A1 A2 A3 Hr Hreg Hi.
  assert (Hs : exists s, In s samples) by (destruct Hreg as (_ & _ & _ & Hne & _); destruct samples as [|s l]; [congruence|exists s; now left]). destruct Hs as (s & Hs).
  assert (Hi' := Hi). rewrite Forall_forall in Hi'.
  destruct (C50_round_trip e p nt a fs x samples t0 d s He Hx ltac:(unfold csvc_accepted; lia) Hr Hreg Hs) as (fs1 & fs2 & bytes & out & cl & S1 & S2 & Cb & Do & Sub & _ & W & _); [apply (Hi' s Hs)|].
  destruct Hreg as (Ha & Hd & Hb & Hne & Hdat & Hsec).
  assert (Hp : day_points (seconds samples)) by (rewrite Hsec; apply regular_day; assumption).
  assert (L86 : Z.of_nat (length samples) <= 86400) by (rewrite <- (map_length sample_second samples); now apply day_length).
  assert (AllF : Forall finite (values samples)) by (unfold values; rewrite Forall_map; eapply Forall_impl; [|exact Hi]; cbn; tauto).
  assert (Cl : cl = values samples).
  { clear - Sub AllF. induction Sub as [|y l r P Sub IH|y l r P Sub IH]; [reflexivity| |]; inversion AllF; subst; [f_equal; now apply IH|contradiction]. }
  assert (Hfit : fits_counter p (values samples)).
  { left. rewrite <- clean_is. assert (X := clean_data_spec (values samples)). assert (Y := subsequence_unique _ _ _ _ X Sub). rewrite Y, Cl. unfold values. rewrite map_length. lia. }
  destruct (C47_auto_error_zero_integers e p (values samples) He Hfit) as (bytes' & out' & cl' & Cb' & Do' & Sub' & Same).
  { unfold values. rewrite Forall_map. eapply Forall_impl; [|exact Hi]. cbn. tauto. }
  rewrite A1, A2, A3 in Cb. assert (bytes' = bytes) as -> by congruence. assert (out' = out) as -> by congruence.
  assert (cl' = cl) as -> by exact (subsequence_unique _ _ _ _ Sub' Sub). subst cl. exists fs1, fs2, out. auto.
Qed.
Print Assumptions C50_error_zero_exact.

(** Without --output-vsri (and no x.vsri from elsewhere) the result cannot be uncompressed: the second call panics. *)
Theorem C50_no_index_panics : forall e p nt a fs x samples t0 d,
  env_ok e -> proper_stem x -> csvc_accepted a -> read_samples_from_csv_file nt (fs (named x ext_csv)) = Some samples -> fs (named x ext_vsri) = None ->
  regular_day_samples t0 d samples ->
  exists fs1, csvc_process_args e p nt (compress_call a x false) fs = (fs1, Done) /\ csvc_process_args e p nt (uncompress_call a x) fs1 = (fs1, Panicked).
Proof.
  intros e p nt a fs x samples t0 d He Hx (Ha1 & Ha2) Hr Hnone Hreg. assert (Hreg' := Hreg). destruct Hreg' as (Ha & Hd & Hb & Hne & Hdat & Hsec).
  assert (Hp : day_points (seconds samples)) by (rewrite Hsec; apply regular_day; assumption).
  assert (L86 : Z.of_nat (length samples) <= 86400) by (rewrite <- (map_length sample_second samples); now apply day_length).
  assert (Cl := clean_data_spec (values samples)). assert (Lc : (length (clean_data (values samples)) <= length samples)%nat).
  { rewrite <- (map_length sm_val samples). fold (values samples). clear - Cl. induction Cl; cbn [length]; lia. }
  assert (Hfit : fits_counter p (values samples)) by (left; rewrite <- clean_is; lia).
  destruct (C13_pipeline_sample_count e p (values samples) (c_compressor a) (c_error a) (c_level a) He ltac:(lia) Ha2 Hfit) as (bytes & out & Cb & Do & Len). rewrite <- clean_is in Len.
  destruct (csvc_compress_step e p nt a fs x samples t0 d bytes false He Hx Hr Hreg Cb) as (v & I & S1). exists (put fs (named x ext_bro) bytes). split; [exact S1|].
  unfold csvc_process_args, uncompress_call. cbn [c_uncompress]. unfold csvc_uncompress. cbn [c_input c_output]. rewrite put_same.
  destruct (bro_read bytes) as [| |b'] eqn:Br; [reflexivity| |].
  - exfalso. revert Br. unfold bro_read. destruct (length bytes <? 12)%nat; [discriminate|].
    destruct (compress_data_calls e p (values samples) (c_compressor a) (c_error a) (c_level a)) as (sizes & Hs & E). rewrite E in Cb.
    destruct (Props_Stream.add_all e p _) as [st|]; [|discriminate Cb]. cbn [bind] in Cb. apply ok_inj in Cb. subst bytes. unfold stream_to_bytes, header_bytes. rewrite <- app_assoc.
    change (firstn 4 (BRRO ++ ?t)) with BRRO. destruct (list_eq_dec Z.eq_dec _ BRRO) as [_|N]; [discriminate|]. now elim N.
  - match goal with |- context [match ?c with Ok _ => _ | Panic _ => _ end] => destruct c as [[o w]|] end; [|reflexivity].
    rewrite set_ext_named by auto using proper_bro. rewrite put_other by (apply named_differ; discriminate). rewrite Hnone. reflexivity.
Qed.
Print Assumptions C50_no_index_panics.

(** Without any finite value compression succeeds, yet uncompressing panics. *)
Theorem C50_no_finite_value_refuted : forall e p nt a fs x samples t0 d,
  env_ok e -> proper_stem x -> read_samples_from_csv_file nt (fs (named x ext_csv)) = Some samples ->
  regular_day_samples t0 d samples -> Forall (fun s => ~ finite (sm_val s)) samples ->
  exists fs1, csvc_process_args e p nt (compress_call a x true) fs = (fs1, Done) /\ csvc_process_args e p nt (uncompress_call a x) fs1 = (fs1, Panicked).
Proof.
  intros e p nt a fs x samples t0 d He Hx Hr Hreg Hn.
  destruct (C15_empty_series e p (values samples) (c_compressor a) (c_error a) (c_level a)) as (bytes & Cb & _ & _ & Rd); [unfold values; rewrite Forall_map; exact Hn|].
  destruct (csvc_compress_step e p nt a fs x samples t0 d bytes true He Hx Hr Hreg Cb) as (v & I & S1). eexists. split; [exact S1|].
  unfold csvc_process_args, uncompress_call. cbn [c_uncompress]. unfold csvc_uncompress. cbn [c_input c_output]. now rewrite put_same, Rd.
Qed.
Print Assumptions C50_no_finite_value_refuted.

(** A value that is not finite displaces the ones after it even when the compression itself is exact: with a NaN (or infinity) first,
    each later value ends one period too early, and the last time is lost. *)
Theorem C50_displaced_refuted : forall e p nt a fs x s0 rest t0 d,
  env_ok e -> proper_stem x -> c_error a = 0 -> c_level a = 0 -> c_compressor a = Auto -> read_samples_from_csv_file nt (fs (named x ext_csv)) = Some (s0 :: rest) ->
  regular_day_samples t0 d (s0 :: rest) -> ~ finite (sm_val s0) -> rest <> [] ->
  Forall (fun s => finite (sm_val s) /\ no_negative_zero (sm_val s) /\ exists z, is_int (sm_val s) z /\ Z.abs z <= 2 ^ 24) rest ->
  exists fs1 fs2 out,
    csvc_process_args e p nt (compress_call a x true) fs = (fs1, Done) /\
    csvc_process_args e p nt (uncompress_call a x) fs1 = (fs2, Done) /\
    fs2 (named x ext_csv) = Some (write_samples_text nt (at_period t0 d out)) /\ same_series out (values rest) /\
    seconds rest = map (fun i => t0 + d + d * Z.of_nat i) (seq 0 (length rest)).
Proof.
  intros e p nt a fs x s0 rest t0 d He Hx A1 A2 A3 Hr Hreg Hn0 Hne Hi.
  assert (Hs : exists s, In s rest) by (destruct rest as [|s l]; [congruence|exists s; now left]). destruct Hs as (s & Hs).
  assert (Hi' := Hi). rewrite Forall_forall in Hi'.
  destruct (C50_round_trip e p nt a fs x (s0 :: rest) t0 d s He Hx ltac:(unfold csvc_accepted; lia) Hr Hreg (or_intror Hs)) as (fs1 & fs2 & bytes & out & cl & S1 & S2 & Cb & Do & Sub & _ & W & _); [apply (Hi' s Hs)|].
  destruct Hreg as (Ha & Hd & Hb & _ & Hdat & Hsec).
  assert (Hp : day_points (seconds (s0 :: rest))) by (rewrite Hsec; apply regular_day; assumption).
  assert (L86 : Z.of_nat (length (s0 :: rest)) <= 86400) by (rewrite <- (map_length sample_second (s0 :: rest)); now apply day_length).
  assert (AllF : Forall finite (values rest)) by (unfold values; rewrite Forall_map; eapply Forall_impl; [|exact Hi]; cbn; tauto).
  assert (Cl : cl = values rest).
  { cbn [values map] in Sub. inversion Sub as [|y l r P Sub'|y l r P Sub']; subst; [contradiction|]. fold (values rest) in Sub'.
    clear - Sub' AllF. induction Sub' as [|y l r P Sub IH|y l r P Sub IH]; [reflexivity| |]; inversion AllF; subst; [f_equal; now apply IH|contradiction]. }
  assert (Hfit : fits_counter p (values (s0 :: rest))).
  { left. rewrite <- clean_is. assert (X := clean_data_spec (values (s0 :: rest))). assert (Y := subsequence_unique _ _ _ _ X Sub). rewrite Y, Cl. unfold values. rewrite map_length. cbn [length] in L86. lia. }
  destruct (C47_auto_error_zero_integers e p (values (s0 :: rest)) He Hfit) as (bytes' & out' & cl' & Cb' & Do' & Sub' & Same).
  { unfold values. rewrite Forall_map. apply Forall_cons; [contradiction|]. eapply Forall_impl; [|exact Hi]. cbn. tauto. }
  rewrite A1, A2, A3 in Cb. assert (bytes' = bytes) as -> by congruence. assert (out' = out) as -> by congruence.
  assert (cl' = cl) as -> by exact (subsequence_unique _ _ _ _ Sub' Sub). subst cl. exists fs1, fs2, out. repeat (split; [assumption|]).
  cbn [seconds map length seq] in Hsec. assert (X : map sample_second rest = map (fun i : nat => t0 + d * Z.of_nat i) (seq 1 (length rest))) by congruence.
  unfold seconds. rewrite X, <- seq_shift, map_map. apply map_ext. intros i. lia.
Qed.
Print Assumptions C50_displaced_refuted.

(** * A concrete file: 1.5, then 2 a minute later, on the first of January 2024 *)
Definition two_samples : list sample := [Sample 1704067205000 (from_bits 4609434218613702656); Sample 1704067265000 (from_bits 4611686018427387904)].
Definition csv_file : files := fun n => if text_eqb n (named w_x ext_csv) then Some (write_samples_text toy_numbers two_samples) else None.
Definition csvc_defaults : csvc_args := {| c_input := []; c_output := None; c_uncompress := false; c_no_compression := false; c_output_vsri := false; c_output_wavbrro := false; c_compressor := Auto; c_error := 5; c_level := 0 |}.
Example C50_example : exists s,
  env_ok id_env /\ proper_stem w_x /\ csvc_accepted csvc_defaults /\ read_samples_from_csv_file toy_numbers (csv_file (named w_x ext_csv)) = Some two_samples /\
  regular_day_samples 5 60 two_samples /\ In s two_samples /\ finite (sm_val s) /\ csv_file (named w_x ext_vsri) = None.
Proof.
  eexists. split; [exact id_env_ok|]. split; [plain_stem|]. split; [unfold csvc_accepted; cbn; lia|]. split; [|split; [|split; [left; reflexivity|split; [vm_compute; reflexivity|reflexivity]]]].
  - unfold csv_file. rewrite (proj2 (text_eqb_spec _ _) eq_refl). apply C48_write_read. unfold two_samples.
    repeat apply Forall_cons; try apply Forall_nil; (split; [unfold in_s; cbn [sm_ts]; change (64 - 1) with 63; lia|]); unfold text_exact, plain.
    + assert (E : show_f64 toy_numbers (sm_val (Sample 1704067205000 (from_bits 4609434218613702656))) = [49; 46; 53]) by (vm_compute; reflexivity). rewrite E.
      split; [repeat apply Forall_cons; try apply Forall_nil; lia|]. split; [discriminate|reflexivity].
    + assert (E : show_f64 toy_numbers (sm_val (Sample 1704067265000 (from_bits 4611686018427387904))) = [50]) by (vm_compute; reflexivity). rewrite E.
      split; [repeat apply Forall_cons; try apply Forall_nil; lia|]. split; [discriminate|reflexivity].
  - unfold regular_day_samples. split; [lia|]. split; [lia|]. split; [cbn; lia|]. split; [discriminate|]. split; [|reflexivity].
    unfold two_samples, datable, chrono_min, chrono_max. repeat apply Forall_cons; try apply Forall_nil; cbn [sm_ts]; Z.to_euclidean_division_equations; lia.
Qed.
