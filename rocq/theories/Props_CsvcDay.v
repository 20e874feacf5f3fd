(** C74: csv-compressor on samples at any times of one day. *)
From Coq Require Import List ZArith Bool Lia ZifyBool Sorting.Sorted.
From Verif Require Import Base Model_Float Model_Bincode BincodeFacts Spec Model_Utils PolyLoopFacts Model_Fft Model_Stream FftFacts Props_Fft PlanFacts PipelineFacts Props_Poly Props_Plan Props_Pipeline Props_ErrorZero
  Model_Vsri Spec_Vsri VsriFacts VsriLookup Spec_Segments Props_Vsri Props_Segments Props_VsriFile Model_Wavbrro Props_Wavbrro Model_Csv Spec_Csv CsvFacts Props_Csv Model_Cli Props_Tools Props_Cli Props_Wav Props_Csvc.
Import ListNotations.
Open Scope Z_scope.

(** * Vocabulary *)
(** The samples of one day, each at a later second than the one before. *)
Definition day_samples (samples : list sample) : Prop := Forall datable samples /\ day_points (seconds samples).
(** The time the tools attach to sample [k]: the line of its segment, evaluated at the absolute sample number. *)
Definition attached (segs : list segment) (k t : Z) : Prop := exists s, In s segs /\ in_segment s k /\ t = sg_y s + sg_m s * k.

Lemma compress_step_day e p nt a fs x samples bytes b : proper_stem x -> read_samples_from_csv_file nt (fs (named x ext_csv)) = Some samples -> day_samples samples ->
  compress_data e p (values samples) (c_compressor a) (c_error a) (c_level a) = Ok bytes ->
  exists v, index_of p (seconds samples) v /\
    csvc_process_args e p nt (compress_call a x b) fs = (put (if b then put fs (named x ext_vsri) (flush_bytes v) else fs) (named x ext_bro) bytes, Done).
Proof.
  intros Hx Hr (Hdat & Hp) Cb. destruct (C39_increasing p samples Hdat Hp) as (w & v & E & V & I & _). exists v. split; [exact I|].
  unfold csvc_process_args, compress_call. cbn [c_uncompress]. unfold csvc_compress, process_csv. cbn [c_input c_output c_output_wavbrro c_output_vsri c_no_compression c_compressor c_error c_level].
  rewrite Hr, E. cbn [bind mt_wbro mt_vsri]. rewrite V, Cb, !set_ext_named; auto using proper_csv.
Qed.

Lemma segmentation_head x ys segs : segmentation x ys segs -> ys <> [] -> exists s r, segs = s :: r /\ sg_x s = x /\ sg_y s = hd 0 ys /\ 1 <= sg_n s.
Proof. destruct 1; intros N; [congruence| |]; (eexists; eexists; split; [reflexivity|]); cbn [sg_x sg_y sg_n hd]; (split; [reflexivity|split; [reflexivity|lia]]). Qed.
Lemma time_attached p ys v k : day_points ys -> index_of p ys v -> (k < length ys)%nat -> exists t, get_time p v (Z.of_nat k) = Ok (Some t) /\ attached (vs_segs v) (Z.of_nat k) t.
Proof.
  intros Hd I Hk. destruct (C31_get_time p ys v (Z.of_nat k) Hd I) as (T0 & _ & _ & T1). destruct k as [|k].
  - rewrite T0 by reflexivity. eexists. split; [reflexivity|]. destruct (segmentation_head _ _ _ (C29_segments p ys v Hd I)) as (s & r & Es & X & Y & N); [intros ->; cbn in Hk; lia|].
    exists s. rewrite Es. split; [left; reflexivity|]. unfold in_segment. rewrite X, Y. lia.
  - destruct T1 as (s & S1 & S2 & ->); [lia|]. eexists. split; [reflexivity|]. exists s. split; [exact S1|]. split; [exact S2|lia].
Qed.
Lemma time_range p ys v k t : day_points ys -> index_of p ys v -> (k < length ys)%nat -> get_time p v (Z.of_nat k) = Ok (Some t) -> 0 <= t < 2 ^ 32.
Proof.
  intros Hd I Hk G. destruct (time_attached p ys v k Hd I Hk) as (t' & G' & s & S1 & S2 & E). rewrite G in G'. apply ok_inj in G'. assert (t = t') as -> by congruence.
  destruct (index_facts p ys v Hd I) as (segs & -> & _ & Ok_s & _). cbn [vs_segs summary] in S1. rewrite Forall_forall in Ok_s. specialize (Ok_s s S1).
  assert (B := seg_ok_mx s Ok_s). unfold seg_ok, in_segment, last_time in *. assert (0 <= sg_m s * (Z.of_nat k - sg_x s) <= sg_m s * (sg_n s - 1)) by nia. lia.
Qed.

(** The main theorem: any CSV file of samples of one day, each at a later second, with at least one finite value. Both calls end
    normally. Afterwards x.csv (overwritten) has one row per finite input value, with the value that decompression gives and the time
    attached to the sample of that number by the segmentation of the times; x.wbro has the values. *)
Theorem C74_round_trip : forall e p nt a fs x samples s,
  env_ok e -> proper_stem x -> csvc_accepted a -> read_samples_from_csv_file nt (fs (named x ext_csv)) = Some samples ->
  day_samples samples -> In s samples -> finite (sm_val s) ->
  exists fs1 fs2 bytes out cleaned segs rows,
    csvc_process_args e p nt (compress_call a x true) fs = (fs1, Done) /\
    csvc_process_args e p nt (uncompress_call a x) fs1 = (fs2, Done) /\
    compress_data e p (values samples) (c_compressor a) (c_error a) (c_level a) = Ok bytes /\ decompress_data e p bytes = Ok out /\
    subsequence_of finite (values samples) cleaned /\ length out = length cleaned /\
    segmentation 0 (seconds samples) segs /\
    fs2 (named x ext_csv) = Some (write_samples_text nt rows) /\ values rows = out /\
    (forall k r, nth_error rows k = Some r -> attached segs (Z.of_nat k) (sm_ts r)) /\
    from_file (fs2 (named x ext_wbro)) = Ok (WbSamples out) /\
    (Forall (text_exact nt) out -> read_samples_from_csv_file nt (fs2 (named x ext_csv)) = Some rows).
Proof.
  intros e p nt a fs x samples s He Hx (Ha1 & Ha2) Hr Hday Hin Fin. assert (Hp := proj2 Hday).
  assert (Ls : length (seconds samples) = length samples) by apply map_length.
  assert (L86 : Z.of_nat (length samples) <= 86400) by (rewrite <- Ls; now apply day_length).
  assert (Lv : length (values samples) = length samples) by apply map_length.
  assert (Cl := clean_data_spec (values samples)). assert (Lc : (length (clean_data (values samples)) <= length samples)%nat).
  { rewrite <- Lv. clear - Cl. induction Cl; cbn [length]; lia. }
  assert (Hfit : fits_counter p (values samples)) by (left; rewrite <- clean_is; lia).
  destruct (C13_pipeline_sample_count e p (values samples) (c_compressor a) (c_error a) (c_level a) He ltac:(lia) Ha2 Hfit) as (bytes & out & Cb & Do & Len). rewrite <- clean_is in Len.
  assert (Rd := C15_nonempty_series_readable e p (values samples) (c_compressor a) (c_error a) (c_level a) bytes (sm_val s) He ltac:(lia) Ha2 Hfit (in_map sm_val _ _ Hin) Fin Cb).
  destruct (compress_step_day e p nt a fs x samples bytes true Hx Hr Hday Cb) as (v & I & S1).
  set (fs1 := put (put fs (named x ext_vsri) (flush_bytes v)) (named x ext_bro) bytes) in *.
  destruct (put_wbro_reads fs1 (named x ext_wbro) out ltac:(lia)) as (file & P & F).
  destruct (pair_samples_spec p v out 0 ltac:(lia)) as (rows & Er & Vr & Tr).
  { intros k Hk. destruct (time_attached p _ v k Hp I ltac:(lia)) as (t & T & _). eauto. }
  assert (Lr : length rows = length out) by (rewrite <- Vr; unfold values; now rewrite map_length).
  assert (S2 : csvc_process_args e p nt (uncompress_call a x) fs1 = (put (put fs1 (named x ext_wbro) file) (named x ext_csv) (write_samples_text nt rows), Done)).
  { unfold csvc_process_args, uncompress_call. cbn [c_uncompress]. unfold csvc_uncompress. cbn [c_input c_output].
    unfold fs1 at 1. rewrite put_same, Rd, Do. cbn [bind]. destruct (C36_accumulates p out ltac:(lia)) as (w & Ew & Sw & _). rewrite <- fold_add_all in Ew. rewrite Ew. cbn [bind].
    rewrite !set_ext_named by auto using proper_bro, proper_wbro. unfold fs1 at 1. rewrite put_other by (apply named_differ; discriminate). rewrite put_same.
    rewrite (C34_day_index_round_trip p _ v Hp I), P. unfold get_samples. cbn [mt_vsri mt_wbro]. rewrite Sw, Er. reflexivity. }
  exists fs1, (put (put fs1 (named x ext_wbro) file) (named x ext_csv) (write_samples_text nt rows)), bytes, out, (clean_data (values samples)), (vs_segs v), rows.
  split; [exact S1|]. split; [exact S2|]. split; [exact Cb|]. split; [exact Do|]. split; [exact Cl|]. split; [exact Len|]. split; [exact (C29_segments p _ v Hp I)|].
  split; [apply put_same|]. split; [exact Vr|]. split.
  { intros k r Ek. assert (T := Tr k r Ek). cbn [Nat.add] in T. assert (Lk : (k < length rows)%nat) by (apply nth_error_Some; congruence).
    destruct (time_attached p _ v k Hp I ltac:(lia)) as (t & T' & At). rewrite T in T'. apply ok_inj in T'. assert (sm_ts r = t) as -> by congruence. exact At. }
  split; [rewrite put_other by (apply named_differ; discriminate); rewrite put_same; exact F|].
  intros Hex. rewrite put_same. apply C48_write_read. apply Forall_forall. intros o Ho. split.
  - destruct (In_nth_error _ _ Ho) as (k & Ek). assert (T := Tr k o Ek). cbn [Nat.add] in T. assert (Lk : (k < length rows)%nat) by (apply nth_error_Some; congruence).
    assert (R := time_range p _ v k _ Hp I ltac:(lia) T). unfold in_s. change (64 - 1) with 63. lia.
  - rewrite Forall_forall in Hex. apply Hex. rewrite <- Vr. now apply in_map.
Qed.
Print Assumptions C74_round_trip.

(** With automatic selection, error 0 and integer values (up to 2^24 in magnitude) every row has exactly the original value: only times
    may differ, as described below. *)
Theorem C74_error_zero_values : forall e p nt a fs x samples,
  env_ok e -> proper_stem x -> c_error a = 0 -> c_level a = 0 -> c_compressor a = Auto -> read_samples_from_csv_file nt (fs (named x ext_csv)) = Some samples ->
  day_samples samples -> samples <> [] -> Forall (fun s => finite (sm_val s) /\ no_negative_zero (sm_val s) /\ exists z, is_int (sm_val s) z /\ Z.abs z <= 2 ^ 24) samples ->
  exists fs1 fs2 segs rows,
    csvc_process_args e p nt (compress_call a x true) fs = (fs1, Done) /\
    csvc_process_args e p nt (uncompress_call a x) fs1 = (fs2, Done) /\
    segmentation 0 (seconds samples) segs /\ fs2 (named x ext_csv) = Some (write_samples_text nt rows) /\ same_series (values rows) (values samples) /\
    (forall k r, nth_error rows k = Some r -> attached segs (Z.of_nat k) (sm_ts r)).
Proof.
  intros e p nt a fs x samples He Hx A1 A2 A3 Hr Hday Hne Hi.
  assert (Hs : exists s, In s samples) by (destruct samples as [|s l]; [congruence|exists s; now left]). destruct Hs as (s & Hs).
  assert (Hi' := Hi). rewrite Forall_forall in Hi'.
  destruct (C74_round_trip e p nt a fs x samples s He Hx ltac:(unfold csvc_accepted; lia) Hr Hday Hs) as (fs1 & fs2 & bytes & out & cl & segs & rows & S1 & S2 & Cb & Do & Sub & _ & Sg & W & V & T & _); [apply (Hi' s Hs)|].
  assert (L86 : Z.of_nat (length samples) <= 86400) by (rewrite <- (map_length sample_second samples); apply day_length; apply Hday).
  assert (AllF : Forall finite (values samples)) by (unfold values; rewrite Forall_map; eapply Forall_impl; [|exact Hi]; cbn; tauto).
  assert (Cl : cl = values samples).
  { clear - Sub AllF. induction Sub as [|y l r P Sub IH|y l r P Sub IH]; [reflexivity| |]; inversion AllF; subst; [f_equal; now apply IH|contradiction]. }
  assert (Hfit : fits_counter p (values samples)).
  { left. rewrite <- clean_is. assert (X := clean_data_spec (values samples)). assert (Y := subsequence_unique _ _ _ _ X Sub). rewrite Y, Cl. unfold values. rewrite map_length. lia. }
  destruct (C47_auto_error_zero_integers e p (values samples) He Hfit) as (bytes' & out' & cl' & Cb' & Do' & Sub' & Same).
  { unfold values. rewrite Forall_map. eapply Forall_impl; [|exact Hi]. cbn. tauto. }
  rewrite A1, A2, A3 in Cb. assert (bytes' = bytes) as -> by congruence. assert (out' = out) as -> by congruence.
  assert (cl' = cl) as -> by exact (subsequence_unique _ _ _ _ Sub' Sub). subst cl. exists fs1, fs2, segs, rows. rewrite V. repeat (split; [assumption|]). exact T.
Qed.
Print Assumptions C74_error_zero_values.

(** * What the attached times are worth *)
Lemma segmentation_describes p ys segs : day_points ys -> segmentation 0 ys segs -> exists v, index_of p ys v /\ vs_segs v = segs.
Proof.
  intros Hd G. destruct (build p ys Hd) as (segs' & B & _). exists (summary ys segs'). split; [eexists; exact B|].
  assert (G' := C29_segments p ys _ Hd (ex_intro _ _ B)). exact (C29_segments_unique _ _ _ _ G' G).
Qed.
Lemma tiles_unique l : forall x n s s' i, tiles x l n -> In s l -> In s' l -> in_segment s i -> in_segment s' i -> s = s'.
Proof.
  induction l as [|a l IH]; intros x n s s' i T H H' S1 S2; [destruct H|]. cbn [tiles] in T. destruct T as (T1 & T2 & T3).
  destruct H as [<-|H], H' as [<-|H']; [reflexivity| | |eapply IH; eauto].
  - destruct (tiles_in _ _ _ _ T3 H') as (X & _). unfold in_segment in *. lia.
  - destruct (tiles_in _ _ _ _ T3 H) as (X & _). unfold in_segment in *. lia.
Qed.

(** In the first segment the time is early by less than the segment's period (exact for its first two samples). A lone last sample has its
    exact time. In every later segment each sample is late: by at most the period times the number of samples before the segment. *)
Theorem C74_time_error : forall ys segs k t t', day_points ys -> segmentation 0 ys segs -> nth_error ys k = Some t -> attached segs (Z.of_nat k) t' ->
  exists s, In s segs /\ in_segment s (Z.of_nat k) /\
    (sg_x s = 0 -> t' <= t /\ (t = t' \/ t < t' + sg_m s) /\ ((k < 2)%nat -> t = t')) /\
    (sg_n s = 1 -> t' = t) /\
    (0 < sg_x s -> 2 <= sg_n s -> t < t' <= t + sg_m s * sg_x s).
Proof.
  intros ys segs k t t' Hd G Et (s & S1 & S2 & ->). destruct (segmentation_describes Dev ys segs Hd G) as (v & I & Ev).
  destruct (C29_accuracy Dev ys v Hd I) as (ts & Ts & Lt & Acc). assert (Lk : (k < length ts)%nat) by (rewrite Lt; apply nth_error_Some; congruence).
  destruct (nth_error ts k) as [u|] eqn:Eu; [|apply nth_error_None in Eu; lia].
  destruct (Acc k t u Et Eu) as (s1 & A1 & A2 & A3 & A4 & A5).
  destruct (index_facts Dev ys v Hd I) as (segs' & Ev' & Ds & Ok_s & Ti & _). assert (segs' = segs) as -> by (rewrite <- Ev, Ev'; reflexivity).
  rewrite Ev in A1. assert (s1 = s) as -> by exact (tiles_unique _ _ _ _ _ _ Ti A1 S1 A2 S2).
  assert (Eu' : u = sg_y s + sg_m s * (Z.of_nat k - sg_x s)).
  { destruct k as [|k].
    - rewrite timestamps_ok in Ts by (rewrite Ev; exact Ok_s). apply ok_inj in Ts. rewrite Ev in Ts. destruct (segmentation_head _ _ _ G) as (s0 & r & Es & X & Y & N); [intros ->; discriminate Et|].
      assert (s = s0) as ->. { eapply (tiles_unique _ _ _ _ _ 0 Ti S1); [rewrite Es; left; reflexivity|exact S2|]. unfold in_segment. lia. }
      rewrite <- Ts, Es in Eu. cbn [map concat] in Eu. rewrite nth_error_app1 in Eu by (assert (L0 := listed_length s0 ltac:(lia)); lia).
      rewrite listed_nth in Eu by lia. assert (u = sg_y s0 + sg_m s0 * Z.of_nat 0) by congruence. lia.
    - destruct (C31_against_list Dev ys v ts (S k) u Hd I Ts Eu ltac:(lia)) as (s2 & B1 & B2 & B3). rewrite Ev in B1.
      assert (s2 = s) as -> by exact (tiles_unique _ _ _ _ _ _ Ti B1 S1 B2 S2).
      destruct (C31_get_time Dev ys v (Z.of_nat (S k)) Hd I) as (_ & _ & _ & T1). destruct T1 as (s3 & C1 & C2 & C3); [rewrite <- Lt; lia|]. rewrite Ev in C1.
      assert (s3 = s) as -> by exact (tiles_unique _ _ _ _ _ _ Ti C1 S1 C2 S2). rewrite B3 in C3. apply ok_inj in C3. assert (u + sg_m s * sg_x s = sg_y s + sg_m s * (Z.of_nat (S k) - sg_x s) + sg_m s * sg_x s) by congruence. lia. }
  exists s. split; [exact S1|]. split; [exact S2|]. rewrite Forall_forall in Ok_s. assert (O := Ok_s s S1). unfold seg_ok in O. unfold in_segment in S2.
  split; [|split].
  - intros E0. replace (sg_y s + sg_m s * Z.of_nat k) with u by nia. split; [exact A3|]. split; [exact A4|]. intros K2. apply A5. lia.
  - intros E1. assert (sg_m s = 0) by lia. assert (t = u) by (apply A5; lia). nia.
  - intros X0 N2. assert (0 < sg_m s) by lia. assert (sg_m s * 1 <= sg_m s * sg_x s) by nia.
    replace (sg_y s + sg_m s * Z.of_nat k) with (u + sg_m s * sg_x s) by nia. lia.
Qed.
Print Assumptions C74_time_error.

(** As long as the times follow a fixed period from the start, they are exact. *)
Theorem C74_regular_beginning : forall ys segs t0 d n rest k t', day_points ys -> segmentation 0 ys segs ->
  ys = map (fun i => t0 + d * Z.of_nat i) (seq 0 n) ++ rest -> (k < n)%nat -> attached segs (Z.of_nat k) t' -> t' = t0 + d * Z.of_nat k.
Proof.
  intros ys segs t0 d n rest k t' Hd G E Hk At. assert (En : nth_error ys k = Some (t0 + d * Z.of_nat k)).
  { rewrite E, nth_error_app1 by (rewrite map_length, seq_length; exact Hk). rewrite nth_error_map, (nth_error_nth' _ 0%nat) by (rewrite seq_length; exact Hk). rewrite seq_nth by exact Hk. reflexivity. }
  destruct (segmentation_describes Dev ys segs Hd G) as (v & I & Ev). destruct (index_facts Dev ys v Hd I) as (segs' & Ev' & _ & _ & Ti & _). assert (segs' = segs) as -> by (rewrite <- Ev, Ev'; reflexivity).
  destruct (Nat.lt_ge_cases n 2) as [N2|N2].
  - assert (k = 0%nat) as -> by lia. destruct (C74_time_error ys segs 0 _ t' Hd G En At) as (s & S1 & S2 & Z0 & _). destruct (tiles_in _ _ _ _ Ti S1) as (X & _). unfold in_segment in S2.
    symmetry. apply Z0; lia.
  - destruct (C29_regular_beginning Dev ys v t0 d n rest Hd I E N2) as (m & more & Es & Hm). rewrite Ev in Es. destruct At as (s & S1 & S2 & ->).
    assert (s = Seg d 0 t0 m) as ->. { eapply (tiles_unique _ _ _ _ _ _ Ti S1); [rewrite Es; left; reflexivity|exact S2|]. unfold in_segment. cbn [sg_x sg_n]. lia. }
    reflexivity.
Qed.
Print Assumptions C74_regular_beginning.

(** The times of later samples can even be out of order and beyond the end of the day: of the samples at seconds 0, 1, 40000, 80000 and
    86000 the third and fourth come back at 120000 and 160000, the last at 86000. *)
Theorem C74_out_of_order_refuted : day_points [0; 1; 40000; 80000; 86000] /\
  segmentation 0 [0; 1; 40000; 80000; 86000] [Seg 1 0 0 2; Seg 40000 2 40000 2; Seg 0 4 86000 1] /\
  attached [Seg 1 0 0 2; Seg 40000 2 40000 2; Seg 0 4 86000 1] 3 160000 /\ attached [Seg 1 0 0 2; Seg 40000 2 40000 2; Seg 0 4 86000 1] 4 86000.
Proof.
  assert (D : day_points [0; 1; 40000; 80000; 86000]) by (split; [repeat constructor|repeat (constructor; [lia|]); constructor]).
  split; [exact D|]. split; [|split].
  - assert (X : index_of Dev [0; 1; 40000; 80000; 86000] (Vsri 0 86000 [Seg 1 0 0 2; Seg 40000 2 40000 2; Seg 0 4 86000 1])) by (eexists; vm_compute; reflexivity). exact (C29_segments _ _ _ D X).
  - exists (Seg 40000 2 40000 2). split; [cbn; auto|]. unfold in_segment. cbn [sg_x sg_n sg_y sg_m]. lia.
  - exists (Seg 0 4 86000 1). split; [cbn; auto|]. unfold in_segment. cbn [sg_x sg_n sg_y sg_m]. lia.
Qed.
Print Assumptions C74_out_of_order_refuted.

(** * A concrete file: eight irregular samples of the first of January 2024 *)
Definition gap_samples : list sample := map (fun y => Sample (1704067200000 + 1000 * y) (from_bits 4609434218613702656)) [0; 10; 25; 31; 100; 105; 110; 200].
Definition gap_file : files := fun n => if text_eqb n (named w_x ext_csv) then Some (write_samples_text toy_numbers gap_samples) else None.
Example C74_example : exists s,
  env_ok id_env /\ proper_stem w_x /\ csvc_accepted csvc_defaults /\ read_samples_from_csv_file toy_numbers (gap_file (named w_x ext_csv)) = Some gap_samples /\
  day_samples gap_samples /\ In s gap_samples /\ finite (sm_val s) /\ seconds gap_samples = sample_day.
Proof.
  assert (Sd : seconds gap_samples = sample_day) by (vm_compute; reflexivity).
  eexists. split; [exact id_env_ok|]. split; [plain_stem|]. split; [unfold csvc_accepted; cbn; lia|]. split; [|split; [|split; [left; reflexivity|split; [vm_compute; reflexivity|exact Sd]]]].
  - unfold gap_file. rewrite (proj2 (text_eqb_spec _ _) eq_refl). apply C48_write_read. unfold gap_samples. rewrite Forall_map. apply Forall_forall. intros y Hy.
    assert (0 <= y <= 200) by (cbn in Hy; lia). split; [unfold in_s; cbn [sm_ts]; change (64 - 1) with 63; lia|]. unfold text_exact, plain. cbn [sm_val].
    assert (E : show_f64 toy_numbers (from_bits 4609434218613702656) = [49; 46; 53]) by (vm_compute; reflexivity). rewrite E.
    split; [repeat apply Forall_cons; try apply Forall_nil; lia|]. split; [discriminate|reflexivity].
  - split; [|rewrite Sd; exact sample_day_ok]. unfold gap_samples. rewrite Forall_map. apply Forall_forall. intros y Hy. assert (0 <= y <= 200) by (cbn in Hy; lia).
    unfold datable, chrono_min, chrono_max. cbn [sm_ts]. Z.to_euclidean_division_equations; lia.
Qed.
