(** C41, C49, C51: the atsc command on files and directories. *)
From Coq Require Import List ZArith Bool Lia ZifyBool.
From Verif Require Import Base Model_Float Model_Bincode BincodeFacts Spec Model_Utils UtilsFacts Model_Compressors PolyLoopFacts Model_Fft Model_Stream FftFacts Props_Fft StreamFacts PlanFacts PipelineFacts Props_Poly Props_Plan Props_Lossless Props_Pipeline Props_ErrorZero
  Model_Wavbrro Props_Wavbrro Model_Vsri Model_Csv CsvFacts Model_Cli.
Import ListNotations.
Open Scope Z_scope.

(** * Vocabulary *)
(** The file name [x.ext]. *)
Definition named (x : name) (ext : text) : name := x ++ [46] ++ ext.
(** A proper stem: a directory (none, or a path ending in a slash) and a name without slashes that is not a single dot; an extension without
    dots and slashes. *)
Definition directory (d : name) : Prop := d = [] \/ exists d', d = d' ++ [47].
Definition proper_stem (x : name) : Prop := exists d f, x = d ++ f /\ directory d /\ f <> [] /\ f <> [46] /\ ~ In 47 f.
Definition proper_ext (ext : text) : Prop := ~ In 46 ext /\ ~ In 47 ext.
(** [fs'] differs from [fs] at most in the file [n]. *)
Definition only_changes (n : name) (fs fs' : files) : Prop := forall m, m <> n -> fs' m = fs m.
(** The same options with and without -u. *)
Definition compressing (a : atsc_args) : atsc_args := {|
  a_compressor := a_compressor a; a_error := a_error a; a_level := a_level a; a_uncompress := false; a_csv := a_csv a; a_no_header := a_no_header a; a_fields := a_fields a |}.
Definition uncompressing (a : atsc_args) : atsc_args := {|
  a_compressor := a_compressor a; a_error := a_error a; a_level := a_level a; a_uncompress := true; a_csv := a_csv a; a_no_header := a_no_header a; a_fields := a_fields a |}.
(** What the command line parser lets through (main.rs:190-207): error 0..50, level 0..6. *)
Definition accepted_args (a : atsc_args) : Prop := 0 <= a_error a <= 50 /\ 0 <= a_level a <= 6.

(** * Names *)
Lemma last_dot_none l : ~ In 46 l -> last_dot l = None.
Proof.
  induction l as [|c r IH]; cbn [last_dot]; [reflexivity|]. intros H. rewrite IH by (intros X; apply H; now right).
  unfold ch_dot. replace (c =? 46) with false; [reflexivity|]. symmetry. apply Z.eqb_neq. intros ->. apply H. now left.
Qed.
Lemma last_dot_named x ext : ~ In 46 ext -> last_dot (named x ext) = Some x.
Proof.
  intros H. unfold named. induction x as [|c r IH]; cbn [app last_dot].
  - rewrite last_dot_none by exact H. reflexivity.
  - cbn [app] in IH. rewrite IH. reflexivity.
Qed.
Lemma last_component_in f d : ~ In 47 f -> directory d -> last_component (rev (d ++ f)) = (f, rev d).
Proof.
  intros Hf Hd. rewrite rev_app_distr. rewrite <- (rev_involutive f) at 2. assert (Hr : ~ In 47 (rev f)) by (now rewrite <- in_rev). clear Hf. induction (rev f) as [|c r IH]; cbn [app last_component].
  - destruct Hd as [->|(d' & ->)]; [reflexivity|]. rewrite rev_app_distr. cbn [rev app last_component]. reflexivity.
  - unfold ch_slash. replace (c =? 47) with false by (symmetry; apply Z.eqb_neq; intros ->; apply Hr; now left). rewrite IH by (intros X; apply Hr; now right). cbn [rev]. reflexivity.
Qed.
Lemma trim_end_in f d : f <> [] -> f <> [46] -> ~ In 47 f -> trim_end (rev (d ++ f)) = rev (d ++ f).
Proof.
  intros H1 H2 H3. rewrite rev_app_distr. assert (R1 : rev f <> []) by (intros E; apply H1; rewrite <- (rev_involutive f), E; reflexivity).
  assert (R2 : rev f <> [46]) by (intros E; apply H2; rewrite <- (rev_involutive f), E; reflexivity). assert (R3 : ~ In 47 (rev f)) by (now rewrite <- in_rev).
  destruct (rev f) as [|c r]; [congruence|]. cbn [app trim_end]. unfold ch_slash, ch_dot. replace (c =? 47) with false by (symmetry; apply Z.eqb_neq; intros ->; apply R3; now left).
  destruct (Z.eqb_spec c 46) as [->|_]; [|reflexivity]. destruct r as [|c2 r]; [congruence|]. cbn [app].
  replace (c2 =? 47) with false by (symmetry; apply Z.eqb_neq; intros ->; apply R3; right; now left). reflexivity.
Qed.
(** On a path to a proper file name the directory stays and the name's extension changes. *)
Lemma set_ext_in d f ext : directory d -> f <> [] -> f <> [46] -> f <> [46; 46] -> ~ In 47 f -> set_extension (d ++ f) ext = d ++ file_stem f ++ [46] ++ ext.
Proof.
  intros Hd H1 H2 H3 H4. unfold set_extension. rewrite trim_end_in, last_component_in by assumption. unfold text_eqb, ch_dot.
  repeat (destruct (list_eq_dec Z.eq_dec _ _) as [C|_]; [contradiction|]). cbn [orb]. now rewrite rev_involutive.
Qed.
Lemma set_ext_named x old ext : proper_stem x -> proper_ext old -> set_extension (named x old) ext = named x ext.
Proof.
  intros (d & f & -> & Hd & H1 & H2 & H3) (Ho1 & Ho2). unfold named. rewrite <- app_assoc. rewrite set_ext_in; [|exact Hd| | | |].
  - unfold file_stem. fold (named f old). rewrite last_dot_named by exact Ho1. destruct f; [congruence|]. now rewrite !app_assoc.
  - destruct f; discriminate.
  - destruct f as [|c [|]]; [congruence|discriminate|discriminate].
  - destruct f as [|c [|c2 [|]]]; try discriminate; [congruence|]. intros E. apply H2. cbn in E. congruence.
  - rewrite !in_app_iff. cbn [In]. intros [C|[[C|[]]|C]]; [auto|discriminate C|auto].
Qed.
Lemma proper_bro : proper_ext ext_bro. Proof. unfold proper_ext, ext_bro. cbn. lia. Qed.
Lemma proper_wbro : proper_ext ext_wbro. Proof. unfold proper_ext, ext_wbro. cbn. lia. Qed.
(** A name without slashes. *)
Lemma proper_plain f : f <> [] -> f <> [46] -> ~ In 47 f -> proper_stem f.
Proof. intros H1 H2 H3. exists [], f. repeat split; auto. now left. Qed.
Ltac plain_stem := apply proper_plain; [discriminate|discriminate|cbn; lia].
Lemma put_same fs n c : put fs n c n = Some c.
Proof. unfold put. now rewrite (proj2 (text_eqb_spec n n) eq_refl). Qed.
Lemma put_other fs n c m : m <> n -> put fs n c m = fs m.
Proof. intros H. unfold put. destruct (text_eqb m n) eqn:E; [apply text_eqb_spec in E; congruence|reflexivity]. Qed.
Lemma bro_wbro_differ x : named x ext_bro <> named x ext_wbro.
Proof. unfold named. intros H. apply app_inv_head in H. discriminate H. Qed.

(** Writing a WavBrro file of at most 2^28 samples succeeds and it reads back. *)
Lemma put_wbro_reads fs n data : Z.of_nat (length data) <= 2 ^ 28 ->
  exists file, put_wbro fs n (wb_from_slice data) = (put fs n file, Done) /\ from_file (Some file) = Ok (WbSamples data).
Proof.
  intros H. unfold put_wbro, wbro_file. destruct (C37_round_trip (Wrote (length wbro_header)) (Wrote 0) data H) as (content & E & _).
  destruct (C37_round_trip (Wrote (length wbro_header)) (Wrote (length content)) data H) as (content' & E' & R).
  assert (content' = content) as -> by (rewrite E in E'; now apply ok_inj in E'). rewrite E. cbn [bind].
  destruct R as (file & F1 & F2 & F3); [unfold complete; eexists; split; [reflexivity|lia] | unfold complete; eexists; split; [reflexivity|lia] |].
  unfold to_file_with_data in F1. rewrite E in F1. cbn [bind] in F1. rewrite F1. exists file. auto.
Qed.

(** * C51: what a call may change *)
(** One call changes at most one file: the input's name with the extension replaced by bro (or wbro with -u), and nothing at all
    unless it ends normally. *)
Theorem C51_one_output : forall e p nt a fs x old fs' o,
  proper_stem x -> proper_ext old ->
  process_single_file e p nt a fs (named x old) = (fs', o) ->
  only_changes (named x (if a_uncompress a then ext_wbro else ext_bro)) fs fs' /\ (o <> Done -> forall m, fs' m = fs m).
Proof.
  intros e p nt a fs x old fs' o Hx Ho H. unfold process_single_file, compress_to, put_wbro in H. rewrite !set_ext_named in H by assumption.
  assert (P : forall n c, (put fs n c, Done) = (fs', o) -> only_changes n fs fs' /\ (o <> Done -> forall m, fs' m = fs m)).
  { intros n c E. injection E as <- <-. split; [intros m Hm; now apply put_other|congruence]. }
  assert (Q : forall n o', (fs, o') = (fs', o) -> only_changes n fs fs' /\ (o <> Done -> forall m, fs' m = fs m)).
  { intros n o' E. injection E as <- <-. split; [intros m Hm; reflexivity|reflexivity]. }
  destruct (a_uncompress a).
  - destruct (fs (named x old)) as [b|]; [|now apply (Q _ (Failed IoError))]. destruct (bro_read b) as [| |bytes]; [now apply (Q _ (Failed IoError))|now apply (Q _ Done)|].
    destruct (decompress_data e p bytes) as [out|]; [|now apply (Q _ Panicked)].
    match type of H with context [match ?c with Ok _ => _ | Panic _ => _ end] => destruct c end; [now apply (P _ a0)|now apply (Q _ Panicked)].
  - assert (C : forall data, (match compress_data e p data (a_compressor a) (a_error a) (a_level a) with Ok bytes => (put fs (named x ext_bro) bytes, Done) | Panic _ => (fs, Panicked) end) = (fs', o) ->
        only_changes (named x ext_bro) fs fs' /\ (o <> Done -> forall m, fs' m = fs m)).
    { intros data E. destruct (compress_data _ _ _ _ _ _); [now apply (P _ a0)|now apply (Q _ Panicked)]. }
    destruct (a_csv a).
    + match type of H with context [match ?c with Ok _ => _ | Panic _ => _ end] => destruct c as [[l|er]|] end; [now apply (C (map sm_val l))|now apply (Q _ (Failed (CsvError er)))|now apply (Q _ Panicked)].
    + destruct (from_file (fs (named x old))) as [[data| |]|]; [now apply (C data)|now apply (Q _ (Failed WbroFormatError))|now apply (Q _ (Failed IoError))|now apply (Q _ Panicked)].
Qed.
Print Assumptions C51_one_output.

(** What a call does depends only on the content of its input file. *)
Lemma step_form e p nt a n : exists act : option (list Z) -> option (list Z) * outcome,
  (forall c, fst (act c) <> None -> snd (act c) = Done) /\
  (a_uncompress a = false -> forall c, snd (act c) = Done -> fst (act c) <> None) /\
  forall fs, process_single_file e p nt a fs n = (match fst (act (fs n)) with Some b => put fs (set_extension n (if a_uncompress a then ext_wbro else ext_bro)) b | None => fs end, snd (act (fs n))).
Proof.
  exists (fun c => match process_single_file e p nt a (fun _ => c) n with
    | (g, Done) => (if a_uncompress a then match c with None => None | Some b => match bro_read b with RBro _ => g (set_extension n ext_wbro) | _ => None end end
                    else g (set_extension n ext_bro), Done)
    | (_, o) => (None, o) end).
  split; [|split].
  - intros c. destruct (process_single_file e p nt a (fun _ => c) n) as [g []]; cbn [fst snd]; congruence.
  - intros Ha c. destruct (process_single_file e p nt a (fun _ => c) n) as [g o] eqn:E. destruct o; cbn [fst snd]; try discriminate. intros _. rewrite Ha.
    unfold process_single_file in E. rewrite Ha in E.
    assert (K : forall data, compress_to e p a (fun _ => c) n data = (g, Done) -> g (set_extension n ext_bro) <> None).
    { intros data. unfold compress_to. destruct (compress_data _ _ _ _ _ _) as [b|]; [|discriminate]. intros X. injection X as <-. rewrite put_same. discriminate. }
    destruct (a_csv a).
    + match type of E with context [match ?c with Ok _ => _ | Panic _ => _ end] => destruct c as [[l|er]|] end; [exact (K _ E)|discriminate E|discriminate E].
    + destruct (from_file _) as [[data| |]|]; [exact (K _ E)|discriminate E|discriminate E|discriminate E].
  - intros fs. unfold process_single_file. destruct (a_uncompress a).
    + destruct (fs n) as [b|]; [|reflexivity]. destruct (bro_read b) as [| |bytes]; [reflexivity|reflexivity|]. destruct (decompress_data e p bytes) as [out|]; [|reflexivity].
      unfold put_wbro. match goal with |- context [match ?c with Ok _ => _ | Panic _ => _ end] => destruct c as [f|] end; [|reflexivity]. cbn [fst snd]. now rewrite put_same.
    + assert (C : forall data, compress_to e p a fs n data = (match fst (match compress_to e p a (fun _ => fs n) n data with (g, Done) => (g (set_extension n ext_bro), Done) | (_, o) => (None, o) end)
           with Some b => put fs (set_extension n ext_bro) b | None => fs end, snd (match compress_to e p a (fun _ => fs n) n data with (g, Done) => (g (set_extension n ext_bro), Done) | (_, o) => (None, o) end))).
      { intros data. unfold compress_to. destruct (compress_data _ _ _ _ _ _); [|reflexivity]. cbn [fst snd]. now rewrite put_same. }
      destruct (a_csv a).
      * match goal with |- context [match ?c with Ok _ => _ | Panic _ => _ end] => destruct c as [[l|er]|] end; [exact (C (map sm_val l))|reflexivity|reflexivity].
      * destruct (from_file (fs n)) as [[data| |]|]; [exact (C data)|reflexivity|reflexivity|reflexivity].
Qed.

(** Compressed files that differ only in the extension share the output: whatever became of the first, if the second is
    processed normally the directory ends as if the first had never been processed. *)
Theorem C51_same_stem_overwrites : forall e p nt a fs x old1 old2 fs1 fs2 o1,
  proper_stem x -> proper_ext old1 -> proper_ext old2 -> a_uncompress a = false -> old2 <> ext_bro ->
  process_single_file e p nt a fs (named x old1) = (fs1, o1) ->
  process_single_file e p nt a fs1 (named x old2) = (fs2, Done) ->
  exists fs2', process_single_file e p nt a fs (named x old2) = (fs2', Done) /\ forall m, fs2' m = fs2 m.
Proof.
  intros e p nt a fs x old1 old2 fs1 fs2 o1 Hx H1 H2 Ha Hb E1 E2.
  destruct (C51_one_output e p nt a fs x old1 fs1 o1 Hx H1 E1) as [O1 _]. rewrite Ha in O1.
  assert (Same : fs1 (named x old2) = fs (named x old2)).
  { apply O1. unfold named. intros X. apply app_inv_head in X. apply app_inv_head in X. contradiction. }
  destruct (step_form e p nt a (named x old2)) as (act & _ & A1 & A2). specialize (A1 Ha (fs (named x old2))).
  rewrite A2 in E2. rewrite A2. rewrite Same in E2. rewrite Ha in *. rewrite set_ext_named in * by assumption.
  destruct (act (fs (named x old2))) as [[c|] o]; cbn [fst snd] in *; injection E2 as E3 ->.
  - eexists. split; [reflexivity|]. intros m. subst fs2. unfold put. destruct (text_eqb m (named x ext_bro)) eqn:E; [reflexivity|]. symmetry. apply O1.
    intros ->. now rewrite (proj2 (text_eqb_spec _ _) eq_refl) in E.
  - now elim (A1 eq_refl).
Qed.
Print Assumptions C51_same_stem_overwrites.

(** * C49: compress, then uncompress *)
(** Whatever the file held and however the series was read: if the samples compress to [bytes], which decompress to [out], then
    the two calls leave x.bro with [bytes] and x.wbro holding [out], and no other file changes. *)
Lemma compress_step e p nt a fs x old data bytes : proper_stem x -> proper_ext old -> a_csv a = false ->
  from_file (fs (named x old)) = Ok (WbSamples data) -> compress_data e p data (a_compressor a) (a_error a) (a_level a) = Ok bytes ->
  process_single_file e p nt (compressing a) fs (named x old) = (put fs (named x ext_bro) bytes, Done).
Proof.
  intros Hx Ho Hc Hf Hb. unfold process_single_file, compressing, compress_to. cbn [a_uncompress a_csv a_compressor a_error a_level].
  rewrite Hc, Hf, Hb, set_ext_named by assumption. reflexivity.
Qed.
Lemma uncompress_step e p nt a fs x old bytes out : proper_stem x -> proper_ext old -> fs (named x old) = Some bytes -> bro_read bytes = RBro bytes ->
  decompress_data e p bytes = Ok out -> Z.of_nat (length out) <= 2 ^ 28 ->
  exists file, process_single_file e p nt (uncompressing a) fs (named x old) = (put fs (named x ext_wbro) file, Done) /\ from_file (Some file) = Ok (WbSamples out).
Proof.
  intros Hx Ho Hf Hr Hd Hl. unfold process_single_file, uncompressing. cbn [a_uncompress]. rewrite Hf, Hr, Hd, set_ext_named by assumption.
  destruct (put_wbro_reads fs (named x ext_wbro) out Hl) as (file & E & R). exists file. auto.
Qed.

(** x.wbro with at least one finite sample: both calls end normally, x.bro holds what the library's compression gives, and
    x.wbro then holds what its decompression gives: one sample per finite sample of the original. *)
Theorem C49_round_trip : forall e p nt a fs x data v,
  env_ok e -> proper_stem x -> accepted_args a -> a_csv a = false ->
  from_file (fs (named x ext_wbro)) = Ok (WbSamples data) -> In v data -> finite v ->
  fits_counter p data -> Z.of_nat (length data) <= 2 ^ 28 ->
  exists fs1 fs2 bytes out cleaned,
    process_single_file e p nt (compressing a) fs (named x ext_wbro) = (fs1, Done) /\
    process_single_file e p nt (uncompressing a) fs1 (named x ext_bro) = (fs2, Done) /\
    compress_data e p data (a_compressor a) (a_error a) (a_level a) = Ok bytes /\ decompress_data e p bytes = Ok out /\
    fs2 (named x ext_bro) = Some bytes /\
    from_file (fs2 (named x ext_wbro)) = Ok (WbSamples out) /\
    subsequence_of finite data cleaned /\ length out = length cleaned /\
    (forall m, m <> named x ext_bro -> m <> named x ext_wbro -> fs2 m = fs m).
Proof.
  intros e p nt a fs x data v He Hx (Ha1 & Ha2) Hc Hf Hv Fv Hfit Hl.
  destruct (C13_pipeline_sample_count e p data (a_compressor a) (a_error a) (a_level a) He ltac:(lia) Ha2 Hfit) as (bytes & out & Cb & Do & Len). rewrite <- clean_is in Len.
  assert (Rd := C15_nonempty_series_readable e p data (a_compressor a) (a_error a) (a_level a) bytes v He ltac:(lia) Ha2 Hfit Hv Fv Cb).
  assert (Cl := clean_data_spec data).
  assert (Lc : (length (clean_data data) <= length data)%nat).
  { clear - Cl. induction Cl; cbn [length]; lia. }
  assert (S1 := compress_step e p nt a fs x ext_wbro data bytes Hx proper_wbro Hc Hf Cb).
  destruct (uncompress_step e p nt a (put fs (named x ext_bro) bytes) x ext_bro bytes out Hx proper_bro (put_same _ _ _) Rd Do ltac:(lia)) as (file & S2 & R2).
  exists (put fs (named x ext_bro) bytes), (put (put fs (named x ext_bro) bytes) (named x ext_wbro) file), bytes, out, (clean_data data).
  split; [exact S1|]. split; [exact S2|]. split; [exact Cb|]. split; [exact Do|].
  split; [rewrite put_other by apply bro_wbro_differ; apply put_same|]. split; [rewrite put_same; exact R2|]. split; [exact Cl|]. split; [exact Len|].
  intros m M1 M2. rewrite !put_other by assumption. reflexivity.
Qed.
Print Assumptions C49_round_trip.

(** With the RLE compressor x.wbro then holds exactly the finite samples of the original (samples in the supported range). *)
Theorem C49_rle_exact : forall e p nt a fs x data v,
  env_ok e -> proper_stem x -> accepted_args a -> a_csv a = false -> a_compressor a = RLE ->
  from_file (fs (named x ext_wbro)) = Ok (WbSamples data) -> In v data -> finite v ->
  Forall (fun x => finite x -> supported x) data ->
  fits_counter p data -> Z.of_nat (length data) <= 2 ^ 28 ->
  exists fs1 fs2 out cleaned,
    process_single_file e p nt (compressing a) fs (named x ext_wbro) = (fs1, Done) /\
    process_single_file e p nt (uncompressing a) fs1 (named x ext_bro) = (fs2, Done) /\
    from_file (fs2 (named x ext_wbro)) = Ok (WbSamples out) /\ subsequence_of finite data cleaned /\ same_series out cleaned.
Proof.
  intros e p nt a fs x data v He Hx Ha Hc Hr Hf Hv Fv Hs Hfit Hl. assert (Ha' := Ha). destruct Ha' as [Ha1 Ha2].
  destruct (C49_round_trip e p nt a fs x data v He Hx Ha Hc Hf Hv Fv Hfit Hl) as (fs1 & fs2 & bytes & out & cl & S1 & S2 & Cb & Do & _ & R & Sub & _ & _).
  destruct (C14_rle_lossless e p data (a_error a) (a_level a) He ltac:(lia) Ha2 Hfit Hs) as (bytes' & out' & cl' & Cb' & Do' & Sub' & Same).
  rewrite Hr in Cb. assert (bytes' = bytes) as -> by congruence. assert (out' = out) as -> by congruence.
  exists fs1, fs2, out, cl'. auto.
Qed.
Print Assumptions C49_rle_exact.

(** So it does with automatic selection and error 0, for integers up to 2^24 in magnitude. *)
Theorem C49_auto_error_zero_exact : forall e p nt a fs x data v,
  env_ok e -> proper_stem x -> a_error a = 0 -> a_level a = 0 -> a_csv a = false -> a_compressor a = Auto ->
  from_file (fs (named x ext_wbro)) = Ok (WbSamples data) -> In v data -> finite v ->
  Forall (fun x => finite x -> no_negative_zero x /\ exists z, is_int x z /\ Z.abs z <= 2 ^ 24) data ->
  fits_counter p data -> Z.of_nat (length data) <= 2 ^ 28 ->
  exists fs1 fs2 out cleaned,
    process_single_file e p nt (compressing a) fs (named x ext_wbro) = (fs1, Done) /\
    process_single_file e p nt (uncompressing a) fs1 (named x ext_bro) = (fs2, Done) /\
    from_file (fs2 (named x ext_wbro)) = Ok (WbSamples out) /\ subsequence_of finite data cleaned /\ same_series out cleaned.
Proof.
  intros e p nt a fs x data v He Hx Ha1 Ha2 Hc Hr Hf Hv Fv Hs Hfit Hl.
  destruct (C49_round_trip e p nt a fs x data v He Hx ltac:(unfold accepted_args; lia) Hc Hf Hv Fv Hfit Hl) as (fs1 & fs2 & bytes & out & cl & S1 & S2 & Cb & Do & _ & R & Sub & _ & _).
  destruct (C47_auto_error_zero_integers e p data He Hfit Hs) as (bytes' & out' & cl' & Cb' & Do' & Sub' & Same).
  rewrite Hr, Ha1, Ha2 in Cb. assert (bytes' = bytes) as -> by congruence. assert (out' = out) as -> by congruence.
  exists fs1, fs2, out, cl'. auto.
Qed.
Print Assumptions C49_auto_error_zero_exact.

(** Without a finite sample (an empty series, say) compression ends normally but its output cannot be uncompressed. *)
Theorem C49_no_finite_sample_refuted : forall e p nt a fs x data,
  proper_stem x -> a_csv a = false ->
  from_file (fs (named x ext_wbro)) = Ok (WbSamples data) -> Forall (fun v => ~ finite v) data ->
  exists fs1, process_single_file e p nt (compressing a) fs (named x ext_wbro) = (fs1, Done) /\
    process_single_file e p nt (uncompressing a) fs1 (named x ext_bro) = (fs1, Failed IoError).
Proof.
  intros e p nt a fs x data Hx Hc Hf Hn. destruct (C15_empty_series e p data (a_compressor a) (a_error a) (a_level a) Hn) as (bytes & Cb & _ & _ & Rd).
  exists (put fs (named x ext_bro) bytes). split; [apply (compress_step e p nt a fs x ext_wbro data); auto using proper_wbro|].
  unfold process_single_file, uncompressing. cbn [a_uncompress]. now rewrite put_same, Rd.
Qed.
Print Assumptions C49_no_finite_sample_refuted.

(** A CSV file: the same, with the values of its records (C42 says which those are). *)
Definition csv_values (nt : number_text) (a : atsc_args) (content : option (list Z)) (data : list f64) : Prop :=
  exists samples, data = map sm_val samples /\
    ((a_no_header a = true /\ read_samples nt content = Ok (Samples samples)) \/
     (a_no_header a = false /\ exists time value more, split_on ch_comma (a_fields a) = time :: value :: more /\
        read_samples_with_headers nt content time value = Ok (Samples samples))).
Theorem C49_csv_round_trip : forall e p nt a fs x old data v,
  env_ok e -> proper_stem x -> proper_ext old -> accepted_args a -> a_csv a = true ->
  csv_values nt a (fs (named x old)) data -> In v data -> finite v ->
  fits_counter p data -> Z.of_nat (length data) <= 2 ^ 28 ->
  exists fs1 fs2 bytes out cleaned,
    process_single_file e p nt (compressing a) fs (named x old) = (fs1, Done) /\
    process_single_file e p nt (uncompressing a) fs1 (named x ext_bro) = (fs2, Done) /\
    compress_data e p data (a_compressor a) (a_error a) (a_level a) = Ok bytes /\ decompress_data e p bytes = Ok out /\
    from_file (fs2 (named x ext_wbro)) = Ok (WbSamples out) /\
    subsequence_of finite data cleaned /\ length out = length cleaned /\
    (forall m, m <> named x ext_bro -> m <> named x ext_wbro -> fs2 m = fs m).
Proof.
  intros e p nt a fs x old data v He Hx Ho (Ha1 & Ha2) Hc Hf Hv Fv Hfit Hl.
  destruct (C13_pipeline_sample_count e p data (a_compressor a) (a_error a) (a_level a) He ltac:(lia) Ha2 Hfit) as (bytes & out & Cb & Do & Len). rewrite <- clean_is in Len.
  assert (Rd := C15_nonempty_series_readable e p data (a_compressor a) (a_error a) (a_level a) bytes v He ltac:(lia) Ha2 Hfit Hv Fv Cb).
  assert (Cl := clean_data_spec data).
  assert (Lc : (length (clean_data data) <= length data)%nat).
  { clear - Cl. induction Cl; cbn [length]; lia. }
  assert (S1 : process_single_file e p nt (compressing a) fs (named x old) = (put fs (named x ext_bro) bytes, Done)).
  { unfold process_single_file, compressing, compress_to. cbn [a_uncompress a_csv a_no_header a_fields a_compressor a_error a_level]. rewrite Hc, set_ext_named by assumption.
    destruct Hf as (samples & -> & [(-> & ->)|(-> & t & u & more & -> & ->)]); now rewrite Cb. }
  destruct (uncompress_step e p nt a (put fs (named x ext_bro) bytes) x ext_bro bytes out Hx proper_bro (put_same _ _ _) Rd Do ltac:(lia)) as (file & S2 & R2).
  exists (put fs (named x ext_bro) bytes), (put (put fs (named x ext_bro) bytes) (named x ext_wbro) file), bytes, out, (clean_data data).
  split; [exact S1|]. split; [exact S2|]. split; [exact Cb|]. split; [exact Do|].
  split; [rewrite put_same; exact R2|]. split; [exact Cl|]. split; [exact Len|].
  intros m M1 M2. rewrite !put_other by assumption. reflexivity.
Qed.
Print Assumptions C49_csv_round_trip.

(** * C41: directories *)
(** [all_processed a fs entries fs']: processing the entries one after the other ends normally each time, leading from [fs] to
    [fs']; entries that are no files are passed over. *)
Inductive all_processed (e : env) (p : profile) (nt : number_text) (a : atsc_args) : files -> list name -> files -> Prop :=
| ap_nil fs : all_processed e p nt a fs [] fs
| ap_skip fs n rest fs' : fs n = None -> all_processed e p nt a fs rest fs' -> all_processed e p nt a fs (n :: rest) fs'
| ap_file fs n b rest fs1 fs' : fs n = Some b -> process_single_file e p nt a fs n = (fs1, Done) -> all_processed e p nt a fs1 rest fs' ->
    all_processed e p nt a fs (n :: rest) fs'.

Lemma failed_unchanged e p nt a fs n fs' er : process_single_file e p nt a fs n = (fs', Failed er) -> fs' = fs.
Proof.
  destruct (step_form e p nt a n) as (act & A1 & _ & A2). rewrite A2. destruct (act (fs n)) as [[c|] o] eqn:E; intros H; injection H as H1 H2.
  - specialize (A1 (fs n)). rewrite E in A1. cbn [fst snd] in *. rewrite A1 in H2; congruence.
  - auto.
Qed.

(** The run ends normally exactly if every file is processed normally, with the files those calls leave. *)
Theorem C41_all_succeed : forall e p nt a fs entries fs',
  process_directory e p nt a fs entries = (fs', Done) <-> all_processed e p nt a fs entries fs'.
Proof.
  intros e p nt a fs entries. revert fs. induction entries as [|n rest IH]; intros fs fs'; cbn [process_directory]; split.
  - intros H. injection H as <-. constructor.
  - intros H. inversion H. reflexivity.
  - destruct (fs n) as [b|] eqn:Hn; [|intros H; apply ap_skip; [exact Hn|now apply IH]].
    destruct (process_single_file e p nt a fs n) as [fs1 []] eqn:E1; [intros H; apply (ap_file _ _ _ _ _ _ b _ fs1); [exact Hn|exact E1|now apply IH]| |discriminate].
    assert (fs1 = fs) as -> by exact (failed_unchanged _ _ _ _ _ _ _ _ E1). rewrite E1. discriminate.
  - intros H. inversion H as [|? ? ? ? Hn Hr|? ? b ? fs1 ? Hn E1 Hr]; subst; rewrite Hn.
    + now apply IH.
    + rewrite E1. now apply IH.
Qed.
Print Assumptions C41_all_succeed.

(** The first file that fails is tried once more, fails again with the same error, and this ends the run with that error: the
    files after it are not processed. The same for a panic. *)
Theorem C41_first_failure_aborts : forall e p nt a fs good fs1 n fs2 o rest,
  all_processed e p nt a fs good fs1 -> fs1 n <> None -> process_single_file e p nt a fs1 n = (fs2, o) -> o <> Done ->
  process_directory e p nt a fs (good ++ n :: rest) = (fs1, o).
Proof.
  intros e p nt a fs good fs1 n fs2 o rest H Hn E Ho. induction H as [fs|fs m good fs' Hm _ IH|fs m b good fsm fs' Hm Em _ IH]; cbn [app process_directory].
  - destruct (fs n) eqn:F; [|congruence]. rewrite E. destruct o as [|er|]; [congruence| |].
    + assert (fs2 = fs) as -> by exact (failed_unchanged _ _ _ _ _ _ _ _ E). rewrite E. reflexivity.
    + destruct (step_form e p nt a n) as (act & A1 & _ & A2). rewrite A2 in E. specialize (A1 (fs n)). destruct (act (fs n)) as [[c|] o]; cbn [fst snd] in *; injection E as E1 E2.
      * rewrite A1 in E2; congruence.
      * now subst.
  - rewrite Hm. now apply IH.
  - rewrite Hm, Em. now apply IH.
Qed.
Print Assumptions C41_first_failure_aborts.

(** Compression (of WavBrro files) gives up at any file of another kind: fewer than 12 bytes, or lacking a WBRO mark. *)
Theorem C41_foreign_file_aborts_compression : forall e p nt a fs good fs1 n b rest,
  a_uncompress a = false -> a_csv a = false ->
  all_processed e p nt a fs good fs1 -> fs1 n = Some b ->
  (length b < 12)%nat \/ firstn 4 b <> [87; 66; 82; 79] \/ firstn 4 (skipn 8 b) <> [87; 66; 82; 79] ->
  exists er, process_directory e p nt a fs (good ++ n :: rest) = (fs1, Failed er).
Proof.
  intros e p nt a fs good fs1 n b rest Hu Hc Hg Hn Hb. destruct (C37_refuses b) as (R1 & R2 & _).
  assert (exists er, process_single_file e p nt a fs1 n = (fs1, Failed er)) as (er & E).
  { unfold process_single_file. rewrite Hu, Hc, Hn. destruct (Nat.ltb_spec (length b) 12) as [L|L].
    - rewrite R1 by exact L. eauto.
    - rewrite R2; [eauto|exact L|]. destruct Hb as [Hb|Hb]; [lia|exact Hb]. }
  exists er. apply (C41_first_failure_aborts e p nt a fs good fs1 n fs1 (Failed er) rest Hg ltac:(congruence) E). discriminate.
Qed.
Print Assumptions C41_foreign_file_aborts_compression.

(** In particular at an output of its own: when the directory walk yields the x.bro it has just written (or left by an earlier
    run), the run ends with an error although nothing was wrong with any input. *)
Theorem C41_own_output_aborts : forall e p nt a fs x data rest,
  env_ok e -> proper_stem x -> accepted_args a -> a_uncompress a = false -> a_csv a = false ->
  from_file (fs (named x ext_wbro)) = Ok (WbSamples data) -> fits_counter p data ->
  exists fs1 er, process_single_file e p nt a fs (named x ext_wbro) = (fs1, Done) /\
    process_directory e p nt a fs (named x ext_wbro :: named x ext_bro :: rest) = (fs1, Failed er).
Proof.
  intros e p nt a fs x data rest He Hx (Ha1 & Ha2) Hu Hc Hf Hfit.
  destruct (C13_pipeline_sample_count e p data (a_compressor a) (a_error a) (a_level a) He ltac:(lia) Ha2 Hfit) as (bytes & out & Cb & _ & _).
  assert (S1 : process_single_file e p nt a fs (named x ext_wbro) = (put fs (named x ext_bro) bytes, Done)).
  { unfold process_single_file, compress_to. rewrite Hu, Hc, Hf, set_ext_named, Cb; auto using proper_wbro. }
  assert (Sm : exists b, fs (named x ext_wbro) = Some b) by (destruct (fs (named x ext_wbro)); [eauto|discriminate Hf]). destruct Sm as (b & Hb).
  destruct (C41_foreign_file_aborts_compression e p nt a fs [named x ext_wbro] (put fs (named x ext_bro) bytes) (named x ext_bro) bytes rest Hu Hc) as (er & E).
  - apply (ap_file _ _ _ _ _ _ b _ (put fs (named x ext_bro) bytes)); [exact Hb|exact S1|constructor].
  - apply put_same.
  - right. left. unfold compress_data in Cb.
    assert (P : exists t, bytes = BRRO ++ t).
    { clear - Cb. destruct (compress_data_calls e p data (a_compressor a) (a_error a) (a_level a)) as (sizes & Hs & E). unfold compress_data in E. rewrite E in Cb.
      destruct (Props_Stream.add_all e p _) as [s|]; [|discriminate Cb]. cbn [bind] in Cb. apply ok_inj in Cb. subst bytes. unfold stream_to_bytes, header_bytes. rewrite <- app_assoc. eauto. }
    destruct P as (t & ->). cbn. discriminate.
  - exists (put fs (named x ext_bro) bytes), er. split; [exact S1|exact E].
Qed.
Print Assumptions C41_own_output_aborts.

(** Decompression passes over files of at least 12 bytes without the BRRO mark, and gives up at any shorter one. *)
Theorem C41_uncompress_foreign : forall e p nt a fs n b rest,
  a_uncompress a = true -> fs n = Some b ->
  ((12 <= length b)%nat -> firstn 4 b <> [66; 82; 82; 79] -> process_directory e p nt a fs (n :: rest) = process_directory e p nt a fs rest) /\
  ((length b < 12)%nat -> process_directory e p nt a fs (n :: rest) = (fs, Failed IoError)).
Proof.
  intros e p nt a fs n b rest Hu Hn. cbn [process_directory]. unfold process_single_file. rewrite Hu, Hn. unfold bro_read. split; intros H.
  - intros N. replace (length b <? 12)%nat with false by lia. destruct (list_eq_dec Z.eq_dec (firstn 4 b) BRRO) as [E|E]; [contradiction|]. reflexivity.
  - assert (E : (length b <? 12)%nat = true) by lia. rewrite E, Hn, E. reflexivity.
Qed.
Print Assumptions C41_uncompress_foreign.

(** * A concrete directory *)
Definition w_x : list Z := [120].
Definition three_samples : list f64 := ints [3; 1; 4].
Definition one_file : files := fun n => if text_eqb n (named w_x ext_wbro) then
  match to_file_with_data (Wrote 100) (Wrote 100) three_samples with Ok f => Some f | Panic _ => None end else None.
Definition rle_args : atsc_args := {| a_compressor := RLE; a_error := 0; a_level := 0; a_uncompress := false; a_csv := false; a_no_header := false; a_fields := [] |}.
Definition no_numbers : number_text := {| parse_f64 := fun _ => None; show_f64 := fun _ => [] |}.

(** It meets the hypotheses of the theorems above. *)
Example C49_example : exists data v,
  env_ok id_env /\ proper_stem w_x /\ accepted_args rle_args /\ a_csv rle_args = false /\ a_compressor rle_args = RLE /\
  from_file (one_file (named w_x ext_wbro)) = Ok (WbSamples data) /\ In v data /\ finite v /\
  Forall (fun x => finite x -> supported x) data /\ fits_counter Dev data /\ Z.of_nat (length data) <= 2 ^ 28 /\ data = three_samples.
Proof.
  exists three_samples, (int_as_f64 3). split; [exact id_env_ok|]. split; [plain_stem|]. split; [unfold accepted_args; cbn; lia|]. split; [reflexivity|]. split; [reflexivity|].
  split.
  { destruct (C37_round_trip (Wrote 100) (Wrote 100) three_samples ltac:(cbn; lia)) as (c & E & R).
    assert (length c = 48%nat) by (assert (X : (do c <- wb_to_bytes (wb_from_slice three_samples); Ok (length c)) = Ok 48%nat) by (vm_compute; reflexivity); rewrite E in X; now apply ok_inj in X).
    destruct R as (f & F1 & _ & F3); [exists 100%nat; split; [reflexivity|cbn; lia]|exists 100%nat; split; [reflexivity|lia]|].
    unfold one_file. rewrite (proj2 (text_eqb_spec _ _) eq_refl), F1. exact F3. }
  split; [left; reflexivity|]. split; [vm_compute; reflexivity|]. split; [|split; [left; cbn; lia|split; [cbn; lia|reflexivity]]].
  unfold three_samples, ints. rewrite Forall_map. apply Forall_forall. intros z Hz _. apply supported_int. cbn in Hz. lia.
Qed.

(** Compressing the directory ends well if the walk sees only x.wbro, and with the format error if it also sees x.bro. *)
Example C41_example :
  snd (process_directory id_env Dev no_numbers rle_args one_file [named w_x ext_wbro]) = Done /\
  snd (process_directory id_env Dev no_numbers rle_args one_file [named w_x ext_wbro; named w_x ext_bro]) = Failed WbroFormatError /\
  set_extension [46; 120] ext_bro = [46; 120; 46; 98; 114; 111] /\ set_extension [97; 46; 98; 46; 99] ext_bro = [97; 46; 98; 46; 98; 114; 111].
Proof. split; [|split]; vm_compute; auto. Qed.
