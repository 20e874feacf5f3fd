(** C64, C65: calls of the tools that are stopped in the middle. *)
From Coq Require Import List ZArith Bool Lia ZifyBool.
From Verif Require Import Base Model_Float Model_Bincode BincodeFacts Spec FloatFacts Model_Utils Model_Stats Model_Compressors Model_Polynomial Model_Fft Model_Stream
  StreamFacts TextFacts CsvFacts Model_Vsri Spec_Vsri Props_Vsri Props_VsriFile Model_Wavbrro Props_Wavbrro Model_Csv Model_Cli Model_Disk PlanFacts Props_Plan Props_Stream Props_Fft Props_Pipeline Props_Csv Props_Tools Props_Cli Props_Wav Props_Csvc.
Import ListNotations.
Open Scope Z_scope.

(** Two directories hold the same. *)
Definition same_files (fs fs' : files) : Prop := forall m, fs m = fs' m.

Lemma write_at_end f b : write_at f (length f) b = f ++ b.
Proof.
  unfold write_at. destruct b as [|x b]; [now rewrite app_nil_r|]. rewrite firstn_all, Nat.sub_diag. cbn [repeat app].
  rewrite skipn_all2 by lia. now rewrite app_nil_r.
Qed.
Lemma write_at_start b : write_at [] 0 b = b.
Proof. apply (write_at_end []). Qed.
Lemma put_put fs n a b : same_files (put (put fs n a) n b) (put fs n b).
Proof. intros m. unfold put. destruct (text_eqb m n); reflexivity. Qed.
Lemma put_congr fs fs' n b : same_files fs fs' -> same_files (put fs n b) (put fs' n b).
Proof. intros H m. unfold put. destruct (text_eqb m n); [reflexivity|apply H]. Qed.
Lemma content_put fs n b : content (put fs n b) n = b.
Proof. unfold content. now rewrite put_same. Qed.
Lemma same_trans a b c : same_files a b -> same_files b c -> same_files a c.
Proof. intros H1 H2 m. now rewrite H1. Qed.
Lemma same_sym a b : same_files a b -> same_files b a. Proof. intros H m. symmetry. apply H. Qed.

Lemma run_app ops1 ops2 fs : run_ops (ops1 ++ ops2) fs = run_ops ops2 (run_ops ops1 fs).
Proof. apply fold_left_app. Qed.
Lemma run_congr ops : forall fs fs', same_files fs fs' -> same_files (run_ops ops fs) (run_ops ops fs').
Proof.
  induction ops as [|o ops IH]; intros fs fs' H; [exact H|]. cbn [run_ops fold_left]. apply IH. destruct o; cbn [do_op].
  - now apply put_congr.
  - unfold content. rewrite (H n). now apply put_congr.
Qed.
Lemma run_whole n b fs : same_files (run_ops (write_whole n b) fs) (put fs n b).
Proof. cbn [write_whole run_ops fold_left do_op]. rewrite content_put, write_at_start. apply put_put. Qed.
Lemma run_wbro n b fs : same_files (run_ops (write_wbro n b) fs) (put fs n (wbro_header ++ b)).
Proof.
  cbn [write_wbro run_ops fold_left do_op]. rewrite content_put, write_at_start, content_put, write_at_end.
  eapply same_trans; [apply put_put|]. apply put_put.
Qed.
Lemma ops_wbro_runs n w fs : exists fs1 o, put_wbro fs n w = (fs1, o) /\ snd (ops_wbro n w) = o /\ same_files (run_ops (fst (ops_wbro n w)) fs) fs1.
Proof.
  unfold put_wbro, ops_wbro. destruct (wb_to_bytes w) as [b|]; cbn [bind fst snd]; [|eexists; eexists; split; [reflexivity|]; split; [reflexivity|intros m; reflexivity]].
  unfold wbro_file, write_wavbrro_file. rewrite firstn_all, firstn_all, write_at_start, write_at_end.
  eexists. eexists. split; [reflexivity|]. split; [reflexivity|]. apply run_wbro.
Qed.

(** The operations of a call, carried out one after the other, are the call. *)
Definition runs (fs : files) (call : list disk_op * outcome) (result : files * outcome) : Prop :=
  snd call = snd result /\ same_files (run_ops (fst call) fs) (fst result).
Lemma runs_nil fs o : runs fs ([], o) (fs, o). Proof. split; [reflexivity|intros m; reflexivity]. Qed.

Theorem C64_operations : forall e p nt a fs n, runs fs (ops_single_file e p nt a fs n) (process_single_file e p nt a fs n).
Proof.
  intros e p nt a fs n. unfold ops_single_file, process_single_file.
  assert (C : forall data, runs fs (ops_compress_to e p a n data) (compress_to e p a fs n data)).
  { intros data. unfold ops_compress_to, compress_to. destruct (compress_data _ _ _ _ _ _); [|apply runs_nil]. split; [reflexivity|apply run_whole]. }
  destruct (a_uncompress a).
  - destruct (fs n) as [b|]; [|apply runs_nil]. destruct (bro_read b) as [| |bytes]; try apply runs_nil.
    destruct (decompress_data e p bytes) as [out|]; [|apply runs_nil].
    destruct (ops_wbro_runs (set_extension n ext_wbro) (wb_from_slice out) fs) as (fs1 & o & H1 & H2 & H3). rewrite H1. split; assumption.
  - destruct (a_csv a).
    + match goal with |- context [match ?c with Ok _ => _ | Panic _ => _ end] => destruct c as [[l|er]|] end; [apply C|apply runs_nil|apply runs_nil].
    + destruct (from_file (fs n)) as [[data| |]|]; [apply C|apply runs_nil|apply runs_nil|apply runs_nil].
Qed.
Print Assumptions C64_operations.

Theorem C65_operations : forall e p nt a fs, runs fs (ops_csvc e p nt a fs) (csvc_process_args e p nt a fs).
Proof.
  intros e p nt a fs. unfold ops_csvc, csvc_process_args. destruct (c_uncompress a).
  - unfold ops_csvc_uncompress, csvc_uncompress. destruct (fs (c_input a)) as [b|]; [|apply runs_nil]. destruct (bro_read b) as [| |bytes]; try apply runs_nil.
    match goal with |- context [match ?c with Ok _ => _ | Panic _ => _ end] => destruct c as [[out w]|] end; [|apply runs_nil].
    destruct (fs (set_extension (c_input a) ext_vsri)) as [ib|]; [|apply runs_nil]. destruct (load ib) as [index|]; [|apply runs_nil].
    set (wname := set_extension _ ext_wbro). destruct (ops_wbro_runs wname (wb_from_slice out) fs) as (fs1 & o & H1 & H2 & H3).
    rewrite H1. destruct (ops_wbro wname (wb_from_slice out)) as [ops1 o1]. cbn [fst snd] in *. subst o1.
    destruct o; try (split; [reflexivity|exact H3]). destruct (get_samples p (Metric w index)) as [samples|]; [|split; [reflexivity|exact H3]].
    split; [reflexivity|]. cbn [fst]. rewrite run_app. eapply same_trans; [apply run_whole|]. now apply put_congr.
  - unfold ops_csvc_compress, csvc_compress. destruct (process_csv p nt (fs (c_input a))) as [m|]; [|apply runs_nil].
    set (base := match c_output a with Some o => o | None => c_input a end).
    assert (W : exists fs1 o ops1, (if c_output_wavbrro a then put_wbro fs (set_extension base ext_wavbro) (mt_wbro m) else (fs, Done)) = (fs1, o) /\
      (if c_output_wavbrro a then ops_wbro (set_extension base ext_wavbro) (mt_wbro m) else ([], Done)) = (ops1, o) /\ same_files (run_ops ops1 fs) fs1).
    { destruct (c_output_wavbrro a).
      - destruct (ops_wbro_runs (set_extension base ext_wavbro) (mt_wbro m) fs) as (fs1 & o & H1 & H2 & H3). exists fs1, o, (fst (ops_wbro (set_extension base ext_wavbro) (mt_wbro m))).
        split; [exact H1|]. split; [|exact H3]. rewrite <- H2. now destruct (ops_wbro (set_extension base ext_wavbro) (mt_wbro m)).
      - exists fs, Done, []. split; [reflexivity|]. split; [reflexivity|intros k; reflexivity]. }
    destruct W as (fs1 & o & ops1 & -> & -> & H3). destruct o; try (split; [reflexivity|exact H3]).
    set (fs2 := if c_output_vsri a then put fs1 (set_extension base ext_vsri) (flush_bytes (mt_vsri m)) else fs1).
    set (ops2 := ops1 ++ (if c_output_vsri a then write_whole (set_extension base ext_vsri) (flush_bytes (mt_vsri m)) else [])).
    assert (H4 : same_files (run_ops ops2 fs) fs2).
    { unfold ops2, fs2. rewrite run_app. destruct (c_output_vsri a); [|exact H3]. eapply same_trans; [apply run_whole|]. now apply put_congr. }
    destruct (c_no_compression a); [split; [reflexivity|exact H4]|].
    destruct (compress_data _ _ _ _ _ _) as [bytes|]; [|split; [reflexivity|exact H4]].
    split; [reflexivity|]. cbn [fst]. rewrite run_app. eapply same_trans; [apply run_whole|]. now apply put_congr.
Qed.
Print Assumptions C65_operations.

(** ** Stopping *)
Definition target (o : disk_op) : name := match o with Create n => n | WriteAt n _ _ => n end.
Lemma do_op_other o fs m : m <> target o -> do_op fs o m = fs m.
Proof. destruct o; cbn [target do_op]; intros H; now apply put_other. Qed.
Lemma stopped_other ops fs fs' : stopped ops fs fs' -> forall m, ~ In m (map target ops) -> fs' m = fs m.
Proof.
  induction 1 as [|n off b k rest fs|o rest fs fs' _ IH]; intros m Hm; cbn [map In] in Hm.
  - reflexivity.
  - apply do_op_other. intros E. apply Hm. left. now rewrite E.
  - rewrite IH by tauto. apply do_op_other. intros E. apply Hm. left. now symmetry.
Qed.

(** Operations that create what they write erase every difference in it. *)
Fixpoint created_first (d : list name) (ops : list disk_op) : Prop :=
  match ops with
  | [] => d = []
  | Create n :: rest => created_first (filter (fun m => negb (text_eqb m n)) d) rest
  | WriteAt n _ _ :: rest => ~ In n d /\ created_first d rest
  end.
Lemma run_erases ops : forall d fs fs', created_first d ops -> (forall m, ~ In m d -> fs m = fs' m) -> same_files (run_ops ops fs) (run_ops ops fs').
Proof.
  induction ops as [|o ops IH]; intros d fs fs' Hc H; cbn [created_first] in Hc.
  - subst d. intros m. apply H. intros [].
  - cbn [run_ops fold_left]. destruct o as [n|n off b].
    + apply (IH (filter (fun m => negb (text_eqb m n)) d)); [exact Hc|]. intros m Hm. cbn [do_op]. unfold put. destruct (text_eqb m n) eqn:E; [reflexivity|].
      apply H. intros Hd. apply Hm, filter_In. split; [exact Hd|]. now rewrite E.
    + destruct Hc as [Hn Hc]. apply (IH d); [exact Hc|]. intros m Hm. cbn [do_op]. unfold content. rewrite (H n Hn). unfold put. destruct (text_eqb m n); [reflexivity|now apply H].
Qed.
Lemma eqb_refl n : text_eqb n n = true. Proof. now apply text_eqb_spec. Qed.
Lemma created_whole n b : created_first [n] (write_whole n b).
Proof. cbn [write_whole created_first filter]. rewrite eqb_refl. cbn [negb]. split; [intros []|reflexivity]. Qed.
Lemma created_wbro n b : created_first [n] (write_wbro n b).
Proof. cbn [write_wbro created_first filter]. rewrite eqb_refl. cbn [negb]. split; [intros []|]. split; [intros []|reflexivity]. Qed.

(** Beginnings of a list. *)
Definition beginning {A} (cut whole : list A) : Prop := exists rest, whole = cut ++ rest.
Lemma beginning_firstn {A} k (l : list A) : beginning (firstn k l) l.
Proof. exists (skipn k l). symmetry. apply firstn_skipn. Qed.

(** Writing a file as a whole, stopped: the file is as before or holds a beginning of the new content. *)
Lemma stopped_whole n b fs fs' : stopped (write_whole n b) fs fs' ->
  (forall m, m <> n -> fs' m = fs m) /\ (same_files fs' fs \/ exists cut, fs' n = Some cut /\ beginning cut b).
Proof.
  intros H. split; [intros m Hm; apply (stopped_other _ _ _ H); cbn; intuition|]. unfold write_whole in H.
  inversion H as [|? ? ? ? ? ?|? ? ? ? H1]; subst; [left; intros m; reflexivity|]. right.
  inversion H1 as [|? ? ? k ? ?|? ? ? ? H2]; subst.
  - exists []. cbn [do_op]. rewrite put_same. split; [reflexivity|]. now exists b.
  - exists (firstn k b). cbn [do_op]. rewrite put_same, content_put, write_at_start. split; [reflexivity|apply beginning_firstn].
  - inversion H2; subst. exists b. cbn [do_op]. rewrite put_same, content_put, write_at_start. split; [reflexivity|]. exists []. now rewrite app_nil_r.
Qed.
Lemma stopped_wbro n b fs fs' : stopped (write_wbro n b) fs fs' ->
  (forall m, m <> n -> fs' m = fs m) /\ (same_files fs' fs \/ exists cut, fs' n = Some cut /\ beginning cut (wbro_header ++ b)).
Proof.
  intros H. split; [intros m Hm; apply (stopped_other _ _ _ H); cbn; intuition|]. unfold write_wbro in H.
  inversion H as [|? ? ? ? ? ?|? ? ? ? H1]; subst; [left; intros m; reflexivity|]. right.
  inversion H1 as [|? ? ? k ? ?|? ? ? ? H2]; subst.
  - exists []. cbn [do_op]. rewrite put_same. split; [reflexivity|]. now exists (wbro_header ++ b).
  - exists (firstn k wbro_header). cbn [do_op]. rewrite put_same, content_put, write_at_start. split; [reflexivity|].
    exists (skipn k wbro_header ++ b). rewrite app_assoc. now rewrite firstn_skipn.
  - inversion H2 as [|? ? ? k ? ?|? ? ? ? H3]; subst.
    + exists wbro_header. cbn [do_op]. rewrite put_same, content_put, write_at_start. split; [reflexivity|]. now exists b.
    + exists (wbro_header ++ firstn k b). cbn [do_op]. rewrite put_same, !content_put, write_at_start, write_at_end. split; [reflexivity|].
      exists (skipn k b). now rewrite <- app_assoc, firstn_skipn.
    + inversion H3; subst. exists (wbro_header ++ b). cbn [do_op]. rewrite put_same, !content_put, write_at_start, write_at_end. split; [reflexivity|]. exists []. now rewrite app_nil_r.
Qed.

(** The operations of one call of atsc: none, or one file as a whole. *)
Lemma single_file_shape e p nt a fs x old : proper_stem x -> proper_ext old ->
  let out := named x (if a_uncompress a then ext_wbro else ext_bro) in
  (fst (ops_single_file e p nt a fs (named x old)) = [] \/
   snd (ops_single_file e p nt a fs (named x old)) = Done /\
   exists b, (fst (ops_single_file e p nt a fs (named x old)) = write_whole out b \/ fst (ops_single_file e p nt a fs (named x old)) = write_wbro out b)).
Proof.
  intros Hx Ho. cbv zeta. unfold ops_single_file.
  assert (C : forall data, a_uncompress a = false -> fst (ops_compress_to e p a (named x old) data) = [] \/ snd (ops_compress_to e p a (named x old) data) = Done /\
    exists b, (fst (ops_compress_to e p a (named x old) data) = write_whole (named x ext_bro) b \/ fst (ops_compress_to e p a (named x old) data) = write_wbro (named x ext_bro) b)).
  { intros data _. unfold ops_compress_to. destruct (compress_data _ _ _ _ _ _) as [b|]; [|now left]. right. split; [reflexivity|]. exists b. left. now rewrite set_ext_named. }
  destruct (a_uncompress a) eqn:Ea.
  - destruct (fs (named x old)) as [b|]; [|now left]. destruct (bro_read b) as [| |bytes]; try now left.
    destruct (decompress_data e p bytes) as [out|]; [|now left]. unfold ops_wbro. destruct (wb_to_bytes _) as [c|]; [|now left].
    right. split; [reflexivity|]. exists c. right. now rewrite set_ext_named.
  - destruct (a_csv a).
    + match goal with |- context [match ?c with Ok _ => _ | Panic _ => _ end] => destruct c as [[l|er]|] end; [now apply C|now left|now left].
    + destruct (from_file (fs (named x old))) as [[data| |]|]; [now apply C|now left|now left|now left].
Qed.

(** A call on x.old that is stopped anywhere leaves every file but its output as it was; the output file is as it was, or holds a
    beginning of what the finished call writes. *)
Theorem C64_stopped : forall e p nt a fs x old fs' final o,
  proper_stem x -> proper_ext old ->
  stopped (fst (ops_single_file e p nt a fs (named x old))) fs fs' ->
  process_single_file e p nt a fs (named x old) = (final, o) ->
  let out := named x (if a_uncompress a then ext_wbro else ext_bro) in
  (forall m, m <> out -> fs' m = fs m) /\
  (same_files fs' fs \/ o = Done /\ exists cut whole, fs' out = Some cut /\ final out = Some whole /\ beginning cut whole).
Proof.
  intros e p nt a fs x old fs' final o Hx Ho Hs Hf out. destruct (C64_operations e p nt a fs (named x old)) as [R1 R2]. rewrite Hf in R1, R2. cbn [fst snd] in R1, R2.
  destruct (single_file_shape e p nt a fs x old Hx Ho) as [H|(D & b & [H|H])]; fold out in H; rewrite H in Hs, R2.
  - inversion Hs; subst. split; [intros m _; reflexivity|]. left. intros m. reflexivity.
  - destruct (stopped_whole _ _ _ _ Hs) as [S1 S2]. split; [exact S1|]. destruct S2 as [S2|(cut & S2 & S3)]; [now left|right]. split; [congruence|].
    exists cut, b. split; [exact S2|]. split; [|exact S3]. rewrite <- (R2 out), (run_whole out b fs out). apply put_same.
  - destruct (stopped_wbro _ _ _ _ Hs) as [S1 S2]. split; [exact S1|]. destruct S2 as [S2|(cut & S2 & S3)]; [now left|right]. split; [congruence|].
    exists cut, (wbro_header ++ b). split; [exact S2|]. split; [|exact S3]. rewrite <- (R2 out), (run_wbro out b fs out). apply put_same.
Qed.
Print Assumptions C64_stopped.

(** Repeating the call after a stop gives what the undisturbed call gives (unless the output is the input). *)
Lemma ops_depend e p nt a fs fs' n : fs' n = fs n -> ops_single_file e p nt a fs' n = ops_single_file e p nt a fs n.
Proof. intros H. unfold ops_single_file. now rewrite !H. Qed.

Theorem C64_repeat : forall e p nt a fs x old fs' final o,
  proper_stem x -> proper_ext old -> old <> (if a_uncompress a then ext_wbro else ext_bro) ->
  stopped (fst (ops_single_file e p nt a fs (named x old))) fs fs' ->
  process_single_file e p nt a fs (named x old) = (final, o) ->
  exists final', process_single_file e p nt a fs' (named x old) = (final', o) /\ same_files final' final.
Proof.
  intros e p nt a fs x old fs' final o Hx Ho Hne Hs Hf. destruct (C64_stopped e p nt a fs x old fs' final o Hx Ho Hs Hf) as [S1 _].
  set (out := named x (if a_uncompress a then ext_wbro else ext_bro)) in *.
  assert (Hin : fs' (named x old) = fs (named x old)) by (apply S1; now apply named_differ).
  destruct (C64_operations e p nt a fs (named x old)) as [R1 R2]. destruct (C64_operations e p nt a fs' (named x old)) as [R1' R2'].
  rewrite (ops_depend e p nt a fs fs' _ Hin) in R1', R2'. rewrite Hf in R1, R2. cbn [fst snd] in R1, R2.
  destruct (process_single_file e p nt a fs' (named x old)) as [final' o'] eqn:E. cbn [fst snd] in R1', R2'. exists final'. split; [congruence|].
  eapply same_trans; [apply same_sym, R2'|]. eapply same_trans; [|exact R2].
  destruct (single_file_shape e p nt a fs x old Hx Ho) as [H|(D & b & [H|H])]; fold out in H; rewrite H in *.
  - inversion Hs; subst. intros m. reflexivity.
  - apply (run_erases _ [out]); [apply created_whole|]. intros m Hm. apply S1. intros ->. apply Hm. now left.
  - apply (run_erases _ [out]); [apply created_wbro|]. intros m Hm. apply S1. intros ->. apply Hm. now left.
Qed.
Print Assumptions C64_repeat.

(** ** What an interrupted compression leaves behind is refused *)
Lemma compressed_typed e p data c err level bytes : env_ok e -> 0 <= err < 256 -> 0 <= level <= 6 -> fits_counter p data ->
  compress_data e p data c err level = Ok bytes -> exists s, typed_stream s /\ bytes = stream_to_bytes s.
Proof.
  intros He Hr Hl Hf H. destruct (compress_data_calls e p data c err level) as (sizes & Hs & E). rewrite E in H. clear E.
  destruct (cut_facts _ _ Hs) as (_ & Hc2 & Hc3). assert (Hp := proper_calls c err level _ Hr Hl Hc2). assert (Hcnt := counter_ok p data sizes Hf Hs).
  destruct (Props_Stream.add_all e p (map (call_for c err level) (cut (clean_data data) sizes))) as [s|] eqn:Es; [|discriminate H].
  cbn [bind] in H. apply ok_inj in H. subst bytes. exists s. split; [|reflexivity]. destruct (C04_frame_counter e p _ s Es) as (HF & Hh & Hv).
  assert (Hlen := forall2_length _ _ _ HF). rewrite map_length, Hc3 in Hlen. split; [lia|]. split; [rewrite Hh; apply Z.mod_pos_bound; lia|]. split.
  - clear - HF Hp He. induction HF as [|a f l fs Hf _ IH]; constructor; inversion Hp; subst; auto.
    destruct (frame_of_ok e p a He ltac:(assumption)) as (f' & F1 & F2 & _). rewrite Hf in F1. apply ok_inj in F1. now subst f'.
  - destruct Hcnt; lia.
Qed.

(** The samples a compressing call takes from its input file. *)
Definition input_samples (nt : number_text) (a : atsc_args) (content : option (list Z)) (data : list f64) : Prop :=
  (a_csv a = false /\ from_file content = Ok (WbSamples data)) \/ (a_csv a = true /\ csv_values nt a content data).
Lemma ops_compressing e p nt a fs n data : input_samples nt a (fs n) data -> ops_single_file e p nt (compressing a) fs n = ops_compress_to e p (compressing a) n data.
Proof.
  intros H. unfold ops_single_file, compressing. cbn [a_uncompress a_csv a_no_header a_fields]. destruct H as [[-> ->]|[-> (samples & -> & H)]]; [reflexivity|].
  destruct H as [[-> ->]|(-> & t & v & m & -> & ->)]; reflexivity.
Qed.

Theorem C64_torn_refused : forall e p nt a fs x old data fs' final,
  env_ok e -> proper_stem x -> proper_ext old -> accepted_args a -> input_samples nt a (fs (named x old)) data -> fits_counter p data ->
  stopped (fst (ops_single_file e p nt (compressing a) fs (named x old))) fs fs' ->
  process_single_file e p nt (compressing a) fs (named x old) = (final, Done) ->
  fs' (named x ext_bro) = fs (named x ext_bro) \/ fs' (named x ext_bro) = final (named x ext_bro) \/
  exists o, process_single_file e p nt (uncompressing a) fs' (named x ext_bro) = (fs', o) /\ (o = Failed IoError \/ o = Panicked).
Proof.
  intros e p nt a fs x old data fs' final He Hx Ho (Ha1 & Ha2) Hi Hf Hs Hr.
  destruct (C64_operations e p nt (compressing a) fs (named x old)) as [R1 R2]. rewrite Hr in R1, R2. cbn [fst snd] in R1, R2.
  rewrite (ops_compressing e p nt a fs _ data Hi) in *. unfold ops_compress_to, compressing in *. cbn [a_compressor a_error a_level] in *.
  destruct (compress_data e p data (a_compressor a) (a_error a) (a_level a)) as [bytes|] eqn:Cb; [|discriminate R1]. cbn [fst] in *. rewrite set_ext_named in * by assumption.
  destruct (compressed_typed e p data (a_compressor a) (a_error a) (a_level a) bytes He ltac:(lia) Ha2 Hf Cb) as (s & Ts & Eb).
  destruct (stopped_whole _ _ _ _ Hs) as [_ [S1|(cut & S1 & rest & S2)]]; [left; apply S1|right].
  destruct rest as [|r rest].
  - left. rewrite S1, <- (R2 (named x ext_bro)), (run_whole _ _ _ _), put_same. rewrite app_nil_r in S2. now subst cut.
  - right. unfold process_single_file, uncompressing. cbn [a_uncompress]. rewrite S1. unfold bro_read.
    destruct (length cut <? 12)%nat eqn:L; [eexists; split; [reflexivity|now left]|].
    assert (M : firstn 4 cut = BRRO).
    { rewrite Eb in S2. unfold stream_to_bytes, header_bytes in S2. rewrite <- app_assoc in S2. assert (E := f_equal (firstn 4) S2).
      rewrite (firstn_app 4 cut) in E. replace (4 - length cut)%nat with 0%nat in E by lia. rewrite (firstn_O (r :: rest)), app_nil_r in E. rewrite <- E. reflexivity. }
    destruct (list_eq_dec Z.eq_dec (firstn 4 cut) BRRO) as [_|N]; [|contradiction].
    assert (Rf : refused (stream_from_bytes cut)) by (apply (C02_torn_stream_refused s cut (r :: rest)); [exact Ts|congruence|discriminate]).
    destruct Rf as [why Rf]. unfold decompress_data. rewrite Rf. cbn [bind]. eexists. split; [reflexivity|now right].
Qed.
Print Assumptions C64_torn_refused.

(** A torn x.wbro is not always refused. If the decompressed series begins with two zeros, the interrupted call can leave an x.wbro that
    reads as a series of no samples; compressing that one replaces x.bro by a stream that cannot be uncompressed: the series is in
    neither file any more, though every call that was not stopped ended normally. *)
Theorem C64_torn_wbro_loses_refuted : forall e p nt a fs x bytes out,
  proper_stem x -> a_csv a = false -> fs (named x ext_bro) = Some bytes -> bro_read bytes = RBro bytes -> decompress_data e p bytes = Ok (f0 :: f0 :: out) ->
  Z.of_nat (length out) <= 2 ^ 28 - 2 ->
  exists fs' fs2, stopped (fst (ops_single_file e p nt (uncompressing a) fs (named x ext_bro))) fs fs' /\
    from_file (fs' (named x ext_wbro)) = Ok (WbSamples []) /\
    process_single_file e p nt (compressing a) fs' (named x ext_wbro) = (fs2, Done) /\
    process_single_file e p nt (uncompressing a) fs2 (named x ext_bro) = (fs2, Failed IoError) /\
    fs2 (named x ext_wbro) = fs' (named x ext_wbro) /\ (forall b, fs2 (named x ext_bro) = Some b -> bro_read b = RIoError).
Proof.
  intros e p nt a fs x bytes out Hx Hc Hb Hr Hd Hl. set (series := f0 :: f0 :: out) in *.
  destruct (C37_round_trip (Wrote 0) (Wrote 0) series) as (content & E & _); [cbn [series length]; lia|].
  assert (Z16 : firstn 16 content = repeat 0 16).
  { assert (C : exists r cs, wb_chunks (wb_from_slice series) = (f0 :: f0 :: r) :: cs).
    { assert (S2 := chunk_size_val). unfold wb_from_slice. cbn [wb_chunks]. unfold series. cbn [length slice_chunks]. destruct wb_chunk_size as [|[|k]]; [lia|lia|]. eexists. eexists. reflexivity. }
    destruct C as (r & cs & C). unfold wb_to_bytes in E. cbv zeta in E. rewrite C in E.
    destruct (vec_table _ _ _) as [t|]; [|discriminate E]. cbn [bind] in E. destruct (rel_ptr _ _) as [q|]; [|discriminate E]. cbn [bind] in E. apply ok_inj in E. subst content.
    unfold chunk_bytes. cbn [flat_map]. rewrite <- !app_assoc. change (enc_f64 f0) with (repeat 0 8). cbn [repeat app firstn]. reflexivity. }
  assert (Ops : fst (ops_single_file e p nt (uncompressing a) fs (named x ext_bro)) = write_wbro (named x ext_wbro) content).
  { unfold ops_single_file, uncompressing. cbn [a_uncompress]. rewrite Hb, Hr, Hd. unfold ops_wbro. fold series. rewrite E. now rewrite set_ext_named by auto using proper_bro. }
  rewrite Ops. set (fs' := do_op (do_op (do_op fs (Create (named x ext_wbro))) (WriteAt (named x ext_wbro) 0 wbro_header)) (WriteAt (named x ext_wbro) (length wbro_header) (firstn 16 content))).
  assert (F : fs' (named x ext_wbro) = Some (wbro_header ++ repeat 0 16)).
  { unfold fs'. cbn [do_op]. rewrite put_same, !content_put, write_at_start, write_at_end, Z16. reflexivity. }
  assert (R : from_file (fs' (named x ext_wbro)) = Ok (WbSamples [])) by (rewrite F; reflexivity).
  destruct (C15_empty_series e p [] (a_compressor a) (a_error a) (a_level a) ltac:(apply Forall_nil)) as (b & Cb & _ & _ & Rd).
  assert (St := compress_step e p nt a fs' x ext_wbro [] b Hx proper_wbro Hc R Cb).
  exists fs', (put fs' (named x ext_bro) b). split; [do 2 apply stopped_later; apply stopped_within|]. split; [exact R|]. split; [exact St|].
  split; [unfold process_single_file, uncompressing; cbn [a_uncompress]; now rewrite put_same, Rd|].
  split; [apply put_other; intros D; now apply (bro_wbro_differ x)|]. intros b' H. rewrite put_same in H. assert (b' = b) as -> by congruence. exact Rd.
Qed.
Print Assumptions C64_torn_wbro_loses_refuted.

(** ** csv-compressor *)
(** Sequences of whole-file writes. *)
Inductive whole_files : list (name * list Z) -> list disk_op -> Prop :=
| wf_nil : whole_files [] []
| wf_whole n b l ops : whole_files l ops -> whole_files ((n, b) :: l) (write_whole n b ++ ops)
| wf_wbro n b l ops : whole_files l ops -> whole_files ((n, wbro_header ++ b) :: l) (write_wbro n b ++ ops).
Lemma wf_app l1 ops1 l2 ops2 : whole_files l1 ops1 -> whole_files l2 ops2 -> whole_files (l1 ++ l2) (ops1 ++ ops2).
Proof. induction 1; intros H2; [exact H2|rewrite <- app_assoc; cbn [app]; constructor; auto|rewrite <- app_assoc; cbn [app]; constructor; auto]. Qed.
Lemma wf_one n b : whole_files [(n, b)] (write_whole n b).
Proof. rewrite <- (app_nil_r (write_whole n b)). repeat constructor. Qed.
Lemma wf_one_wbro n b : whole_files [(n, wbro_header ++ b)] (write_wbro n b).
Proof. rewrite <- (app_nil_r (write_wbro n b)). repeat constructor. Qed.

Lemma wf_run l ops : whole_files l ops -> forall fs, (forall m, ~ In m (map fst l) -> run_ops ops fs m = fs m) /\ (NoDup (map fst l) -> forall n b, In (n, b) l -> run_ops ops fs n = Some b).
Proof.
  assert (St : forall n b l ops, (forall fs, (forall m, ~ In m (map fst l) -> run_ops ops fs m = fs m) /\ (NoDup (map fst l) -> forall n b, In (n, b) l -> run_ops ops fs n = Some b)) ->
    forall fs g, same_files g (put fs n b) -> (forall m, ~ In m (n :: map fst l) -> run_ops ops g m = fs m) /\ (NoDup (n :: map fst l) -> forall n' b', In (n', b') ((n, b) :: l) -> run_ops ops g n' = Some b')).
  { intros n b l0 ops0 IH fs g G. destruct (IH g) as [I1 I2]. split.
    - intros m Hm. cbn [In] in Hm. rewrite I1 by tauto. rewrite (G m). apply put_other. intros ->. tauto.
    - intros Nd n' b' Hin. inversion Nd as [|? ? N1 N2]; subst. destruct Hin as [Ei|Hi]; [|now apply I2]. assert (n = n') as -> by congruence. assert (b = b') as -> by congruence.
      rewrite I1 by exact N1. rewrite (G n'). apply put_same. }
  induction 1 as [|n b l ops H IH|n b l ops H IH]; intros fs.
  - split; [reflexivity|]. intros _ n b [].
  - rewrite run_app. apply (St n b l ops IH). apply run_whole.
  - rewrite run_app. apply (St n (wbro_header ++ b) l ops IH). apply run_wbro.
Qed.
Lemma wf_targets l ops : whole_files l ops -> forall m, In m (map target ops) <-> In m (map fst l).
Proof. induction 1; intros m; [reflexivity| |]; rewrite map_app, in_app_iff, IHwhole_files; cbn; intuition. Qed.
Lemma wf_created l ops : whole_files l ops -> forall d, (forall m, In m d -> In m (map fst l)) -> created_first d ops.
Proof.
  assert (Fl : forall (d : list name) n, ~ In n (filter (fun m => negb (text_eqb m n)) d)) by (intros d n X; apply filter_In in X; destruct X as [_ X]; now rewrite eqb_refl in X).
  induction 1 as [|n b l ops H IH|n b l ops H IH]; intros d Hd.
  - cbn [created_first]. destruct d as [|m d]; [reflexivity|]. now elim (Hd m (or_introl eq_refl)).
  - cbn [write_whole app created_first]. split; [apply Fl|]. apply IH. intros m Hm. apply filter_In in Hm. destruct Hm as [M1 M2].
    destruct (Hd m M1) as [Em|Hm]; [|exact Hm]. cbn [fst] in Em. subst m. now rewrite eqb_refl in M2.
  - cbn [write_wbro app created_first]. split; [apply Fl|]. split; [apply Fl|]. apply IH. intros m Hm. apply filter_In in Hm. destruct Hm as [M1 M2].
    destruct (Hd m M1) as [Em|Hm]; [|exact Hm]. cbn [fst] in Em. subst m. now rewrite eqb_refl in M2.
Qed.
Lemma stopped_app ops1 : forall ops2 fs fs', stopped (ops1 ++ ops2) fs fs' -> stopped ops1 fs fs' \/ stopped ops2 (run_ops ops1 fs) fs'.
Proof.
  induction ops1 as [|o ops1 IH]; intros ops2 fs fs' H; [now right|]. cbn [app] in H. inversion H as [|? ? ? ? ? ?|? ? ? ? H1]; subst.
  - left. apply stopped_here.
  - left. apply stopped_within.
  - destruct (IH _ _ _ H1) as [H2|H2]; [left; now apply stopped_later|right; exact H2].
Qed.

(** The files of [outs] are written in this order: those before the stopping point are complete, the one at it is as before or a
    beginning of what it should become, those after it are as before; no other file changes. *)
Definition in_order (outs : list name) (fs fs' final : files) : Prop :=
  (forall m, ~ In m outs -> fs' m = fs m) /\
  exists done current later, outs = done ++ current ++ later /\ (length current <= 1)%nat /\
    (forall m, In m done -> fs' m = final m) /\
    (forall m, In m current -> exists cut whole, fs' m = Some cut /\ final m = Some whole /\ beginning cut whole) /\
    (forall m, In m later -> fs' m = fs m).
Lemma wf_stopped l ops : whole_files l ops -> forall fs fs' final, NoDup (map fst l) -> stopped ops fs fs' -> (forall n b, In (n, b) l -> final n = Some b) ->
  in_order (map fst l) fs fs' final.
Proof.
  assert (St : forall n b (l : list (name * list Z)) ops0 ops fs fs' final, NoDup (n :: map fst l) -> final n = Some b ->
    (stopped ops0 fs fs' -> (forall m, m <> n -> fs' m = fs m) /\ (same_files fs' fs \/ exists cut, fs' n = Some cut /\ beginning cut b)) -> same_files (run_ops ops0 fs) (put fs n b) ->
    (stopped ops (run_ops ops0 fs) fs' -> in_order (map fst l) (run_ops ops0 fs) fs' final) -> stopped (ops0 ++ ops) fs fs' -> in_order (n :: map fst l) fs fs' final).
  { clear l ops; intros n b l ops0 ops fs fs' final Nd Fn A B C H. inversion Nd as [|? ? N1 N2]; subst. destruct (stopped_app _ _ _ _ H) as [H1|H1].
    - destruct (A H1) as [A1 A2]. split; [intros m Hm; apply A1; intros ->; apply Hm; now left|]. destruct A2 as [A2|(cut & A2 & A3)].
      + exists [], [], (n :: map fst l). split; [reflexivity|]. split; [cbn; lia|]. split; [intros m []|]. split; [intros m []|]. intros m _. apply A2.
      + exists [], [n], (map fst l). split; [reflexivity|]. split; [cbn; lia|]. split; [intros m []|]. split.
        * intros m [<-|[]]. exists cut, b. auto.
        * intros m Hm. apply A1. intros ->. contradiction.
    - destruct (C H1) as [C1 (dn & cu & la & E & L & D1 & D2 & D3)]. split.
      + intros m Hm. cbn [In] in Hm. rewrite C1 by tauto. rewrite (B m). apply put_other. intros ->. tauto.
      + exists (n :: dn), cu, la. split; [cbn [app]; now rewrite E|]. split; [exact L|]. split.
        * intros m [<-|Hm]; [|now apply D1]. rewrite C1 by exact N1. rewrite (B n), put_same. now symmetry.
        * split; [exact D2|]. intros m Hm. rewrite (D3 m Hm), (B m). apply put_other. intros ->. apply N1. rewrite E, !in_app_iff. tauto. }
  induction 1 as [|n b l ops H IH|n b l ops H IH]; intros fs fs' final Nd Hs Hf.
  - inversion Hs; subst. split; [reflexivity|]. exists [], [], []. split; [reflexivity|]. split; [cbn; lia|]. split; [intros m []|]. split; intros m [].
  - cbn [map fst]. refine (St n b l (write_whole n b) ops fs fs' final Nd (Hf n b (or_introl eq_refl)) _ _ _ Hs).
    + apply stopped_whole.
    + apply run_whole.
    + intros H1. inversion Nd; subst. apply IH; [assumption|exact H1|]. intros n' b' Hn. apply Hf. now right.
  - cbn [map fst]. refine (St n (wbro_header ++ b) l (write_wbro n b) ops fs fs' final Nd (Hf n (wbro_header ++ b) (or_introl eq_refl)) _ _ _ Hs).
    + apply stopped_wbro.
    + apply run_wbro.
    + intros H1. inversion Nd; subst. apply IH; [assumption|exact H1|]. intros n' b' Hn. apply Hf. now right.
Qed.

(** What a call of csv-compressor writes, given its --output (or its input): compressing, wavbro and vsri if asked for, then bro unless
    --no-compression; uncompressing, wbro and then csv. *)
Definition csvc_outputs (a : csvc_args) (y : name) : list name :=
  if c_uncompress a then [named y ext_wbro; named y ext_csv]
  else (if c_output_wavbrro a then [named y ext_wavbro] else []) ++ (if c_output_vsri a then [named y ext_vsri] else []) ++ (if c_no_compression a then [] else [named y ext_bro]).
Definition csvc_base (a : csvc_args) : name := match c_output a with Some o => o | None => c_input a end.

Lemma ops_wbro_shape n w : (exists b, ops_wbro n w = (write_wbro n b, Done)) \/ ops_wbro n w = ([], Panicked).
Proof. unfold ops_wbro. destruct (wb_to_bytes w) as [b|]; [left; eauto|now right]. Qed.
Lemma proper_wavbro : proper_ext ext_wavbro. Proof. unfold proper_ext, ext_wavbro. cbn. lia. Qed.

(** The operations write the first so many of the outputs, all of them if the call ends normally (and its input has the BRRO mark). *)
Lemma csvc_shape e p nt a fs y old : proper_stem y -> proper_ext old -> csvc_base a = named y old ->
  exists l rest, whole_files l (fst (ops_csvc e p nt a fs)) /\ csvc_outputs a y = map fst l ++ rest.
Proof.
  intros Hy Ho Hb. unfold csvc_base in Hb. unfold ops_csvc, csvc_outputs. destruct (c_uncompress a).
  - assert (N : exists l rest, whole_files l [] /\ [named y ext_wbro; named y ext_csv] = map fst l ++ rest) by (exists [], [named y ext_wbro; named y ext_csv]; split; [constructor|reflexivity]).
    unfold ops_csvc_uncompress. rewrite Hb. destruct (fs (c_input a)) as [b|]; [|exact N]. destruct (bro_read b) as [| |bytes]; try exact N.
    match goal with |- context [match ?c with Ok _ => _ | Panic _ => _ end] => destruct c as [[out w]|] end; [|exact N].
    destruct (fs (set_extension (c_input a) ext_vsri)) as [ib|]; [|exact N]. destruct (load ib) as [index|]; [|exact N].
    rewrite !set_ext_named by (auto using proper_wbro).
    destruct (ops_wbro_shape (named y ext_wbro) (wb_from_slice out)) as [[b' ->]| ->]; [|exact N].
    destruct (get_samples p (Metric w index)) as [samples|]; cbn [fst].
    + eexists. exists []. split; [apply wf_app; [apply wf_one_wbro|apply wf_one]|reflexivity].
    + eexists. exists [named y ext_csv]. split; [apply wf_one_wbro|reflexivity].
  - unfold ops_csvc_compress. rewrite Hb. destruct (process_csv p nt (fs (c_input a))) as [m|]; [|exists []; eexists; split; [constructor|reflexivity]].
    rewrite !set_ext_named by assumption.
    set (o1 := if c_output_wavbrro a then [named y ext_wavbro] else []). set (o2 := if c_output_vsri a then [named y ext_vsri] else []). set (o3 := if c_no_compression a then [] else [named y ext_bro]).
    assert (W : (exists l1 ops1, (if c_output_wavbrro a then ops_wbro (named y ext_wavbro) (mt_wbro m) else ([], Done)) = (ops1, Done) /\ whole_files l1 ops1 /\ map fst l1 = o1) \/
       (if c_output_wavbrro a then ops_wbro (named y ext_wavbro) (mt_wbro m) else ([], Done)) = ([], Panicked)).
    { unfold o1. destruct (c_output_wavbrro a); [|left; exists [], []; split; [reflexivity|]; split; [constructor|reflexivity]].
      destruct (ops_wbro_shape (named y ext_wavbro) (mt_wbro m)) as [[b' ->]| ->]; [left|now right]. eexists. eexists. split; [reflexivity|]. split; [apply wf_one_wbro|reflexivity]. }
    destruct W as [(l1 & ops1 & -> & W1 & W2)| ->]; [|exists [], (o1 ++ o2 ++ o3); split; [constructor|reflexivity]].
    assert (V : exists l2, whole_files l2 (if c_output_vsri a then write_whole (named y ext_vsri) (flush_bytes (mt_vsri m)) else []) /\ map fst l2 = o2).
    { unfold o2. destruct (c_output_vsri a); [eexists; split; [apply wf_one|reflexivity]|exists []; split; [constructor|reflexivity]]. }
    destruct V as (l2 & V1 & V2). assert (U : whole_files (l1 ++ l2) (ops1 ++ (if c_output_vsri a then write_whole (named y ext_vsri) (flush_bytes (mt_vsri m)) else []))) by now apply wf_app.
    unfold o3. destruct (c_no_compression a); [exists (l1 ++ l2), []; split; [exact U|]; now rewrite map_app, W2, V2, !app_nil_r|].
    destruct (compress_data _ _ _ _ _ _) as [bytes|]; cbn [fst].
    + eexists. exists []. split; [apply wf_app; [exact U|apply wf_one]|]. now rewrite !map_app, W2, V2, app_nil_r, <- app_assoc.
    + exists (l1 ++ l2), [named y ext_bro]. split; [exact U|]. now rewrite map_app, W2, V2, app_assoc.
Qed.

Lemma outputs_nodup a y : NoDup (csvc_outputs a y).
Proof.
  assert (D : forall e1 e2, e1 <> e2 -> named y e1 <> named y e2) by (intros; now apply named_differ).
  unfold csvc_outputs. destruct (c_uncompress a).
  - constructor; [intros [E|[]]; revert E; apply D; discriminate|]. constructor; [intros []|constructor].
  - destruct (c_output_wavbrro a), (c_output_vsri a), (c_no_compression a); cbn [app];
    repeat (constructor; [cbn [In]; intros H; repeat (destruct H as [E|H]; [revert E; apply D; discriminate|]); exact H|]); constructor.
Qed.

(** A call that is stopped anywhere: the outputs are written in order, and nothing else changes. *)
Theorem C65_stopped : forall e p nt a fs fs' final o y old,
  proper_stem y -> proper_ext old -> csvc_base a = named y old ->
  csvc_process_args e p nt a fs = (final, o) -> stopped (fst (ops_csvc e p nt a fs)) fs fs' ->
  in_order (csvc_outputs a y) fs fs' final.
Proof.
  intros e p nt a fs fs' final o y old Hy Ho Hb Hf Hs. destruct (C65_operations e p nt a fs) as [R1 R2]. rewrite Hf in R1, R2. cbn [fst snd] in R1, R2.
  destruct (csvc_shape e p nt a fs y old Hy Ho Hb) as (l & rest & W & E). assert (Nd := outputs_nodup a y). rewrite E in Nd.
  assert (Nl : NoDup (map fst l)) by (clear - Nd; induction (map fst l) as [|m k IH]; [constructor|]; cbn [app] in Nd; inversion Nd as [|? ? N1 N2]; subst; constructor; [intros X; apply N1; apply in_or_app; now left|auto]).
  assert (F : forall n b, In (n, b) l -> final n = Some b) by (intros n b Hn; rewrite <- (R2 n); apply (wf_run l _ W); assumption).
  destruct (wf_stopped l _ W fs fs' final Nl Hs F) as [S1 (dn & cu & la & S2 & S3 & S4 & S5 & S6)]. rewrite E. split.
  - intros m Hm. apply S1. intros X. apply Hm, in_or_app. now left.
  - exists dn, cu, (la ++ rest). split; [rewrite S2, <- !app_assoc; reflexivity|]. split; [exact S3|]. split; [exact S4|]. split; [exact S5|].
    intros m Hm. apply in_app_or in Hm. destruct Hm as [Hm|Hm]; [now apply S6|]. apply S1. intros X.
    clear - Nd X Hm. induction (map fst l) as [|k r IH]; [destruct X|]. cbn [app] in Nd. inversion Nd as [|? ? N1 N2]; subst. destruct X as [->|X]; [apply N1, in_or_app; now right|auto].
Qed.
Print Assumptions C65_stopped.

(** Repeating the call gives what the undisturbed call gives, unless the input is among the outputs. *)
Theorem C65_repeat : forall e p nt a fs fs' final o x oldx y old,
  proper_stem x -> proper_ext oldx -> c_input a = named x oldx -> proper_stem y -> proper_ext old -> csvc_base a = named y old ->
  ~ In (c_input a) (csvc_outputs a y) ->
  csvc_process_args e p nt a fs = (final, o) -> stopped (fst (ops_csvc e p nt a fs)) fs fs' ->
  exists final', csvc_process_args e p nt a fs' = (final', o) /\ same_files final' final.
Proof.
  intros e p nt a fs fs' final o x oldx y old Hx Hox Hi Hy Ho Hb Hn Hf Hs. destruct (C65_stopped e p nt a fs fs' final o y old Hy Ho Hb Hf Hs) as [S1 _].
  assert (In1 : fs' (c_input a) = fs (c_input a)) by now apply S1.
  assert (Same : ops_csvc e p nt a fs' = ops_csvc e p nt a fs).
  { unfold ops_csvc. destruct (c_uncompress a) eqn:Eu.
    - assert (In2 : fs' (set_extension (c_input a) ext_vsri) = fs (set_extension (c_input a) ext_vsri)).
      { apply S1. unfold csvc_outputs. rewrite Eu, Hi, set_ext_named by assumption. cbn [In]. intros [E|[E|[]]]; unfold named in E.
        - assert (Z : last_dot (named y ext_wbro) = last_dot (named x ext_vsri)) by (unfold named; congruence). rewrite !last_dot_named in Z by (apply proper_wbro || apply proper_vsri).
          assert (y = x) by congruence. subst y. apply app_inv_head in E. discriminate E.
        - assert (Z : last_dot (named y ext_csv) = last_dot (named x ext_vsri)) by (unfold named; congruence). rewrite !last_dot_named in Z by (apply proper_csv || apply proper_vsri).
          assert (y = x) by congruence. subst y. apply app_inv_head in E. discriminate E. }
      unfold ops_csvc_uncompress. now rewrite In1, In2.
    - unfold ops_csvc_compress. now rewrite In1. }
  destruct (C65_operations e p nt a fs) as [R1 R2]. destruct (C65_operations e p nt a fs') as [R1' R2']. rewrite Same in R1', R2'. rewrite Hf in R1, R2. cbn [fst snd] in R1, R2.
  destruct (csvc_process_args e p nt a fs') as [final' o'] eqn:E. cbn [fst snd] in R1', R2'. exists final'. split; [congruence|].
  eapply same_trans; [apply same_sym, R2'|]. eapply same_trans; [|exact R2].
  destruct (csvc_shape e p nt a fs y old Hy Ho Hb) as (l & rest & W & Eo).
  apply (run_erases _ (map fst l)); [apply (wf_created l _ W); auto|]. intros m Hm. apply (stopped_other _ _ _ Hs). intros X. apply Hm. now apply (wf_targets l _ W).
Qed.
Print Assumptions C65_repeat.

(** Index and values are not replaced together. x.csv holds a new series, x.bro an older one of at most as many values; compressing with
    the index, stopped between the two files, leaves the new times with the old values: uncompressing ends normally, attributes the old
    values to the new times, and overwrites the new values in x.csv. *)
Theorem C65_index_ahead_refuted : forall e p nt a fs x samples t0 d bytes out,
  env_ok e -> proper_stem x -> csvc_accepted a -> read_samples_from_csv_file nt (fs (named x ext_csv)) = Some samples -> regular_day_samples t0 d samples ->
  fs (named x ext_bro) = Some bytes -> bro_read bytes = RBro bytes -> decompress_data e p bytes = Ok out -> (length out <= length samples)%nat ->
  exists fs' fs2, stopped (fst (ops_csvc e p nt (compress_call a x true) fs)) fs fs' /\ fs' (named x ext_csv) = fs (named x ext_csv) /\
    csvc_process_args e p nt (uncompress_call a x) fs' = (fs2, Done) /\ fs2 (named x ext_csv) = Some (write_samples_text nt (at_period t0 d out)).
Proof.
  intros e p nt a fs x samples t0 d bytes out He Hx (Ha1 & Ha2) Hr Hreg Hb Rd Do Hl. assert (Hreg' := Hreg). destruct Hreg' as (Ha & Hd & Hbd & Hne & Hdat & Hsec).
  assert (Hp : day_points (seconds samples)) by (rewrite Hsec; apply regular_day; assumption).
  assert (L86 : Z.of_nat (length samples) <= 86400) by (rewrite <- (map_length sample_second samples); now apply day_length).
  assert (Cl := clean_data_spec (values samples)). assert (Lc : (length (clean_data (values samples)) <= length samples)%nat).
  { rewrite <- (map_length sm_val samples). fold (values samples). clear - Cl. induction Cl; cbn [length]; lia. }
  assert (Hfit : fits_counter p (values samples)) by (left; rewrite <- clean_is; lia).
  destruct (C13_pipeline_sample_count e p (values samples) (c_compressor a) (c_error a) (c_level a) He ltac:(lia) Ha2 Hfit) as (nbytes & nout & Cb & _).
  destruct (C39_increasing p samples Hdat Hp) as (w & v & Em & V & I & _).
  assert (Ops : fst (ops_csvc e p nt (compress_call a x true) fs) = write_whole (named x ext_vsri) (flush_bytes v) ++ write_whole (named x ext_bro) nbytes).
  { unfold ops_csvc, compress_call. cbn [c_uncompress]. unfold ops_csvc_compress, process_csv. cbn [c_input c_output c_output_wavbrro c_output_vsri c_no_compression c_compressor c_error c_level].
    rewrite Hr, Em. cbn [bind mt_wbro mt_vsri]. rewrite V, Cb, !set_ext_named by auto using proper_csv. reflexivity. }
  rewrite Ops. set (fs' := put (put fs (named x ext_vsri) []) (named x ext_vsri) (flush_bytes v)).
  destruct (put_wbro_reads fs' (named x ext_wbro) out ltac:(lia)) as (file & P & _).
  exists fs', (put (put fs' (named x ext_wbro) file) (named x ext_csv) (write_samples_text nt (at_period t0 d out))). split; [|split; [|split]].
  - cbn [write_whole app]. do 2 apply stopped_later. cbn [do_op]. rewrite content_put, write_at_start. apply stopped_here.
  - unfold fs'. rewrite !put_other by (apply named_differ; discriminate). reflexivity.
  - unfold csvc_process_args, uncompress_call. cbn [c_uncompress]. unfold csvc_uncompress. cbn [c_input c_output].
    unfold fs' at 1. rewrite !put_other by (apply named_differ; discriminate). rewrite Hb, Rd, Do. cbn [bind].
    destruct (C36_accumulates p out ltac:(lia)) as (w' & Ew & Sw & _). rewrite <- fold_add_all in Ew. rewrite Ew. cbn [bind].
    rewrite !set_ext_named by auto using proper_bro, proper_wbro. unfold fs' at 1. rewrite put_same.
    rewrite (C34_day_index_round_trip p _ v Hp I), P. unfold get_samples. cbn [mt_vsri mt_wbro]. rewrite Sw. rewrite Hsec in I.
    rewrite (pair_at_period p v t0 d (length samples) out (regular_times p t0 d (length samples) v Ha Hd Hbd ltac:(destruct samples; [congruence|cbn; lia]) I) L86 0%nat ltac:(lia)).
    rewrite Z.mul_0_r, Z.add_0_r. reflexivity.
  - apply put_same.
Qed.
Print Assumptions C65_index_ahead_refuted.

(** ** Concrete directories *)
(** Compressing x.wbro of three samples, stopped when five bytes of x.bro are written: the hypotheses of C64_torn_refused hold and its
    third case is met. *)
Definition five_bytes : files := do_op (do_op one_file (Create (named w_x ext_bro))) (WriteAt (named w_x ext_bro) 0 [66; 82; 82; 79; 1]).
Example C64_example :
  input_samples no_numbers rle_args (one_file (named w_x ext_wbro)) three_samples /\ accepted_args rle_args /\ fits_counter Dev three_samples /\
  stopped (fst (ops_single_file id_env Dev no_numbers (compressing rle_args) one_file (named w_x ext_wbro))) one_file five_bytes /\
  snd (process_single_file id_env Dev no_numbers (compressing rle_args) one_file (named w_x ext_wbro)) = Done /\
  five_bytes (named w_x ext_bro) = Some [66; 82; 82; 79; 1] /\
  snd (process_single_file id_env Dev no_numbers (uncompressing rle_args) five_bytes (named w_x ext_bro)) = Failed IoError.
Proof.
  destruct C49_example as (data & v & _ & _ & A & _ & _ & R & _ & _ & _ & F & _ & ->).
  assert (I : input_samples no_numbers rle_args (one_file (named w_x ext_wbro)) three_samples) by (left; split; [reflexivity|exact R]).
  split; [exact I|]. split; [exact A|]. split; [exact F|].
  assert (C : exists b, compress_data id_env Dev three_samples RLE 0 0 = Ok b /\ firstn 5 b = [66; 82; 82; 79; 1]).
  { destruct (compress_data id_env Dev three_samples RLE 0 0) as [b|] eqn:E; [|vm_compute in E; discriminate E]. exists b. split; [reflexivity|].
    assert (X : (do b <- compress_data id_env Dev three_samples RLE 0 0; Ok (firstn 5 b)) = Ok [66; 82; 82; 79; 1]) by (vm_compute; reflexivity). rewrite E in X. now apply ok_inj in X. }
  destruct C as (b & Cb & C5). split; [|split; [|split; vm_compute; reflexivity]].
  - rewrite (ops_compressing _ _ _ _ _ _ three_samples I). unfold ops_compress_to, compressing. cbn [a_compressor a_error a_level rle_args]. rewrite Cb. cbn [fst].
    rewrite set_ext_named; [|plain_stem|exact proper_wbro]. unfold five_bytes. rewrite <- C5. apply stopped_later, stopped_within.
  - rewrite (compress_step id_env Dev no_numbers rle_args one_file w_x ext_wbro three_samples b); [reflexivity|plain_stem|apply proper_wbro|reflexivity|exact R|exact Cb].
Qed.

Lemma same_bits (r : res (list f64)) l : (do x <- r; Ok (map to_bits x)) = Ok (map to_bits l) -> r = Ok l.
Proof.
  destruct r as [x|]; [|discriminate]. cbn [bind]. intros H. f_equal. apply ok_inj in H. revert l H. induction x as [|a x IH]; intros [|b l] H; try discriminate H; [reflexivity|].
  cbn [map] in H. f_equal; [apply to_bits_inj; congruence|apply IH; congruence].
Qed.
(** x.bro of the series 0, 0, 7 meets the hypotheses of C64_torn_wbro_loses_refuted. *)
Definition zeros_first : list f64 := [f0; f0; int_as_f64 7].
Definition zeros_bro : list Z := match compress_data id_env Dev zeros_first Noop 0 0 with Ok b => b | Panic _ => [] end.
Definition zeros_file : files := fun n => if text_eqb n (named w_x ext_bro) then Some zeros_bro else None.
Example C64_zeros : zeros_file (named w_x ext_bro) = Some zeros_bro /\ bro_read zeros_bro = RBro zeros_bro /\ decompress_data id_env Dev zeros_bro = Ok (f0 :: f0 :: [int_as_f64 7]).
Proof.
  split; [unfold zeros_file; now rewrite eqb_refl|]. split; [vm_compute; reflexivity|]. apply same_bits. vm_compute. reflexivity.
Qed.

(** x.csv with two samples, x.bro of an older series of one value: the hypotheses of C65_index_ahead_refuted, and those of C65_stopped. *)
Definition old_bro : list Z := match compress_data id_env Dev [int_as_f64 7] Noop 0 0 with Ok b => b | Panic _ => [] end.
Definition updated : files := put csv_file (named w_x ext_bro) old_bro.
Example C65_example : env_ok id_env /\ proper_stem w_x /\ csvc_accepted csvc_defaults /\ read_samples_from_csv_file toy_numbers (updated (named w_x ext_csv)) = Some two_samples /\
  regular_day_samples 5 60 two_samples /\ updated (named w_x ext_bro) = Some old_bro /\ bro_read old_bro = RBro old_bro /\
  decompress_data id_env Dev old_bro = Ok [int_as_f64 7] /\ (length [int_as_f64 7] <= length two_samples)%nat /\
  csvc_outputs (compress_call csvc_defaults w_x true) w_x = [named w_x ext_vsri; named w_x ext_bro] /\
  ~ In (c_input (compress_call csvc_defaults w_x true)) (csvc_outputs (compress_call csvc_defaults w_x true) w_x).
Proof.
  destruct C50_example as (s & H1 & H2 & H3 & H4 & H5 & _). split; [exact H1|]. split; [exact H2|]. split; [exact H3|]. split.
  { unfold updated. rewrite put_other by (apply named_differ; discriminate). exact H4. }
  split; [exact H5|]. split; [apply put_same|]. split; [vm_compute; reflexivity|]. split; [apply same_bits; vm_compute; reflexivity|]. split; [cbn [length two_samples]; lia|]. split; [reflexivity|].
  cbn. intros [E|[E|[]]]; discriminate E.
Qed.
