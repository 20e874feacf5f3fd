(** C81: from the words of the command line to the files and the exit status. *)
From Coq Require Import List ZArith Bool Lia ZifyBool String Reals.
From Verif Require Import Base Model_Float Model_Bincode BincodeFacts Spec Spec_Csv Spec_CsvTable Model_Utils Model_Fft Model_Stream FftFacts Props_Fft PlanFacts PolyLoopFacts Spec_Metric PipelineFacts Props_Poly Props_Plan Props_Pipeline
  Model_Vsri Model_Wavbrro Props_Wavbrro Model_Csv CsvFacts Props_Csv Model_Cli Props_Tools Props_Cli Props_Csvc Props_Crash Props_Interop Props_Accuracy Model_Args Spec_Args Props_Args Model_Command.
Import ListNotations.
Open Scope Z_scope.

(** * Vocabulary *)
(** The samples a file holds for these options. *)
Definition file_samples (nt : number_text) (a : atsc_args) (content : option (list Z)) (data : list f64) : Prop :=
  if a_csv a then csv_values nt a content data else from_file content = Ok (WbSamples data).
Definition unchanged (fs fs' : files) : Prop := forall m, fs' m = fs m.

Section Commands.
Variable e : env.
Variable p : profile.
Variable nt : number_text.

(** A refused command line changes nothing. *)
Theorem C81_refused ws fs sp : (atsc_parse ws = None -> atsc_command e p nt ws fs sp = (fs, None)) /\ (csvc_parse ws = None -> csvc_command e p nt ws fs = (fs, None)).
Proof. unfold atsc_command, csvc_command. split; intros ->; reflexivity. Qed.

(** Compressing one file: status 0 exactly if the file holds samples for these options and they can be compressed; then x.bro holds the result and
    nothing else changes. Any other status: nothing changes. *)
Theorem C81_compress_status ws fs sp x old a fs' st :
  atsc_parse ws = Some (named x old, a) -> a_uncompress a = false -> proper_stem x -> proper_ext old -> fs (named x old) <> None ->
  atsc_command e p nt ws fs sp = (fs', st) ->
  (st = Some 0 /\ exists data bytes, file_samples nt a (fs (named x old)) data /\ compress_data e p data (a_compressor a) (a_error a) (a_level a) = Ok bytes /\
     fs' (named x ext_bro) = Some bytes /\ only_changes (named x ext_bro) fs fs') \/
  ((st = Some 1 \/ st = Some 101) /\ unchanged fs fs' /\
     forall data, file_samples nt a (fs (named x old)) data -> exists r, compress_data e p data (a_compressor a) (a_error a) (a_level a) = Panic r).
Proof.
  intros Hp Hu Hx Ho Hf H. unfold atsc_command in H. rewrite Hp in H. unfold atsc_process_args in H. destruct (fs (named x old)) as [b|] eqn:Ef; [clear Hf|congruence].
  unfold process_single_file, compress_to in H. rewrite Hu, set_ext_named in H by assumption.
  assert (C : forall data, (let (fs'0, o) := match compress_data e p data (a_compressor a) (a_error a) (a_level a) with Ok bytes => (put fs (named x ext_bro) bytes, Done) | Panic _ => (fs, Panicked) end in (fs'0, Some (status_of o))) = (fs', st) ->
      (forall d, file_samples nt a (Some b) d <-> d = data) ->
      (st = Some 0 /\ exists data bytes, file_samples nt a (Some b) data /\ compress_data e p data (a_compressor a) (a_error a) (a_level a) = Ok bytes /\
         fs' (named x ext_bro) = Some bytes /\ only_changes (named x ext_bro) fs fs') \/
      ((st = Some 1 \/ st = Some 101) /\ unchanged fs fs' /\ forall data, file_samples nt a (Some b) data -> exists r, compress_data e p data (a_compressor a) (a_error a) (a_level a) = Panic r)).
  { intros data E U. destruct (compress_data e p data (a_compressor a) (a_error a) (a_level a)) as [bytes|r] eqn:Ec; injection E as <- <-.
    - left. split; [reflexivity|]. exists data, bytes. split; [now apply U|]. split; [exact Ec|]. split; [apply put_same|]. intros m Hm. now apply put_other.
    - right. split; [now right|]. split; [intros m; reflexivity|]. intros d Hd. apply U in Hd. subst d. exists r. exact Ec. }
  assert (Q : forall o, (fs, Some (status_of o)) = (fs', st) -> o <> Done -> (forall d, ~ file_samples nt a (Some b) d) ->
      (st = Some 0 /\ exists data bytes, file_samples nt a (Some b) data /\ compress_data e p data (a_compressor a) (a_error a) (a_level a) = Ok bytes /\
         fs' (named x ext_bro) = Some bytes /\ only_changes (named x ext_bro) fs fs') \/
      ((st = Some 1 \/ st = Some 101) /\ unchanged fs fs' /\ forall data, file_samples nt a (Some b) data -> exists r, compress_data e p data (a_compressor a) (a_error a) (a_level a) = Panic r)).
  { intros o E N U. right. injection E as <- <-. split; [destruct o; [congruence|now left|now right]|]. split; [intros m; reflexivity|]. intros d Hd. destruct (U d Hd). }
  unfold file_samples in *. destruct (a_csv a) eqn:Ecsv.
  - unfold csv_values in *. destruct (a_no_header a) eqn:En.
    + rewrite Ef in H. destruct (read_samples nt (Some b)) as [[l|er]|r] eqn:Er.
      * apply (C (map sm_val l)); [exact H|]. intros d. split; [|intros ->; exists l; split; [reflexivity|left; auto]]. intros (s & -> & [[_ X]|[X _]]); [|discriminate X]. congruence.
      * apply (Q (Failed (CsvError er))); [exact H|discriminate|]. intros d (s & -> & [[_ X]|[X _]]); congruence.
      * apply (Q Panicked); [exact H|discriminate|]. intros d (s & -> & [[_ X]|[X _]]); congruence.
    + destruct (split_on ch_comma (a_fields a)) as [|h0 [|h1 hs]] eqn:Es.
      * apply (Q Panicked); [exact H|discriminate|]. intros d (s & -> & [[X _]|[_ (h & h' & m & X & _)]]); congruence.
      * apply (Q Panicked); [exact H|discriminate|]. intros d (s & -> & [[X _]|[_ (h & h' & m & X & _)]]); congruence.
      * rewrite Ef in H. destruct (read_samples_with_headers nt (Some b) h0 h1) as [[l|er]|r] eqn:Er.
        -- apply (C (map sm_val l)); [exact H|]. intros d. split; [|intros ->; exists l; split; [reflexivity|right; split; [reflexivity|exists h0, h1, hs; auto]]]. intros (s & -> & [[X _]|[_ (h & h' & m & X & Y)]]); [congruence|].
           assert (h = h0 /\ h' = h1) as [-> ->] by (split; congruence). congruence.
        -- apply (Q (Failed (CsvError er))); [exact H|discriminate|]. intros d (s & -> & [[X _]|[_ (h & h' & m & X & Y)]]); [congruence|]. assert (h = h0 /\ h' = h1) as [-> ->] by (split; congruence). congruence.
        -- apply (Q Panicked); [exact H|discriminate|]. intros d (s & -> & [[X _]|[_ (h & h' & m & X & Y)]]); [congruence|]. assert (h = h0 /\ h' = h1) as [-> ->] by (split; congruence). congruence.
  - rewrite Ef in H. destruct (from_file (Some b)) as [[data| |]|r] eqn:Er.
    + apply (C data); [exact H|]. intros d. split; congruence.
    + apply (Q (Failed WbroFormatError)); [exact H|discriminate|]. intros d X. congruence.
    + apply (Q (Failed IoError)); [exact H|discriminate|]. intros d X. congruence.
    + apply (Q Panicked); [exact H|discriminate|]. intros d X. congruence.
Qed.

(** Compression of what was read does not fail within the limits of the frame counter (always, for a release build): status 0 exactly if the file
    holds samples. *)
Theorem C81_compress_succeeds ws fs sp x old a data :
  env_ok e -> atsc_parse ws = Some (named x old, a) -> a_uncompress a = false -> proper_stem x -> proper_ext old ->
  file_samples nt a (fs (named x old)) data -> fs (named x old) <> None -> fits_counter p data ->
  exists fs', atsc_command e p nt ws fs sp = (fs', Some 0).
Proof.
  intros He Hp Hu Hx Ho Hd Hf Hfit. destruct (atsc_command e p nt ws fs sp) as [fs' st] eqn:E. destruct (C81_compress_status ws fs sp x old a fs' st Hp Hu Hx Ho Hf E) as [[-> _]|(_ & _ & N)]; [now exists fs'|].
  destruct (proj1 (C80_limits ws) _ _ Hp) as [L1 L2]. destruct (N data Hd) as [r Hr].
  destruct (C13_pipeline_sample_count e p data (a_compressor a) (a_error a) (a_level a) He ltac:(lia) L2 Hfit) as (bytes & out & Cb & _). congruence.
Qed.

(** Uncompressing one file: status 0 and x.wbro holds the decompressed samples; or status 0 and nothing happened, because the file does not start like
    a compressed one; or another status and nothing changed. *)
Theorem C81_uncompress_status ws fs sp x old a b fs' st :
  atsc_parse ws = Some (named x old, a) -> a_uncompress a = true -> proper_stem x -> proper_ext old -> fs (named x old) = Some b ->
  atsc_command e p nt ws fs sp = (fs', st) ->
  (st = Some 0 /\ exists out, decompress_data e p b = Ok out /\ only_changes (named x ext_wbro) fs fs' /\ fs' (named x ext_wbro) <> None /\
     (Z.of_nat (length out) <= 2 ^ 28 -> from_file (fs' (named x ext_wbro)) = Ok (WbSamples out))) \/
  (st = Some 0 /\ bro_read b = RNotBro /\ unchanged fs fs') \/
  ((st = Some 1 \/ st = Some 101) /\ unchanged fs fs').
Proof.
  intros Hp Hu Hx Ho Ef H. unfold atsc_command in H. rewrite Hp in H. unfold atsc_process_args in H. rewrite Ef in H. unfold process_single_file in H. rewrite Hu, Ef in H.
  destruct (bro_read b) as [| |bytes] eqn:Er; [injection H as <- <-; right; right; split; [now left|intros m; reflexivity]|injection H as <- <-; right; left; split; [reflexivity|]; split; [reflexivity|intros m; reflexivity]|].
  assert (bytes = b) as -> by (unfold bro_read in Er; repeat match type of Er with context [if ?c then _ else _] => destruct c end; congruence).
  destruct (decompress_data e p b) as [out|r] eqn:Ed; [|injection H as <- <-; right; right; split; [now right|intros m; reflexivity]].
  rewrite set_ext_named in H by assumption. unfold put_wbro in H. destruct (do c <- wb_to_bytes (wb_from_slice out); wbro_file c) as [f|r] eqn:Ew; [|injection H as <- <-; right; right; split; [now right|intros m; reflexivity]].
  injection H as <- <-. left. split; [reflexivity|]. exists out. split; [reflexivity|]. split; [intros m Hm; now apply put_other|]. split; [rewrite put_same; discriminate|].
  intros L. destruct (put_wbro_reads fs (named x ext_wbro) out L) as (file & E & R). unfold put_wbro in E. rewrite Ew in E. assert (Ep : put fs (named x ext_wbro) f (named x ext_wbro) = put fs (named x ext_wbro) file (named x ext_wbro)) by congruence. rewrite !put_same in Ep. rewrite put_same, Ep. exact R.
Qed.

(** [q] is the path of the entry [n] of the directory [dir]: one slash between them. *)
Definition entry_path (dir n q : name) : Prop := exists d, (dir = d \/ dir = d ++ [47]) /\ q = d ++ [47] ++ n /\ (dir = d -> forall d', d <> d' ++ [47]).
(** A path that is not there, or neither a file nor a directory: status 1, nothing changes. A directory: the run over its files (C73). *)
Lemma join_path dir n q : dir <> [] -> entry_path dir n q -> join dir n = q.
Proof.
  intros Hd (d & [->| ->] & -> & Hs); unfold join.
  - destruct (rev d) as [|c r] eqn:E; [exfalso; apply Hd; rewrite <- (rev_involutive d), E; reflexivity|]. unfold ch_slash. destruct (Z.eqb_spec c 47) as [->|_]; [|reflexivity].
    exfalso. apply (Hs eq_refl (rev r)). rewrite <- (rev_involutive d), E. reflexivity.
  - rewrite rev_app_distr. cbn [rev app]. unfold ch_slash. cbn. now rewrite <- app_assoc.
Qed.
Lemma atsc_parse_nonempty ws a : atsc_parse ws <> Some ([], a).
Proof.
  unfold atsc_parse. destruct (parse_words _ _) as [os|]; [|discriminate]. destruct (_ || _); [discriminate|].
  destruct (inputs os) as [|[|c t] [|]]; try discriminate; destruct (with_default _ _ _); try discriminate; destruct (with_default _ _ _); try discriminate; destruct (with_default _ _ _); discriminate.
Qed.
Theorem C81_other_inputs ws fs sp input a : atsc_parse ws = Some (input, a) -> fs input = None ->
  match sp input with
  | Some (Listing entries) => forall paths fs' o, Forall2 (entry_path input) entries paths -> process_directory e p nt a fs paths = (fs', o) -> atsc_command e p nt ws fs sp = (fs', Some (match o with Done => 0 | Failed _ => 1 | Panicked => 101 end))
  | _ => atsc_command e p nt ws fs sp = (fs, Some 1)
  end.
Proof.
  intros Hp Hf. unfold atsc_command, atsc_process_args. rewrite Hp, Hf. destruct (sp input) as [[entries|]|]; [|reflexivity..]. intros paths fs' o He Hr.
  assert (E : map (join input) entries = paths).
  { assert (Hi : input <> []) by (intros ->; now apply (atsc_parse_nonempty ws a)). clear - He Hi. induction He as [|n q ns qs Hn He IH]; [reflexivity|]. cbn [map]. rewrite IH. f_equal. now apply join_path. }
  rewrite E, Hr. reflexivity.
Qed.

(** csv-compressor: 0 or 101, and 101 when there is no such file. *)
Theorem C81_csvc_status ws fs c fs' st : csvc_parse ws = Some c -> csvc_command e p nt ws fs = (fs', st) ->
  (st = Some 0 /\ csvc_process_args e p nt c fs = (fs', Done)) \/ st = Some 101.
Proof.
  intros Hp H. unfold csvc_command in H. rewrite Hp in H. destruct (fs (c_input c)) as [b|] eqn:Ef; [|injection H as <- <-; now right].
  destruct (csvc_process_args e p nt c fs) as [fs1 o] eqn:E. injection H as <- <-.
  assert (N : match o with Failed _ => False | _ => True end).
  { unfold csvc_process_args, csvc_uncompress, csvc_compress, put_wbro in E. rewrite Ef in E. destruct (c_uncompress c);
      repeat (cbv beta iota zeta in E; match type of E with
        | (_, _) = _ => assert (Eo := f_equal snd E); cbn [snd] in Eo; subst o; exact I
        | context [if ?b then _ else _] => destruct b
        | (let (_, _) := match ?m with _ => _ end in _) = _ => destruct m
        | (match ?m with _ => _ end) = _ => destruct m
        end). }
  destruct o; [left; auto|destruct N|now right].
Qed.
End Commands.
Print Assumptions C81_refused.
Print Assumptions C81_compress_succeeds.
Print Assumptions C81_compress_status.
Print Assumptions C81_uncompress_status.
Print Assumptions C81_other_inputs.
Print Assumptions C81_csvc_status.

(** ** csv-compressor in full *)
Lemma pair_samples_ok p v vals : forall i rows, Z.of_nat (i + length vals) <= 2 ^ 31 -> pair_samples p v i vals = Ok rows ->
  values rows = vals /\ forall k s, nth_error rows k = Some s -> get_time p v (Z.of_nat (i + k)) = Ok (Some (sm_ts s)).
Proof.
  induction vals as [|x vals IH]; intros i rows Hn H; cbn [pair_samples length] in *; [apply ok_inj in H; subst rows; split; [reflexivity|]; intros [|k] s E; discriminate E|].
  assert (W : wrap_s 32 (Z.of_nat i) = Z.of_nat i) by (unfold wrap_s; change (32 - 1) with 31; rewrite Z.mod_small by lia; lia). rewrite W in H.
  destruct (get_time p v (Z.of_nat i)) as [[t|]|] eqn:Et; cbn [bind] in H; try discriminate H. destruct (pair_samples p v (S i) vals) as [rest|] eqn:Er; cbn [bind] in H; [|discriminate H]. apply ok_inj in H. subst rows.
  destruct (IH (S i) rest ltac:(lia) Er) as [V T]. split; [cbn [values map]; f_equal; exact V|]. intros [|k] s Es; cbn [nth_error] in Es.
  - assert (s = Sample t x) as -> by congruence. cbn [sm_ts]. rewrite Nat.add_0_r. exact Et.
  - replace (i + S k)%nat with (S i + k)%nat by lia. now apply T.
Qed.
Lemma fold_add_all p data : forall w, fold_res (wb_add p) data w = Props_Wavbrro.add_all p w data.
Proof. induction data as [|x r IH]; intros w; cbn [fold_res Props_Wavbrro.add_all]; [reflexivity|]. destruct (wb_add p w x); cbn [bind]; [apply IH|reflexivity]. Qed.
Lemma base_ext c y old ext : proper_stem y -> proper_ext old -> csvc_base c = named y old -> set_extension (match c_output c with Some o => o | None => c_input c end) ext = named y ext.
Proof. unfold csvc_base. intros Hy Ho ->. now apply set_ext_named. Qed.

(** Compressing: status 0 and all outputs asked for hold what the CSV file says; or status 101, y.bro is as before. No other file changes. *)
Theorem C81_csvc_compress_status e p nt ws fs c y old fs' st :
  csvc_parse ws = Some c -> c_uncompress c = false -> proper_stem y -> proper_ext old -> csvc_base c = named y old ->
  csvc_command e p nt ws fs = (fs', st) ->
  (forall m, ~ In m (csvc_outputs c y) -> fs' m = fs m) /\
  (st = Some 0 /\ (exists samples m, read_samples_from_csv_file nt (fs (c_input c)) = Some samples /\ from_samples p samples = Ok (MetricOk m) /\
     (c_output_vsri c = true -> fs' (named y ext_vsri) = Some (flush_bytes (mt_vsri m))) /\
     (Z.of_nat (length samples) <= 2 ^ 28 ->
       (c_output_wavbrro c = true -> from_file (fs' (named y ext_wavbro)) = Ok (WbSamples (values samples))) /\
       (c_no_compression c = false -> exists bytes, compress_data e p (values samples) (c_compressor c) (c_error c) (c_level c) = Ok bytes /\ fs' (named y ext_bro) = Some bytes))) \/
   st = Some 101 /\ fs' (named y ext_bro) = fs (named y ext_bro)).
Proof.
  intros Hp Hu Hy Ho Hb H. unfold csvc_command in H. rewrite Hp in H. destruct (fs (c_input c)) as [b|] eqn:Ef; [|injection H as <- <-; auto].
  unfold csvc_process_args in H. rewrite Hu in H. unfold csvc_compress in H. rewrite !(base_ext c y old _ Hy Ho Hb), Ef in H. unfold csvc_outputs. rewrite Hu.
  unfold process_csv in H. destruct (read_samples_from_csv_file nt (Some b)) as [samples|] eqn:Er; cbn [bind] in H; [|injection H as <- <-; auto].
  destruct (from_samples p samples) as [[m|]|] eqn:Em; cbn [bind] in H; try (injection H as <- <-; now auto).
  assert (D1 := named_differ y ext_wavbro ext_bro ltac:(discriminate)). assert (D2 := named_differ y ext_wavbro ext_vsri ltac:(discriminate)). assert (D3 := named_differ y ext_vsri ext_bro ltac:(discriminate)).
  set (first := if c_output_wavbrro c then put_wbro fs (named y ext_wavbro) (mt_wbro m) else (fs, Done)) in *.
  assert (F : (exists fs1, first = (fs1, Done) /\ (forall n, (c_output_wavbrro c = true -> n <> named y ext_wavbro) -> fs1 n = fs n) /\
                (c_output_wavbrro c = true -> Z.of_nat (length samples) <= 2 ^ 28 -> from_file (fs1 (named y ext_wavbro)) = Ok (WbSamples (values samples)))) \/ first = (fs, Panicked)).
  { unfold first. destruct (c_output_wavbrro c) eqn:Ew; [|left; exists fs; repeat split; discriminate]. unfold put_wbro. destruct (do c0 <- wb_to_bytes (mt_wbro m); wbro_file c0) as [f|] eqn:Ec; [|now right].
    left. exists (put fs (named y ext_wavbro) f). split; [reflexivity|]. split; [intros n Hn; apply put_other; auto|]. intros _ Hl. rewrite put_same.
    destruct (metric_wbro p samples m ltac:(lia) Em) as [W V]. rewrite W in Ec. destruct (put_wbro_reads fs (named y ext_wavbro) (values samples)) as (file & P & R); [unfold values; rewrite map_length; exact Hl|].
    unfold put_wbro in P. rewrite Ec in P. assert (Ep : put fs (named y ext_wavbro) f (named y ext_wavbro) = put fs (named y ext_wavbro) file (named y ext_wavbro)) by congruence. rewrite !put_same in Ep. rewrite Ep. exact R. }
  destruct F as [(fs1 & -> & F1 & F2)|F]; [|rewrite F in H; injection H as <- <-; auto].
  set (fs2 := if c_output_vsri c then put fs1 (named y ext_vsri) (flush_bytes (mt_vsri m)) else fs1) in *.
  assert (G1 : forall n, (c_output_wavbrro c = true -> n <> named y ext_wavbro) -> (c_output_vsri c = true -> n <> named y ext_vsri) -> fs2 n = fs n).
  { intros n N1 N2. unfold fs2. destruct (c_output_vsri c); [rewrite put_other by auto|]; auto. }
  assert (G2 : c_output_wavbrro c = true -> Z.of_nat (length samples) <= 2 ^ 28 -> from_file (fs2 (named y ext_wavbro)) = Ok (WbSamples (values samples))).
  { intros W L. unfold fs2. destruct (c_output_vsri c); [rewrite put_other by auto|]; auto. }
  assert (G3 : c_output_vsri c = true -> fs2 (named y ext_vsri) = Some (flush_bytes (mt_vsri m))) by (unfold fs2; intros ->; apply put_same).
  assert (Gb : fs2 (named y ext_bro) = fs (named y ext_bro)) by (apply G1; intros _; congruence).
  destruct (c_no_compression c) eqn:Ek.
  - injection H as <- <-. split.
    + intros n Hn. apply G1; intros E ->; apply Hn; rewrite E; [now left|]. destruct (c_output_wavbrro c); [right|]; now left.
    + left. split; [reflexivity|]. exists samples, m. split; [reflexivity|]. split; [exact Em|]. split; [exact G3|]. intros L. split; [intros W; now apply G2|discriminate].
  - destruct (compress_data e p (wb_samples (mt_wbro m)) (c_compressor c) (c_error c) (c_level c)) as [bytes|] eqn:Ec; injection H as <- <-.
    + split.
      * intros n Hn. assert (Nb : n <> named y ext_bro) by (intros ->; apply Hn; apply in_or_app; right; apply in_or_app; right; now left). rewrite put_other by exact Nb.
        apply G1; intros E ->; apply Hn; rewrite E; [now left|]. destruct (c_output_wavbrro c); [right|]; now left.
      * left. split; [reflexivity|]. exists samples, m. split; [reflexivity|]. split; [exact Em|]. split; [intros E; rewrite put_other by exact D3; auto|]. intros L. split; [intros W; rewrite put_other by exact D1; now apply G2|].
        intros _. exists bytes. destruct (metric_wbro p samples m ltac:(lia) Em) as [_ V]. rewrite V in Ec. split; [exact Ec|apply put_same].
    + split; [|right; split; [reflexivity|exact Gb]]. intros n Hn. apply G1; intros E ->; apply Hn; rewrite E; [now left|]. destruct (c_output_wavbrro c); [right|]; now left.
Qed.
Print Assumptions C81_csvc_compress_status.

(** Uncompressing: status 0 and y.wbro, y.csv hold the decompressed samples, the latter with the times of x.vsri; or status 0 without doing anything for a
    file that does not start like a compressed one; or status 101 and y.csv is as before. No other file changes. *)
Theorem C81_csvc_uncompress_status e p nt ws fs c x oldx y old b fs' st :
  csvc_parse ws = Some c -> c_uncompress c = true -> proper_stem x -> proper_ext oldx -> c_input c = named x oldx -> proper_stem y -> proper_ext old -> csvc_base c = named y old ->
  fs (c_input c) = Some b -> csvc_command e p nt ws fs = (fs', st) ->
  (forall m, m <> named y ext_wbro -> m <> named y ext_csv -> fs' m = fs m) /\
  ((st = Some 0 /\ exists out index ib rows, decompress_data e p b = Ok out /\ fs (named x ext_vsri) = Some ib /\ load ib = Ok index /\
      fs' (named y ext_csv) = Some (write_samples_text nt rows) /\
      (Z.of_nat (length out) <= 2 ^ 28 -> from_file (fs' (named y ext_wbro)) = Ok (WbSamples out) /\ values rows = out /\
         forall k s, nth_error rows k = Some s -> get_time p index (Z.of_nat k) = Ok (Some (sm_ts s)))) \/
   (st = Some 0 /\ bro_read b = RNotBro /\ unchanged fs fs') \/
   (st = Some 101 /\ fs' (named y ext_csv) = fs (named y ext_csv))).
Proof.
  intros Hp Hu Hx Hox Hi Hy Ho Hb Ef H. unfold csvc_command in H. rewrite Hp, Ef in H. unfold csvc_process_args in H. rewrite Hu in H. unfold csvc_uncompress in H. rewrite !(base_ext c y old _ Hy Ho Hb), Ef in H.
  rewrite Hi in H. rewrite !set_ext_named in H by auto using proper_wbro.
  destruct (bro_read b) as [| |bytes] eqn:Er; [injection H as <- <-; split; auto|injection H as <- <-; split; [auto|right; left; split; [reflexivity|split; [reflexivity|intros m; reflexivity]]]|].
  assert (bytes = b) as -> by (unfold bro_read in Er; repeat match type of Er with context [if ?q then _ else _] => destruct q end; congruence).
  destruct (decompress_data e p b) as [out|] eqn:Ed; cbn [bind] in H; [|injection H as <- <-; auto]. destruct (fold_res (wb_add p) out wb_new) as [w|] eqn:Ew; cbn [bind] in H; [|injection H as <- <-; auto].
  destruct (fs (named x ext_vsri)) as [ib|] eqn:Ei; [|injection H as <- <-; auto]. destruct (load ib) as [index|] eqn:El; [|injection H as <- <-; auto].
  unfold put_wbro in H. destruct (do c0 <- wb_to_bytes (wb_from_slice out); wbro_file c0) as [f|] eqn:Ec; [|injection H as <- <-; auto].
  assert (D := named_differ y ext_wbro ext_csv ltac:(discriminate)).
  destruct (get_samples p (Metric w index)) as [rows|] eqn:Eg; injection H as <- <-.
  - split; [intros m M1 M2; now rewrite !put_other by assumption|]. left. split; [reflexivity|]. exists out, index, ib, rows. split; [reflexivity|]. split; [reflexivity|]. split; [exact El|]. split; [apply put_same|].
    intros L. split.
    + rewrite put_other by exact D. rewrite put_same. destruct (put_wbro_reads fs (named y ext_wbro) out L) as (file & P & R). unfold put_wbro in P. rewrite Ec in P.
      assert (Ep : put fs (named y ext_wbro) f (named y ext_wbro) = put fs (named y ext_wbro) file (named y ext_wbro)) by congruence. rewrite !put_same in Ep. rewrite Ep. exact R.
    + rewrite fold_add_all in Ew. destruct (add_all_spec p out wb_new ltac:(now left) ltac:(cbn; lia) ltac:(cbn [wb_new wb_count]; lia)) as (cs & A & _ & C). rewrite A in Ew. apply ok_inj in Ew. subst w.
      unfold get_samples in Eg. cbn [mt_vsri mt_wbro] in Eg. unfold wb_samples in Eg at 1. cbn [wb_chunks] in Eg. rewrite C in Eg. change (wb_samples wb_new ++ out) with out in Eg. exact (pair_samples_ok p index out 0 rows ltac:(lia) Eg).
  - split; [intros m M1 M2; now rewrite put_other by assumption|]. right. right. split; [reflexivity|]. apply put_other. congruence.
Qed.
Print Assumptions C81_csvc_uncompress_status.

(** * Two commands *)
Lemma with_u e p nt a a' fs n : a_uncompress a = true -> process_single_file e p nt a fs n = process_single_file e p nt (uncompressing a') fs n.
Proof. intros H. unfold process_single_file, uncompressing. rewrite H. reflexivity. Qed.
Lemma without_u e p nt a fs n : a_uncompress a = false -> process_single_file e p nt a fs n = process_single_file e p nt (compressing a) fs n.
Proof. intros H. destruct a as [c er l u cv nh f]. cbn in H. subst u. reflexivity. Qed.
Lemma file_there content data : from_file content = Ok (WbSamples data) -> content <> None.
Proof. destruct content; [discriminate|]. intros H. vm_compute in H. discriminate H. Qed.

(** Any two command lines that mean: compress x.wbro with automatic selection and no sampling; uncompress x.bro. Both end with status 0, only these two
    files change, and x.wbro then holds the finite samples of the original, chunk by chunk nearly equal or within 6/5 of the error asked for. *)
Theorem C81_session e p nt fs sp x ws1 ws2 a1 a2 data v :
  env_ok e -> proper_stem x ->
  atsc_parse ws1 = Some (named x ext_wbro, a1) -> a_uncompress a1 = false -> a_csv a1 = false -> a_compressor a1 = Auto -> a_level a1 = 0 ->
  atsc_parse ws2 = Some (named x ext_bro, a2) -> a_uncompress a2 = true ->
  from_file (fs (named x ext_wbro)) = Ok (WbSamples data) -> In v data -> finite v ->
  Forall (fun x => finite x -> supported x /\ no_negative_zero x) data -> fits_counter p data -> Z.of_nat (length data) <= 2 ^ 28 ->
  exists fs1 fs2 outs chunks cleaned,
    atsc_command e p nt ws1 fs sp = (fs1, Some 0) /\ atsc_command e p nt ws2 fs1 sp = (fs2, Some 0) /\
    (forall m, m <> named x ext_bro -> m <> named x ext_wbro -> fs2 m = fs m) /\
    from_file (fs2 (named x ext_wbro)) = Ok (WbSamples (concat outs)) /\
    subsequence_of finite data cleaned /\ concat chunks = cleaned /\
    Forall2 (fun chunk out => nearly_equal chunk out \/ relative_error_within (6 / 5 * (IZR (a_error a1) / 100 + / 1000000)) chunk out) chunks outs.
Proof.
  intros He Hx P1 U1 V1 K1 L1 P2 U2 Hf Hv Fv Hs Hfit Hl. assert (Acc := proj1 (C80_limits ws1) _ _ P1).
  destruct (C49_round_trip e p nt a1 fs x data v He Hx Acc V1 Hf Hv Fv Hfit Hl) as (fs1 & fs2 & bytes & out & cl & S1 & S2 & Cb & Db & B2 & W2 & _ & _ & O2).
  destruct Acc as [Acc1 Acc2].
  destruct (C55_auto_error_end_to_end e p data (a_error a1) He ltac:(lia) Hfit Hs) as (bytes' & outs & chunks & cleaned & Cb' & Db' & Sub & Cat & Err).
  rewrite K1, L1 in Cb. assert (bytes' = bytes) as -> by (rewrite Cb in Cb'; apply ok_inj in Cb'; congruence). rewrite Db in Db'. apply ok_inj in Db'. subst out.
  rewrite <- (without_u e p nt a1 fs _ U1) in S1. rewrite <- (with_u e p nt a2 a1 fs1 _ U2) in S2.
  exists fs1, fs2, outs, chunks, cleaned. split; [|split; [|split; [exact O2|split; [exact W2|split; [exact Sub|split; [exact Cat|exact Err]]]]]].
  - unfold atsc_command, atsc_process_args. rewrite P1. assert (N := file_there _ _ Hf). destruct (fs (named x ext_wbro)); [|congruence]. rewrite S1. reflexivity.
  - unfold atsc_command, atsc_process_args. rewrite P2. assert (N : fs1 (named x ext_bro) <> None).
    { intros N. unfold process_single_file in S2. rewrite U2, N in S2. discriminate S2. }
    destruct (fs1 (named x ext_bro)); [|congruence]. rewrite S2. reflexivity.
Qed.
Print Assumptions C81_session.

(** In particular [atsc x.wbro] and [atsc -u x.bro], for a name that does not start with a dash, with 3 percent. *)
Lemma undashed_named x ext : x <> [] -> hd_error x <> Some 45 -> undashed (named x ext) /\ named x ext <> [].
Proof. intros H N. unfold undashed, named. destruct x as [|c x]; [congruence|]. cbn [hd_error] in *. split; [right; exact N|discriminate]. Qed.
Lemma parse_u input : undashed input -> input <> [] ->
  atsc_parse [txt "-u"; input] = Some (input, {| a_compressor := Auto; a_error := 3; a_level := 0; a_uncompress := true; a_csv := false; a_no_header := false; a_fields := txt "time,value" |}).
Proof.
  intros U N. apply C80_atsc. exists [Flag 2; Input input].
  assert (S0 : forall A i (R : text -> A -> Prop) d, set_to [Flag 2; Input input] i R d d) by (intros; right; split; [intros v [H|[H|[]]]; discriminate H|reflexivity]).
  assert (F0 : forall i, i <> 2%nat -> ~ In (Flag i) [Flag 2; Input input]) by (intros i Hi [H|[H|[]]]; congruence).
  assert (B0 : forall i, i <> 2%nat -> (false = true <-> In (Flag i) [Flag 2; Input input])) by (intros i Hi; split; [discriminate|intros H; destruct (F0 i Hi H)]).
  constructor; cbn [a_compressor a_error a_level a_uncompress a_csv a_no_header a_fields]; auto.
  - exact (line_short_flag atsc_options 2 117 None [Input input] [input] eq_refl (line_input atsc_options input [] [] U (line_end atsc_options))).
  - unfold each_once. cbn [map which]. constructor; [intros [H|[]]; discriminate H|]. constructor; [intros []|constructor].
  - split; [right; now left|exact N].
  - split; [intros _; now left|reflexivity].
Qed.
Theorem C81_default_session e p nt fs sp x data v :
  env_ok e -> proper_stem x -> hd_error x <> Some 45 ->
  from_file (fs (named x ext_wbro)) = Ok (WbSamples data) -> In v data -> finite v ->
  Forall (fun x => finite x -> supported x /\ no_negative_zero x) data -> fits_counter p data -> Z.of_nat (length data) <= 2 ^ 28 ->
  exists fs1 fs2 outs chunks cleaned,
    atsc_command e p nt [named x (txt "wbro")] fs sp = (fs1, Some 0) /\ atsc_command e p nt [txt "-u"; named x (txt "bro")] fs1 sp = (fs2, Some 0) /\
    (forall m, m <> named x ext_bro -> m <> named x ext_wbro -> fs2 m = fs m) /\
    from_file (fs2 (named x ext_wbro)) = Ok (WbSamples (concat outs)) /\
    subsequence_of finite data cleaned /\ concat chunks = cleaned /\
    Forall2 (fun chunk out => nearly_equal chunk out \/ relative_error_within (6 / 5 * (3 / 100 + / 1000000)) chunk out) chunks outs.
Proof.
  intros He Hx Hd Hf Hv Fv Hs Hfit Hl. assert (Nx : x <> []) by (destruct Hx as (d & f & -> & _ & Hn & _); destruct d, f; congruence || discriminate).
  destruct (undashed_named x ext_wbro Nx Hd) as [U1 N1]. destruct (undashed_named x ext_bro Nx Hd) as [U2 N2].
  exact (C81_session e p nt fs sp x _ _ _ _ data v He Hx (proj1 (C80_defaults _ N1 U1)) eq_refl eq_refl eq_refl eq_refl (parse_u _ U2 N2) eq_refl Hf Hv Fv Hs Hfit Hl).
Qed.
Print Assumptions C81_default_session.

(** [csv-compressor --output-vsri x.csv] and [csv-compressor -u x.bro]. *)
Theorem C81_csvc_session e p nt fs x ws1 ws2 c1 c2 samples t0 d s :
  env_ok e -> proper_stem x ->
  csvc_parse ws1 = Some (compress_call c1 x true) -> csvc_parse ws2 = Some (uncompress_call c2 x) ->
  read_samples_from_csv_file nt (fs (named x ext_csv)) = Some samples -> regular_day_samples t0 d samples -> In s samples -> finite (sm_val s) ->
  exists fs1 fs2 bytes out cleaned,
    csvc_command e p nt ws1 fs = (fs1, Some 0) /\ csvc_command e p nt ws2 fs1 = (fs2, Some 0) /\
    compress_data e p (values samples) (c_compressor c1) (c_error c1) (c_level c1) = Ok bytes /\ decompress_data e p bytes = Ok out /\
    subsequence_of finite (values samples) cleaned /\ length out = length cleaned /\
    fs2 (named x ext_csv) = Some (write_samples_text nt (at_period t0 d out)) /\ from_file (fs2 (named x ext_wbro)) = Ok (WbSamples out).
Proof.
  intros He Hx P1 P2 Hr Hs Hi Hf. assert (Acc := proj1 (proj2 (C80_limits ws1) _ P1)).
  destruct (C50_round_trip e p nt c1 fs x samples t0 d s He Hx Acc Hr Hs Hi Hf) as (fs1 & fs2 & bytes & out & cl & S1 & S2 & Cb & Db & Sub & Len & T2 & W2 & _).
  exists fs1, fs2, bytes, out, cl. split; [|split; [|auto 10]].
  - unfold csvc_command. rewrite P1. cbn [c_input compress_call]. destruct (fs (named x ext_csv)) as [b|] eqn:Ef; [|discriminate Hr]. rewrite S1. reflexivity.
  - unfold csvc_command. rewrite P2. cbn [c_input uncompress_call]. assert (N : fs1 (named x ext_bro) <> None).
    { intros N. unfold csvc_process_args, csvc_uncompress, uncompress_call in S2. cbn [c_uncompress c_input] in S2. rewrite N in S2. discriminate S2. }
    destruct (fs1 (named x ext_bro)); [|congruence]. change (csvc_process_args e p nt (uncompress_call c2 x) fs1) with (csvc_process_args e p nt (uncompress_call c1 x) fs1). rewrite S2. reflexivity.
Qed.
Print Assumptions C81_csvc_session.
Lemma csvc_words x : x <> [] -> hd_error x <> Some 45 ->
  csvc_parse [txt "--output-vsri"; named x ext_csv] = Some (compress_call {| c_input := []; c_output := None; c_uncompress := false; c_no_compression := false; c_output_vsri := false; c_output_wavbrro := false; c_compressor := Auto; c_error := 5; c_level := 0 |} x true) /\
  csvc_parse [txt "-u"; named x ext_bro] = Some (uncompress_call {| c_input := []; c_output := None; c_uncompress := false; c_no_compression := false; c_output_vsri := false; c_output_wavbrro := false; c_compressor := Auto; c_error := 5; c_level := 0 |} x).
Proof.
  intros Hx Hd. split.
  - destruct (undashed_named x ext_csv Hx Hd) as [U N]. apply C80_csvc. exists [Flag 3; Input (named x ext_csv)]. set (input := named x ext_csv) in *.
    assert (S0 : forall A i (R : text -> A -> Prop) d, set_to [Flag 3; Input input] i R d d) by (intros; right; split; [intros v [H|[H|[]]]; discriminate H|reflexivity]).
    assert (F0 : forall i, i <> 3%nat -> ~ In (Flag i) [Flag 3; Input input]) by (intros i Hi [H|[H|[]]]; congruence).
    assert (B0 : forall i, i <> 3%nat -> (false = true <-> In (Flag i) [Flag 3; Input input])) by (intros i Hi; split; [discriminate|intros H; destruct (F0 i Hi H)]).
    constructor; cbn [compress_call c_input c_output c_uncompress c_no_compression c_output_vsri c_output_wavbrro c_compressor c_error c_level]; auto; try (split; apply F0; discriminate).
    + exact (line_long_flag csvc_options 3 None (txt "output-vsri") [Input input] [input] eq_refl (line_input csvc_options input [] [] U (line_end csvc_options))).
    + unfold each_once. cbn [map which]. constructor; [intros [H|[]]; discriminate H|]. constructor; [intros []|constructor].
    + split; [right; now left|exact N].
    + split; [intros _; now left|reflexivity].
  - destruct (undashed_named x ext_bro Hx Hd) as [U N]. apply C80_csvc. exists [Flag 1; Input (named x ext_bro)]. set (input := named x ext_bro) in *.
    assert (S0 : forall A i (R : text -> A -> Prop) d, set_to [Flag 1; Input input] i R d d) by (intros; right; split; [intros v [H|[H|[]]]; discriminate H|reflexivity]).
    assert (F0 : forall i, i <> 1%nat -> ~ In (Flag i) [Flag 1; Input input]) by (intros i Hi [H|[H|[]]]; congruence).
    assert (B0 : forall i, i <> 1%nat -> (false = true <-> In (Flag i) [Flag 1; Input input])) by (intros i Hi; split; [discriminate|intros H; destruct (F0 i Hi H)]).
    constructor; cbn [uncompress_call c_input c_output c_uncompress c_no_compression c_output_vsri c_output_wavbrro c_compressor c_error c_level]; auto; try (split; apply F0; discriminate).
    + exact (line_short_flag csvc_options 1 117 None [Input input] [input] eq_refl (line_input csvc_options input [] [] U (line_end csvc_options))).
    + unfold each_once. cbn [map which]. constructor; [intros [H|[]]; discriminate H|]. constructor; [intros []|constructor].
    + split; [right; now left|exact N].
    + split; [intros _; now left|reflexivity].
Qed.

(** The hypotheses are met; a missing input gives 1 (101 with csv-compressor); -u on a file that is no compressed one gives 0 and does nothing. *)
Example C81_applies : forall sp, exists fs1 fs2 outs,
  atsc_command id_env Dev toy_numbers [txt "x.wbro"] one_file sp = (fs1, Some 0) /\ atsc_command id_env Dev toy_numbers [txt "-u"; txt "x.bro"] fs1 sp = (fs2, Some 0) /\
  from_file (fs2 (txt "x.wbro")) = Ok (WbSamples (concat outs)).
Proof.
  intros sp. destruct C49_example as (data & v & H1 & H2 & _ & _ & _ & H3 & H4 & H5 & H6 & H7 & H8 & H9).
  assert (N : w_x = txt "x") by (vm_compute; reflexivity).
  destruct (C81_default_session id_env Dev toy_numbers one_file sp w_x data v H1 H2 ltac:(discriminate) H3 H4 H5) as (fs1 & fs2 & outs & chunks & cleaned & S1 & S2 & _ & W & _).
  - subst data. unfold three_samples, ints. rewrite Forall_map. apply Forall_forall. intros z Hz _. split; [apply supported_int; cbn in Hz; lia|]. intros E. cbn in Hz. assert (B := f_equal to_bits E). clear E. repeat destruct Hz as [<-|Hz]; [vm_compute in B; discriminate B..|destruct Hz].
  - exact H7.
  - exact H8.
  - exists fs1, fs2, outs. rewrite N in S1, S2, W. auto.
Qed.
Example C81_csvc_applies : exists fs1 fs2,
  csvc_command id_env Dev toy_numbers [txt "--output-vsri"; txt "x.csv"] csv_file = (fs1, Some 0) /\ csvc_command id_env Dev toy_numbers [txt "-u"; txt "x.bro"] fs1 = (fs2, Some 0).
Proof.
  destruct C50_example as (s & H1 & H2 & _ & H3 & H4 & H5 & H6 & _). destruct (csvc_words w_x ltac:(discriminate) ltac:(discriminate)) as [P1 P2].
  destruct (C81_csvc_session id_env Dev toy_numbers csv_file w_x _ _ _ _ two_samples 5 60 s H1 H2 P1 P2 H3 H4 H5 H6) as (fs1 & fs2 & bytes & out & cl & S1 & S2 & _). exists fs1, fs2. split; [exact S1|exact S2].
Qed.
Example C81_other_statuses : forall e p nt fs sp, fs (txt "no.wbro") = None -> sp (txt "no.wbro") = None -> fs (txt "note.txt") = Some (txt "some longer text") ->
  atsc_command e p nt [txt "no.wbro"] fs sp = (fs, Some 1) /\ csvc_command e p nt [txt "no.wbro"] fs = (fs, Some 101) /\
  atsc_command e p nt [txt "note.txt"; txt "-u"] fs sp = (fs, Some 0) /\ atsc_command e p nt [txt "note.txt"; txt "-e51"] fs sp = (fs, None).
Proof.
  intros e p nt fs sp H1 H2 H3. unfold atsc_command, csvc_command, atsc_process_args.
  assert (P1 : exists a, atsc_parse [txt "no.wbro"] = Some (txt "no.wbro", a)) by (eexists; vm_compute; reflexivity). destruct P1 as [a1 ->].
  assert (P2 : exists c, csvc_parse [txt "no.wbro"] = Some c /\ c_input c = txt "no.wbro") by (eexists; split; vm_compute; reflexivity). destruct P2 as (c & -> & ->).
  assert (P3 : exists a, atsc_parse [txt "note.txt"; txt "-u"] = Some (txt "note.txt", a) /\ a_uncompress a = true) by (eexists; split; vm_compute; reflexivity). destruct P3 as (a3 & -> & U).
  assert (P4 : atsc_parse [txt "note.txt"; txt "-e51"] = None) by (vm_compute; reflexivity). rewrite P4, H1, H2, H3. unfold process_single_file. rewrite U, H3. change (bro_read (txt "some longer text")) with RNotBro. repeat split; reflexivity.
Qed.
