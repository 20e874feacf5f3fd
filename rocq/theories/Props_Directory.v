(** C73: directory runs are the single-file runs of their files, in any order; they invert each other; interrupted runs. *)
From Coq Require Import List ZArith Bool Lia ZifyBool Permutation.
From Verif Require Import Base Model_Float Model_Bincode BincodeFacts Spec Model_Utils Model_Compressors Model_Fft Model_Stream Props_Fft StreamFacts PlanFacts Props_Plan Props_Pipeline Props_ErrorZero
  Model_Wavbrro Props_Wavbrro Model_Vsri Model_Csv CsvFacts Model_Cli Model_Disk Model_DiskDir Props_Cli Props_Csvc Props_Crash.
Import ListNotations.
Open Scope Z_scope.

(** * Vocabulary *)
(** A file of a directory: stem and extension. *)
Definition item : Type := name * text.
Definition in_name (i : item) : name := named (fst i) (snd i).
Definition out_ext (a : atsc_args) : text := if a_uncompress a then ext_wbro else ext_bro.
Definition out_name (a : atsc_args) (i : item) : name := named (fst i) (out_ext a).
(** Files with proper, different stems, none of them named like an output. *)
Definition batch (a : atsc_args) (items : list item) : Prop :=
  NoDup (map fst items) /\ Forall (fun i => proper_stem (fst i) /\ proper_ext (snd i) /\ snd i <> out_ext a) items.

Lemma named_inj x y e1 e2 : proper_ext e1 -> proper_ext e2 -> named x e1 = named y e2 -> x = y /\ e1 = e2.
Proof.
  intros H1 H2 H. assert (E : Some x = Some y) by (rewrite <- (last_dot_named x e1 (proj1 H1)), H; apply last_dot_named, H2). assert (x = y) as -> by congruence.
  split; [reflexivity|]. unfold named in H. apply app_inv_head in H. now apply app_inv_head in H.
Qed.
Lemma proper_out a : proper_ext (out_ext a). Proof. unfold out_ext. destruct (a_uncompress a); [apply proper_wbro|apply proper_bro]. Qed.

(** What one call does at its output, given what it meets at its input and output. *)
Lemma single_local e p nt a fs g x old : proper_stem x -> proper_ext old -> g (named x old) = fs (named x old) -> g (named x (out_ext a)) = fs (named x (out_ext a)) ->
  snd (process_single_file e p nt a g (named x old)) = snd (process_single_file e p nt a fs (named x old)) /\
  fst (process_single_file e p nt a g (named x old)) (named x (out_ext a)) = fst (process_single_file e p nt a fs (named x old)) (named x (out_ext a)).
Proof.
  intros Hx Ho H1 H2. destruct (step_form e p nt a (named x old)) as (act & _ & _ & A). rewrite !A, H1. cbn [fst snd]. split; [reflexivity|].
  fold (out_ext a). rewrite set_ext_named by assumption. destruct (fst (act (fs (named x old)))) as [b|]; [|exact H2]. now rewrite !put_same.
Qed.
Lemma single_other e p nt a fs x old m : proper_stem x -> proper_ext old -> m <> named x (out_ext a) -> fst (process_single_file e p nt a fs (named x old)) m = fs m.
Proof.
  intros Hx Ho Hm. destruct (step_form e p nt a (named x old)) as (act & _ & _ & A). rewrite A. cbn [fst]. fold (out_ext a). rewrite set_ext_named by assumption.
  destruct (fst (act (fs (named x old)))) as [b|]; [|reflexivity]. now apply put_other.
Qed.
Lemma not_done_unchanged e p nt a fs n fs' o : process_single_file e p nt a fs n = (fs', o) -> o <> Done -> fs' = fs.
Proof.
  intros H Ho. destruct (step_form e p nt a n) as (act & A1 & _ & A). rewrite A in H. specialize (A1 (fs n)). destruct (fst (act (fs n))) as [b|]; [|congruence].
  exfalso. apply Ho. assert (o = snd (act (fs n))) by congruence. subst o. apply A1. discriminate.
Qed.

(** * Independence *)
(** A run over a directory: the files of a first part are processed, each exactly as by a call of its own on the directory as it was (names
    that are no files are passed over); if something is left, its first file is one on which the call of its own fails, with this outcome;
    every file that is no output of the first part is as before. *)
Definition went (e : env) (p : profile) (nt : number_text) (a : atsc_args) (fs : files) (items : list item) (fs' : files) (o : outcome) : Prop :=
  exists good rest, items = good ++ rest /\
  (forall i, In i good -> fs (in_name i) <> None -> exists f, process_single_file e p nt a fs (in_name i) = (f, Done) /\ fs' (out_name a i) = f (out_name a i)) /\
  (forall m, (forall i, In i good -> fs (in_name i) <> None -> m <> out_name a i) -> fs' m = fs m) /\
  (rest = [] /\ o = Done \/
   exists i r, rest = i :: r /\ o <> Done /\ fs (in_name i) <> None /\ snd (process_single_file e p nt a fs (in_name i)) = o).

Lemma batch_tail a i items : batch a (i :: items) -> batch a items.
Proof. intros [H1 H2]. cbn [map] in H1. inversion H1; subst. inversion H2; subst. now split. Qed.
Lemma batch_head a i items : batch a (i :: items) -> proper_stem (fst i) /\ proper_ext (snd i) /\ snd i <> out_ext a.
Proof. intros [_ H]. now inversion H. Qed.
Lemma batch_in a i items : batch a items -> In i items -> proper_stem (fst i) /\ proper_ext (snd i) /\ snd i <> out_ext a.
Proof. intros [_ H] Hi. rewrite Forall_forall in H. now apply H. Qed.
Lemma outs_differ a i j items : batch a (i :: items) -> In j items -> out_name a j <> out_name a i.
Proof.
  intros [H _] Hj E. cbn [map] in H. inversion H as [|? ? N _]; subst. unfold out_name in E. apply named_inj in E; [|apply proper_out|apply proper_out].
  destruct E as [E _]. apply N. rewrite <- E. now apply in_map.
Qed.
Lemma in_no_out a i j items : batch a items -> In i items -> In j items -> in_name i <> out_name a j.
Proof.
  intros H Hi _ E. destruct (batch_in a i items H Hi) as (_ & B & C). unfold in_name, out_name in E. apply named_inj in E; [|exact B|apply proper_out]. now destruct E.
Qed.

Theorem C73_directory : forall e p nt a fs items fs' o, batch a items ->
  process_directory e p nt a fs (map in_name items) = (fs', o) -> went e p nt a fs items fs' o.
Proof.
  intros e p nt a fs items. revert fs. induction items as [|i items IH]; intros fs fs' o B H; cbn [map process_directory] in H.
  - exists [], []. split; [reflexivity|]. split; [intros j []|]. assert (fs' = fs) by congruence. assert (o = Done) by congruence. subst. split; [reflexivity|]. left. auto.
  - assert (Bt := batch_tail _ _ _ B). destruct (batch_head _ _ _ B) as (B1 & B2 & B3). destruct (fs (in_name i)) as [b|] eqn:En.
    + destruct (process_single_file e p nt a fs (in_name i)) as [fs1 o1] eqn:E1.
      assert (Fail : o1 <> Done -> fs' = fs /\ o = o1).
      { intros Ho. assert (U := not_done_unchanged _ _ _ _ _ _ _ _ E1 Ho). subst fs1. destruct o1 as [|er|]; [congruence| |]; [rewrite E1 in H|]; (split; congruence). }
      assert (Ex : {o1 = Done} + {o1 <> Done}) by (destruct o1; [left; reflexivity|right; discriminate|right; discriminate]). destruct Ex as [-> |Ho].
      * (* the call ends normally *)
        assert (L : forall m, m <> out_name a i -> fs1 m = fs m).
        { intros m Hm. assert (X := single_other e p nt a fs (fst i) (snd i) m B1 B2 Hm). fold (in_name i) in X. rewrite E1 in X. exact X. }
        assert (Ij : forall j, In j items -> fs1 (in_name j) = fs (in_name j)).
        { intros j Hj. apply L. apply (in_no_out a j i (i :: items) B); [now right|now left]. }
        destruct (IH fs1 fs' o Bt H) as (good & rest & -> & W1 & W2 & W3).
        exists (i :: good), rest. split; [reflexivity|]. split; [|split].
        -- intros j [<-|Hj] Hn.
           ++ exists fs1. split; [exact E1|]. apply W2. intros j Hj _ E. symmetry in E. revert E. apply (outs_differ a i j (good ++ rest) B). apply in_or_app. now left.
           ++ assert (Hj' : In j (good ++ rest)) by (apply in_or_app; now left). assert (Hn' := Hn). rewrite <- (Ij j Hj') in Hn'.
              destruct (W1 j Hj Hn') as (f & F1 & F2). destruct (batch_in a j _ Bt Hj') as (J1 & J2 & _).
              destruct (single_local e p nt a fs fs1 (fst j) (snd j) J1 J2 (Ij j Hj')) as [S1 S2].
              { apply L. now apply (outs_differ a i j (good ++ rest) B). }
              fold (in_name j) in S1, S2. rewrite F1 in S1, S2. cbn [fst snd] in S1, S2. destruct (process_single_file e p nt a fs (in_name j)) as [g og]. cbn [fst snd] in S1, S2. subst og.
              exists g. split; [reflexivity|]. rewrite F2. exact S2.
        -- intros m Hm. rewrite W2.
           ++ apply L. apply Hm; [now left|congruence].
           ++ intros j Hj Hn. apply Hm; [now right|]. rewrite <- Ij; [exact Hn|apply in_or_app; now left].
        -- destruct W3 as [W3|(j & r & -> & W3 & W4 & W5)]; [now left|]. right. exists j, r. split; [reflexivity|]. split; [exact W3|].
           assert (Hj' : In j (good ++ j :: r)) by (apply in_or_app; right; now left). rewrite (Ij j Hj') in W4. split; [exact W4|].
           destruct (batch_in a j _ Bt Hj') as (J1 & J2 & _). destruct (single_local e p nt a fs fs1 (fst j) (snd j) J1 J2 (Ij j Hj')) as [S1 _].
           { apply L. now apply (outs_differ a i j (good ++ j :: r) B). }
           fold (in_name j) in S1. congruence.
      * destruct (Fail Ho) as [-> ->]. exists [], (i :: items). split; [reflexivity|]. split; [intros j []|]. split; [reflexivity|].
        right. exists i, items. split; [reflexivity|]. split; [exact Ho|]. split; [congruence|]. now rewrite E1.
    + destruct (IH fs fs' o Bt H) as (good & rest & -> & W1 & W2 & W3). exists (i :: good), rest. split; [reflexivity|]. split; [|split; [|exact W3]].
      * intros j [<-|Hj] Hn; [congruence|]. now apply W1.
      * intros m Hm. apply W2. intros j Hj Hn. apply Hm; [now right|exact Hn].
Qed.
Print Assumptions C73_directory.

(** So a run ends normally exactly if the call on each of its files does ... *)
Theorem C73_ends_normally : forall e p nt a fs items fs' o, batch a items ->
  process_directory e p nt a fs (map in_name items) = (fs', o) ->
  (o = Done <-> forall i, In i items -> fs (in_name i) <> None -> snd (process_single_file e p nt a fs (in_name i)) = Done).
Proof.
  intros e p nt a fs items fs' o B H. destruct (C73_directory e p nt a fs items fs' o B H) as (good & rest & -> & W1 & _ & W3). split.
  - intros ->. destruct W3 as [[-> _]|(i & r & _ & W & _)]; [|congruence]. rewrite app_nil_r. intros i Hi Hn. destruct (W1 i Hi Hn) as (f & -> & _). reflexivity.
  - intros A. destruct W3 as [[_ ->]|(i & r & -> & W4 & W5 & W6)]; [reflexivity|]. rewrite A in W6; [congruence|apply in_or_app; right; now left|exact W5].
Qed.
Print Assumptions C73_ends_normally.

(** ... and the order in which the operating system lists the files does not matter. *)
Theorem C73_order : forall e p nt a fs items items' fs', batch a items -> Permutation items items' ->
  process_directory e p nt a fs (map in_name items) = (fs', Done) ->
  exists fs'', process_directory e p nt a fs (map in_name items') = (fs'', Done) /\ same_files fs'' fs'.
Proof.
  intros e p nt a fs items items' fs' B Pm H.
  assert (B' : batch a items').
  { destruct B as [B1 B2]. split; [apply (Permutation_NoDup (Permutation_map fst Pm)); exact B1|]. rewrite Forall_forall in *. intros i Hi. apply B2. apply (Permutation_in i (Permutation_sym Pm) Hi). }
  destruct (process_directory e p nt a fs (map in_name items')) as [fs'' o'] eqn:E. exists fs''.
  assert (o' = Done) as ->.
  { apply (C73_ends_normally e p nt a fs items' fs'' o' B' E). intros i Hi. apply (proj1 (C73_ends_normally e p nt a fs items fs' Done B H) eq_refl). apply (Permutation_in i (Permutation_sym Pm) Hi). }
  split; [reflexivity|].
  destruct (C73_directory e p nt a fs items fs' Done B H) as (g & r & -> & W1 & W2 & W3). destruct W3 as [[-> _]|(i & ? & _ & W & _)]; [|congruence]. rewrite app_nil_r in *.
  destruct (C73_directory e p nt a fs items' fs'' Done B' E) as (g' & r' & -> & V1 & V2 & V3). destruct V3 as [[-> _]|(i & ? & _ & W & _)]; [|congruence]. rewrite app_nil_r in *.
  intros m. destruct (in_dec (list_eq_dec Z.eq_dec) m (map (out_name a) (filter (fun i => match fs (in_name i) with Some _ => true | None => false end) g))) as [Hm|Hm].
  - apply in_map_iff in Hm. destruct Hm as (i & <- & Hi). apply filter_In in Hi. destruct Hi as [Hi Hn]. assert (Hn' : fs (in_name i) <> None) by (destruct (fs (in_name i)); congruence).
    destruct (W1 i Hi Hn') as (f & F1 & F2). destruct (V1 i (Permutation_in i Pm Hi) Hn') as (f' & F1' & F2'). rewrite F1 in F1'. congruence.
  - assert (K : forall i, In i g -> fs (in_name i) <> None -> m <> out_name a i).
    { intros i Hi Hn ->. apply Hm. apply in_map. apply filter_In. split; [exact Hi|]. destruct (fs (in_name i)); congruence. }
    rewrite W2 by exact K. apply V2. intros i Hi. apply K. apply (Permutation_in i (Permutation_sym Pm) Hi).
Qed.
Print Assumptions C73_order.

(** * Compressing a directory and uncompressing it *)
Lemma wbro_mark b data : from_file (Some b) = Ok (WbSamples data) -> (12 <= length b)%nat /\ firstn 4 b <> [66; 82; 82; 79].
Proof.
  intros H. destruct (C37_refuses b) as (R1 & R2 & _). destruct (Nat.ltb_spec (length b) 12) as [L|L]; [rewrite R1 in H by exact L; discriminate H|].
  split; [exact L|]. intros E. rewrite R2 in H; [discriminate H|exact L|]. left. rewrite E. discriminate.
Qed.

(** The files x.bro hold readable streams, the files x.wbro are WavBrro files; any listing of such names is uncompressed. *)
Lemma uncompress_listing e p nt a xs : (forall x, In x xs -> proper_stem x) -> forall entries fs,
  (forall x, In x xs -> exists bytes out, fs (named x ext_bro) = Some bytes /\ bro_read bytes = RBro bytes /\ decompress_data e p bytes = Ok out /\ Z.of_nat (length out) <= 2 ^ 28) ->
  (forall x, In x xs -> exists data, from_file (fs (named x ext_wbro)) = Ok (WbSamples data)) ->
  (forall n, In n entries -> exists x, In x xs /\ (n = named x ext_bro \/ n = named x ext_wbro)) ->
  exists fs2, process_directory e p nt (uncompressing a) fs entries = (fs2, Done) /\
    (forall m, (forall x, In x xs -> m <> named x ext_wbro) -> fs2 m = fs m) /\
    (forall x bytes out, In x xs -> fs (named x ext_bro) = Some bytes -> decompress_data e p bytes = Ok out ->
       (In (named x ext_bro) entries -> from_file (fs2 (named x ext_wbro)) = Ok (WbSamples out)) /\
       (~ In (named x ext_bro) entries -> fs2 (named x ext_wbro) = fs (named x ext_wbro))).
Proof.
  intros Hp. induction entries as [|n entries IH]; intros fs H1 H2 H3.
  - exists fs. split; [reflexivity|]. split; [reflexivity|]. intros x bytes out _ _ _. split; [intros []|reflexivity].
  - destruct (H3 n (or_introl eq_refl)) as (x & Hx & [-> | ->]).
    + destruct (H1 x Hx) as (bytes & out & E1 & E2 & E3 & E4).
      destruct (uncompress_step e p nt a fs x ext_bro bytes out (Hp x Hx) proper_bro E1 E2 E3 E4) as (file & S1 & S2).
      set (fs1 := put fs (named x ext_wbro) file) in *.
      assert (Br : forall y, fs1 (named y ext_bro) = fs (named y ext_bro)).
      { intros y. apply put_other. intros E. apply named_inj in E; [|apply proper_bro|apply proper_wbro]. destruct E as [_ E]. discriminate E. }
      destruct (IH fs1) as (fs2 & P1 & P2 & P3).
      * intros y Hy. rewrite Br. now apply H1.
      * intros y Hy. destruct (list_eq_dec Z.eq_dec y x) as [-> |N]; [exists out; unfold fs1; now rewrite put_same|]. unfold fs1. rewrite put_other; [now apply H2|].
        intros E. apply named_inj in E; [|apply proper_wbro|apply proper_wbro]. now destruct E.
      * intros m Hm. apply H3. now right.
      * exists fs2. split; [cbn [process_directory]; rewrite E1, S1; exact P1|]. split.
        -- intros m Hm. rewrite P2 by exact Hm. apply put_other. now apply Hm.
        -- intros y bytes' out' Hy F1 F2. destruct (P3 y bytes' out' Hy) as [Q1 Q2]; [now rewrite Br|exact F2|].
           destruct (in_dec (list_eq_dec Z.eq_dec) (named y ext_bro) entries) as [I|I].
           ++ split; [intros _; now apply Q1|]. intros C. elim C. now right.
           ++ specialize (Q2 I). destruct (list_eq_dec Z.eq_dec y x) as [-> |N].
              ** split; [|intros C; elim C; now left]. intros _. rewrite Q2. unfold fs1. rewrite put_same. assert (bytes' = bytes) by congruence. subst bytes'. assert (out' = out) by (rewrite E3 in F2; now apply ok_inj in F2). now subst.
              ** assert (W : named y ext_wbro <> named x ext_wbro) by (intros E; apply named_inj in E; [|apply proper_wbro|apply proper_wbro]; now destruct E).
                 split; [intros [E|C]; [apply named_inj in E; [|apply proper_bro|apply proper_bro]; destruct E as [E _]; congruence|contradiction]|].
                 intros _. rewrite Q2. unfold fs1. now apply put_other.
    + destruct (H2 x Hx) as (data & Hd). destruct (fs (named x ext_wbro)) as [b|] eqn:Eb; [|discriminate Hd]. destruct (wbro_mark b data Hd) as [M1 M2].
      destruct (C41_uncompress_foreign e p nt (uncompressing a) fs (named x ext_wbro) b entries eq_refl Eb) as [F _]. specialize (F M1 M2).
      destruct (IH fs H1 H2) as (fs2 & P1 & P2 & P3); [intros m Hm; apply H3; now right|]. exists fs2. split; [congruence|]. split; [exact P2|].
      intros y bytes out Hy F1 F2. destruct (P3 y bytes out Hy F1 F2) as [Q1 Q2]. split.
      * intros [E|I]; [|now apply Q1]. exfalso. apply named_inj in E; [|apply proper_wbro|apply proper_bro]. destruct E as [_ E]. discriminate E.
      * intros N. apply Q2. intros I. apply N. now right.
Qed.

(** A directory of WavBrro files, each with a finite sample, is compressed and uncompressed again: both runs end normally, and every x.wbro
    then holds what the library makes of its samples, whichever way the second listing mixes the x.bro and x.wbro. *)
Theorem C73_round_trip : forall e p nt a fs xs entries,
  env_ok e -> accepted_args a -> a_csv a = false -> NoDup xs -> Forall proper_stem xs ->
  (forall x, In x xs -> exists data v, from_file (fs (named x ext_wbro)) = Ok (WbSamples data) /\ In v data /\ finite v /\
     fits_counter p data /\ Z.of_nat (length data) <= 2 ^ 28) ->
  (forall n, In n entries -> exists x, In x xs /\ (n = named x ext_bro \/ n = named x ext_wbro)) ->
  (forall x, In x xs -> In (named x ext_bro) entries) ->
  exists fs1 fs2,
    process_directory e p nt (compressing a) fs (map (fun x => named x ext_wbro) xs) = (fs1, Done) /\
    process_directory e p nt (uncompressing a) fs1 entries = (fs2, Done) /\
    (forall x data, In x xs -> from_file (fs (named x ext_wbro)) = Ok (WbSamples data) ->
       exists bytes out, compress_data e p data (a_compressor a) (a_error a) (a_level a) = Ok bytes /\ decompress_data e p bytes = Ok out /\
         fs2 (named x ext_bro) = Some bytes /\ from_file (fs2 (named x ext_wbro)) = Ok (WbSamples out)) /\
    (forall m, (forall x, In x xs -> m <> named x ext_bro /\ m <> named x ext_wbro) -> fs2 m = fs m).
Proof.
  intros e p nt a fs xs entries He (Ha1 & Ha2) Hc Nd Hp Hf He1 He2. rewrite Forall_forall in Hp.
  set (items := map (fun x => (x, ext_wbro)) xs).
  assert (B : batch (compressing a) items).
  { split; [unfold items; rewrite map_map; cbn [fst]; now rewrite map_id|]. unfold items. rewrite Forall_map. apply Forall_forall. intros x Hx. cbn [fst snd]. split; [now apply Hp|]. split; [apply proper_wbro|].
    unfold out_ext, compressing. cbn [a_uncompress]. discriminate. }
  assert (Nm : map in_name items = map (fun x => named x ext_wbro) xs) by (unfold items; rewrite map_map; reflexivity).
  assert (One : forall x data, In x xs -> from_file (fs (named x ext_wbro)) = Ok (WbSamples data) ->
    exists bytes out, compress_data e p data (a_compressor a) (a_error a) (a_level a) = Ok bytes /\ decompress_data e p bytes = Ok out /\ bro_read bytes = RBro bytes /\ Z.of_nat (length out) <= 2 ^ 28 /\
      process_single_file e p nt (compressing a) fs (named x ext_wbro) = (put fs (named x ext_bro) bytes, Done)).
  { intros x data Hx Hd. destruct (Hf x Hx) as (data' & v & Hd' & Hv & Fv & Fit & Hl). assert (data' = data) as -> by (rewrite Hd in Hd'; apply ok_inj in Hd'; congruence).
    destruct (C13_pipeline_sample_count e p data (a_compressor a) (a_error a) (a_level a) He ltac:(lia) Ha2 Fit) as (bytes & out & Cb & Do & Len). rewrite <- clean_is in Len.
    assert (Rd := C15_nonempty_series_readable e p data (a_compressor a) (a_error a) (a_level a) bytes v He ltac:(lia) Ha2 Fit Hv Fv Cb). assert (Lc := clean_data_length data).
    exists bytes, out. split; [exact Cb|]. split; [exact Do|]. split; [exact Rd|]. split; [lia|]. apply (compress_step e p nt a fs x ext_wbro data bytes (Hp x Hx) proper_wbro Hc Hd Cb). }
  destruct (process_directory e p nt (compressing a) fs (map (fun x => named x ext_wbro) xs)) as [fs1 o1] eqn:E1. rewrite <- Nm in E1.
  assert (o1 = Done) as ->.
  { apply (C73_ends_normally e p nt (compressing a) fs items fs1 o1 B E1). intros i Hi _. unfold items in Hi. apply in_map_iff in Hi. destruct Hi as (x & <- & Hx). unfold in_name. cbn [fst snd].
    destruct (Hf x Hx) as (data & v & Hd & _). destruct (One x data Hx Hd) as (bytes & out & _ & _ & _ & _ & ->). reflexivity. }
  destruct (C73_directory e p nt (compressing a) fs items fs1 Done B E1) as (good & rest & Eg & W1 & W2 & W3). destruct W3 as [[-> _]|(i & r & _ & W & _)]; [|congruence]. rewrite app_nil_r in Eg. subst good.
  assert (O1 : forall x data bytes, In x xs -> from_file (fs (named x ext_wbro)) = Ok (WbSamples data) -> compress_data e p data (a_compressor a) (a_error a) (a_level a) = Ok bytes -> fs1 (named x ext_bro) = Some bytes).
  { intros x data bytes Hx Hd Hb. destruct (One x data Hx Hd) as (bytes' & out & Cb & _ & _ & _ & S1). assert (bytes' = bytes) as -> by (rewrite Hb in Cb; apply ok_inj in Cb; congruence).
    destruct (W1 (x, ext_wbro)) as (f & F1 & F2); [unfold items; now apply (in_map (fun x => (x, ext_wbro)))|unfold in_name; cbn [fst snd]; destruct (fs (named x ext_wbro)); [discriminate|discriminate Hd]|].
    unfold in_name in F1. cbn [fst snd] in F1. rewrite S1 in F1. change (out_name (compressing a) (x, ext_wbro)) with (named x ext_bro) in F2. rewrite F2. assert (f = put fs (named x ext_bro) bytes) as -> by congruence. apply put_same. }
  assert (O2 : forall m, (forall x, In x xs -> m <> named x ext_bro) -> fs1 m = fs m).
  { intros m Hm. apply W2. intros i Hi _. unfold items in Hi. apply in_map_iff in Hi. destruct Hi as (x & <- & Hx). change (out_name (compressing a) (x, ext_wbro)) with (named x ext_bro). now apply Hm. }
  assert (O3 : forall x, fs1 (named x ext_wbro) = fs (named x ext_wbro)).
  { intros x. apply O2. intros y _ E. apply named_inj in E; [|apply proper_wbro|apply proper_bro]. destruct E as [_ E]. discriminate E. }
  destruct (uncompress_listing e p nt a xs Hp entries fs1) as (fs2 & P1 & P2 & P3).
  - intros x Hx. destruct (Hf x Hx) as (data & v & Hd & _). destruct (One x data Hx Hd) as (bytes & out & Cb & Do & Rd & L & _). exists bytes, out. split; [now apply (O1 x data)|auto].
  - intros x Hx. destruct (Hf x Hx) as (data & v & Hd & _). exists data. now rewrite O3.
  - exact He1.
  - exists fs1, fs2. split; [reflexivity|]. split; [exact P1|]. split.
    + intros x data Hx Hd. destruct (One x data Hx Hd) as (bytes & out & Cb & Do & _). exists bytes, out. split; [exact Cb|]. split; [exact Do|].
      assert (F := O1 x data bytes Hx Hd Cb). split.
      * rewrite P2; [exact F|]. intros y _ E. apply named_inj in E; [|apply proper_bro|apply proper_wbro]. destruct E as [_ E]. discriminate E.
      * destruct (P3 x bytes out Hx F Do) as [Q _]. apply Q. now apply He2.
    + intros m Hm. rewrite P2 by (intros x Hx; now destruct (Hm x Hx)). apply O2. intros x Hx. now destruct (Hm x Hx).
Qed.
Print Assumptions C73_round_trip.

(** * Interruption *)
(** The operations of a run, carried out one after the other, are the run. *)
Lemma process_congr e p nt a n fs g : same_files g fs -> snd (process_single_file e p nt a g n) = snd (process_single_file e p nt a fs n) /\
  same_files (fst (process_single_file e p nt a g n)) (fst (process_single_file e p nt a fs n)).
Proof.
  intros H. destruct (step_form e p nt a n) as (act & _ & _ & A). rewrite !A, (H n). cbn [fst snd]. split; [reflexivity|].
  destruct (fst (act (fs n))); [now apply put_congr|exact H].
Qed.
Lemma single_ops_outcome e p nt a fs n : snd (ops_single_file e p nt a fs n) = snd (process_single_file e p nt a fs n).
Proof. now destruct (C64_operations e p nt a fs n). Qed.
Theorem C73_operations : forall e p nt a fs entries, runs fs (ops_directory e p nt a fs entries) (process_directory e p nt a fs entries).
Proof.
  intros e p nt a fs entries. revert fs. induction entries as [|n rest IH]; intros fs; cbn [ops_directory process_directory]; [apply runs_nil|].
  destruct (fs n); [|apply IH]. assert (R := C64_operations e p nt a fs n). destruct (ops_single_file e p nt a fs n) as [ops1 o1]. destruct (process_single_file e p nt a fs n) as [fs1 o1'] eqn:E1. destruct R as [R1 R2]. cbn [fst snd] in *. subst o1'.
  destruct o1 as [|er|]; [|  |split; [reflexivity|exact R2]].
  - assert (I := IH fs1). destruct (ops_directory e p nt a fs1 rest) as [ops2 o2]. destruct (process_directory e p nt a fs1 rest) as [fs2 o2']. destruct I as [I1 I2]. cbn [fst snd] in *.
    split; [exact I1|]. cbn [fst]. rewrite run_app. eapply same_trans; [apply run_congr; exact R2|exact I2].
  - assert (fs1 = fs) as -> by exact (failed_unchanged _ _ _ _ _ _ _ _ E1). assert (Q := C64_operations e p nt a fs n). rewrite E1 in *. destruct (ops_single_file e p nt a fs n) as [ops2 o2]. destruct Q as [Q1 Q2]. cbn [fst snd] in *. subst o2.
    split; [reflexivity|]. cbn [fst]. rewrite run_app. eapply same_trans; [apply run_congr; exact R2|exact Q2].
Qed.
Print Assumptions C73_operations.

(** The operations only depend on the inputs. *)
Lemma ops_dir_depend e p nt a : forall items fs g, batch a items -> (forall i, In i items -> g (in_name i) = fs (in_name i)) ->
  ops_directory e p nt a g (map in_name items) = ops_directory e p nt a fs (map in_name items).
Proof.
  induction items as [|i items IH]; intros fs g B H; [reflexivity|]. cbn [map ops_directory]. assert (Bt := batch_tail _ _ _ B). destruct (batch_head _ _ _ B) as (B1 & B2 & _).
  assert (Hi := H i (or_introl eq_refl)). rewrite Hi. destruct (fs (in_name i)) as [b|] eqn:En; [|apply IH; [exact Bt|intros j Hj; apply H; now right]].
  rewrite (ops_depend e p nt a fs g (in_name i)) by congruence.
  assert (T : forall j, In j items -> fst (process_single_file e p nt a g (in_name i)) (in_name j) = fst (process_single_file e p nt a fs (in_name i)) (in_name j)).
  { intros j Hj. assert (N : in_name j <> named (fst i) (out_ext a)) by (apply (in_no_out a j i (i :: items) B); [now right|now left]).
    assert (X := single_other e p nt a g (fst i) (snd i) (in_name j) B1 B2 N). assert (Y := single_other e p nt a fs (fst i) (snd i) (in_name j) B1 B2 N).
    fold (in_name i) in X, Y. rewrite X, Y. apply H. now right. }
  destruct (ops_single_file e p nt a fs (in_name i)) as [ops1 [|er|]] eqn:E1.
  - rewrite (IH _ _ Bt T). reflexivity.
  - assert (S1 := single_ops_outcome e p nt a fs (in_name i)). rewrite E1 in S1. cbn [snd] in S1.
    assert (S2 := single_ops_outcome e p nt a g (in_name i)). rewrite (ops_depend e p nt a fs g (in_name i)), E1 in S2 by congruence. cbn [snd] in S2.
    destruct (process_single_file e p nt a fs (in_name i)) as [f1 o1] eqn:P1. destruct (process_single_file e p nt a g (in_name i)) as [g1 o2] eqn:P2. cbn [snd fst] in *. subst o1 o2.
    assert (f1 = fs) as -> by exact (failed_unchanged _ _ _ _ _ _ _ _ P1). assert (g1 = g) as -> by exact (failed_unchanged _ _ _ _ _ _ _ _ P2).
    rewrite (ops_depend e p nt a fs g (in_name i)), E1 by congruence. reflexivity.
  - reflexivity.
Qed.

(** They are whole-file writes of outputs. *)
Lemma ops_dir_whole e p nt a : forall items fs, batch a items -> exists l, whole_files l (fst (ops_directory e p nt a fs (map in_name items))) /\
  (forall m, In m (map fst l) -> In m (map (out_name a) items)).
Proof.
  induction items as [|i items IH]; intros fs B; [exists []; split; [constructor|intros m []]|]. cbn [map ops_directory]. assert (Bt := batch_tail _ _ _ B). destruct (batch_head _ _ _ B) as (B1 & B2 & _).
  destruct (fs (in_name i)) as [b|] eqn:En; [|destruct (IH fs Bt) as (l & L1 & L2); exists l; split; [exact L1|intros m Hm; right; now apply L2]].
  assert (Sh := single_file_shape e p nt a fs (fst i) (snd i) B1 B2). cbv zeta in Sh. fold (out_ext a) in Sh. fold (in_name i) in Sh. fold (out_name a i) in Sh.
  assert (W1 : exists l1, whole_files l1 (fst (ops_single_file e p nt a fs (in_name i))) /\ (forall m, In m (map fst l1) -> m = out_name a i)).
  { destruct Sh as [-> |(_ & c & [-> | ->])]; [exists []; split; [constructor|intros m []]|exists [(out_name a i, c)]|exists [(out_name a i, wbro_header ++ c)]];
      (split; [apply wf_one || apply wf_one_wbro|intros m [<-|[]]; reflexivity]). }
  assert (S1 := single_ops_outcome e p nt a fs (in_name i)).
  destruct (ops_single_file e p nt a fs (in_name i)) as [ops1 [|er|]] eqn:E1; cbn [fst snd] in *; destruct W1 as (l1 & L1 & L2).
  - destruct (IH (fst (process_single_file e p nt a fs (in_name i))) Bt) as (l & M1 & M2). destruct (ops_directory _ _ _ _ _ _) as [ops2 o2]. cbn [fst] in *.
    exists (l1 ++ l). split; [now apply wf_app|]. intros m Hm. rewrite map_app, in_app_iff in Hm. destruct Hm as [Hm|Hm]; [left; symmetry; now apply L2|right; now apply M2].
  - destruct (process_single_file e p nt a fs (in_name i)) as [f1 o1] eqn:P1. cbn [fst snd] in *. subst o1. assert (f1 = fs) as -> by exact (failed_unchanged _ _ _ _ _ _ _ _ P1). rewrite E1. cbn [fst].
    exists (l1 ++ l1). split; [now apply wf_app|]. intros m Hm. rewrite map_app, in_app_iff in Hm. left. symmetry. apply L2. tauto.
  - exists l1. split; [exact L1|]. intros m Hm. left. symmetry. now apply L2.
Qed.

Lemma went_other e p nt a fs items final o m : batch a items -> process_directory e p nt a fs (map in_name items) = (final, o) -> ~ In m (map (out_name a) items) -> final m = fs m.
Proof.
  intros B H Hm. destruct (C73_directory e p nt a fs items final o B H) as (good & rest & -> & _ & W & _). apply W. intros i Hi _ ->. apply Hm. apply in_map, in_or_app. now left.
Qed.

Lemma stopped_congr ops : forall f g f', stopped ops f f' -> same_files f g -> exists g', stopped ops g g' /\ same_files f' g'.
Proof.
  intros f g f' H. revert g. induction H as [ops fs|n off b k rest fs|o rest fs fs' H IH]; intros g E.
  - exists g. split; [constructor|exact E].
  - exists (do_op g (WriteAt n off (firstn k b))). split; [constructor|]. cbn [do_op]. unfold content. rewrite (E n). now apply put_congr.
  - destruct (IH (do_op g o)) as (g' & G1 & G2); [exact (run_congr [o] _ _ E)|]. exists g'. split; [now constructor|exact G2].
Qed.

(** A run that is stopped anywhere, also within a write: the outputs of the files before that point are complete, the one at it is as before or
    a beginning of what it should become, those after it and all other files are as before. *)
Theorem C73_stopped : forall e p nt a fs items fs' final o, batch a items ->
  stopped (fst (ops_directory e p nt a fs (map in_name items))) fs fs' ->
  process_directory e p nt a fs (map in_name items) = (final, o) ->
  in_order (map (out_name a) items) fs fs' final.
Proof.
  intros e p nt a fs items. revert fs. induction items as [|i items IH]; intros fs fs' final o B Hs H.
  - cbn in Hs. inversion Hs; subst. split; [reflexivity|]. exists [], [], []. split; [reflexivity|]. split; [cbn; lia|]. split; [intros m []|]. split; intros m [].
  - assert (Bt := batch_tail _ _ _ B). destruct (batch_head _ _ _ B) as (B1 & B2 & _).
    assert (Ot : ~ In (out_name a i) (map (out_name a) items)).
    { intros C. apply in_map_iff in C. destruct C as (j & E & Hj). exact (outs_differ a i j items B Hj E). }
    cbn [map ops_directory process_directory] in *. destruct (fs (in_name i)) as [b|] eqn:En.
    + assert (S1 := single_ops_outcome e p nt a fs (in_name i)). assert (R := C64_operations e p nt a fs (in_name i)).
      assert (Shp := single_file_shape e p nt a fs (fst i) (snd i) B1 B2). cbv zeta in Shp. fold (out_ext a) in Shp. fold (in_name i) in Shp.
      assert (St := fun f' fin oo => C64_stopped e p nt a fs (fst i) (snd i) f' fin oo B1 B2). cbv zeta in St. fold (out_ext a) in St. fold (in_name i) in St. fold (out_name a i) in St.
      destruct (ops_single_file e p nt a fs (in_name i)) as [ops1 o1] eqn:E1. destruct (process_single_file e p nt a fs (in_name i)) as [fs1 o1'] eqn:P1. cbn [fst snd] in *. subst o1'.
      destruct R as [_ R]. cbn [fst] in R.
      assert (Ex : {o1 = Done} + {o1 <> Done}) by (destruct o1; [left; reflexivity|right; discriminate|right; discriminate]). destruct Ex as [-> |Ho].
      * assert (L : forall m, m <> out_name a i -> fs1 m = fs m).
        { intros m Hm. assert (X := single_other e p nt a fs (fst i) (snd i) m B1 B2 Hm). fold (in_name i) in X. rewrite P1 in X. exact X. }
        assert (Fi : final (out_name a i) = fs1 (out_name a i)) by exact (went_other e p nt a fs1 items final o _ Bt H Ot).
        destruct (ops_directory e p nt a fs1 (map in_name items)) as [ops2 o2] eqn:E2. cbn [fst] in Hs. destruct (stopped_app _ _ _ _ Hs) as [H1|H1].
        -- destruct (St fs' fs1 Done H1 eq_refl) as [A1 A2]. split; [intros m Hm; apply A1; intros ->; apply Hm; now left|]. destruct A2 as [A2|(_ & cut & whole & A2 & A3 & A4)].
           ++ exists [], [], (out_name a i :: map (out_name a) items). split; [reflexivity|]. split; [cbn; lia|]. split; [intros m []|]. split; [intros m []|]. intros m _. apply A2.
           ++ exists [], [out_name a i], (map (out_name a) items). split; [reflexivity|]. split; [cbn; lia|]. split; [intros m []|]. split.
              ** intros m [<-|[]]. exists cut, whole. split; [exact A2|]. split; [congruence|exact A4].
              ** intros m Hm. apply A1. intros ->. contradiction.
        -- destruct (stopped_congr _ _ _ _ H1 R) as (g' & G1 & G2). assert (I := IH fs1 g' final o Bt). rewrite E2 in I. destruct (I G1 H) as [C1 (dn & cu & la & Eq & Ln & D1 & D2 & D3)].
           split.
           ++ intros m Hm. cbn [In] in Hm. rewrite (G2 m), C1 by tauto. apply L. intros ->. tauto.
           ++ exists (out_name a i :: dn), cu, la. split; [cbn [app]; now rewrite Eq|]. split; [exact Ln|]. split.
              ** intros m [<-|Hm]; [|rewrite (G2 m); now apply D1]. rewrite (G2 _), C1 by exact Ot. now symmetry.
              ** split; [intros m Hm; rewrite (G2 m); now apply D2|]. intros m Hm. rewrite (G2 m), (D3 m Hm). apply L. intros ->. apply Ot. rewrite Eq, !in_app_iff. tauto.
      * assert (fs1 = fs) as -> by exact (not_done_unchanged _ _ _ _ _ _ _ _ P1 Ho).
        assert (Em : fs' = fs).
        { destruct Shp as [-> |(D & _)]; [|congruence]. destruct o1 as [|er|]; [congruence| |]; cbn in Hs.
          - rewrite E1 in Hs. cbn in Hs. inversion Hs; reflexivity.
          - inversion Hs; reflexivity. }
        subst fs'. split; [reflexivity|]. exists [], [], (out_name a i :: map (out_name a) items). split; [reflexivity|]. split; [cbn; lia|]. split; [intros m []|]. split; [intros m []|]. reflexivity.
    + destruct (IH fs fs' final o Bt Hs H) as [C1 (dn & cu & la & Eq & Ln & D1 & D2 & D3)]. split; [intros m Hm; apply C1; intros X; apply Hm; now right|].
      exists (out_name a i :: dn), cu, la. split; [cbn [app]; now rewrite Eq|]. split; [exact Ln|]. split; [|split; [exact D2|exact D3]].
      intros m [<-|Hm]; [|now apply D1]. rewrite C1 by exact Ot. symmetry. exact (went_other e p nt a fs items final o _ Bt H Ot).
Qed.
Print Assumptions C73_stopped.

(** Repeating the run over the same files gives what the undisturbed run gives. *)
Theorem C73_repeat : forall e p nt a fs items fs' final o, batch a items ->
  stopped (fst (ops_directory e p nt a fs (map in_name items))) fs fs' ->
  process_directory e p nt a fs (map in_name items) = (final, o) ->
  exists final', process_directory e p nt a fs' (map in_name items) = (final', o) /\ same_files final' final.
Proof.
  intros e p nt a fs items fs' final o B Hs H. destruct (ops_dir_whole e p nt a items fs B) as (l & L1 & L2).
  assert (Sm : forall m, ~ In m (map fst l) -> fs' m = fs m) by (intros m Hm; apply (stopped_other _ _ _ Hs); intros C; apply Hm; now apply (wf_targets _ _ L1)).
  assert (In1 : forall i, In i items -> fs' (in_name i) = fs (in_name i)).
  { intros i Hi. apply Sm. intros C. apply L2 in C. apply in_map_iff in C. destruct C as (j & E & Hj). symmetry in E. revert E. now apply (in_no_out a i j items). }
  assert (D := ops_dir_depend e p nt a items fs fs' B In1).
  destruct (C73_operations e p nt a fs (map in_name items)) as [R1 R2]. destruct (C73_operations e p nt a fs' (map in_name items)) as [R1' R2']. rewrite D in R1', R2'. rewrite H in R1, R2.
  destruct (process_directory e p nt a fs' (map in_name items)) as [final' o'] eqn:E. cbn [fst snd] in *. exists final'. split; [congruence|].
  eapply same_trans; [apply same_sym, R2'|]. eapply same_trans; [|exact R2]. apply (run_erases _ (map fst l)); [now apply (wf_created _ _ L1)|exact Sm].
Qed.
Print Assumptions C73_repeat.

(** But not a run over the directory as it then is: an x.wbro left short by an interrupted decompression makes every later decompression
    of the directory fail there, before whatever is listed after it. *)
Theorem C73_torn_output_blocks_refuted : forall e p nt a fs x bytes out, proper_stem x ->
  fs (named x ext_bro) = Some bytes -> bro_read bytes = RBro bytes -> decompress_data e p bytes = Ok out -> Z.of_nat (length out) <= 2 ^ 28 ->
  exists fs', stopped (fst (ops_directory e p nt (uncompressing a) fs [named x ext_bro])) fs fs' /\
    forall rest, process_directory e p nt (uncompressing a) fs' (named x ext_wbro :: rest) = (fs', Failed IoError).
Proof.
  intros e p nt a fs x bytes out Hx Hf Hr Hd Hl.
  destruct (C37_round_trip (Wrote (length wbro_header)) (Wrote 0) out Hl) as (content & E & _).
  exists (put fs (named x ext_wbro) []). split.
  - cbn [ops_directory]. rewrite Hf. unfold ops_single_file at 1. cbn [uncompressing a_uncompress]. rewrite Hf, Hr, Hd. unfold ops_wbro. rewrite E, set_ext_named by (exact Hx || exact proper_bro).
    cbn [fst app]. apply (stopped_later (Create (named x ext_wbro))). apply stopped_here.
  - intros rest. destruct (C41_uncompress_foreign e p nt (uncompressing a) (put fs (named x ext_wbro) []) (named x ext_wbro) [] rest eq_refl (put_same _ _ _)) as [_ F]. apply F. cbn. lia.
Qed.
Print Assumptions C73_torn_output_blocks_refuted.

(** * A concrete directory of two files *)
Definition w_y : name := [121].
Definition two_files : files := fun n => if text_eqb n (named w_y ext_wbro) then one_file (named w_x ext_wbro) else one_file n.
Example C73_example : forall e, batch rle_args [(w_x, ext_wbro); (w_y, ext_wbro)] /\
  snd (process_directory e Dev no_numbers rle_args two_files (map in_name [(w_x, ext_wbro); (w_y, ext_wbro)])) = Done /\
  match from_file (two_files (named w_y ext_wbro)) with Ok (WbSamples l) => map to_bits l = map to_bits three_samples | _ => False end.
Proof.
  intros e. split; [|split; vm_compute; reflexivity]. split; [cbn; repeat constructor; cbn; intuition discriminate|].
  apply Forall_cons; [split; [plain_stem|]; split; [apply proper_wbro|discriminate]|]. apply Forall_cons; [split; [plain_stem|]; split; [apply proper_wbro|discriminate]|]. apply Forall_nil.
Qed.
Example C73_example_round_trip : forall x, In x [w_x; w_y] -> exists data v, from_file (two_files (named x ext_wbro)) = Ok (WbSamples data) /\ In v data /\ finite v /\
  fits_counter Dev data /\ Z.of_nat (length data) <= 2 ^ 28.
Proof.
  intros x Hx. destruct C49_example as (data & v & _ & _ & _ & _ & _ & H1 & H2 & H3 & _ & H4 & H5 & _). exists data, v.
  assert (E : two_files (named x ext_wbro) = one_file (named w_x ext_wbro)) by (destruct Hx as [<-|[<-|[]]]; reflexivity). rewrite E. auto.
Qed.
