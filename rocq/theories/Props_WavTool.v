(** C88: wav2wbro from the words of the command line to the exit status, and the way of a recording through both tools. *)
From Coq Require Import List ZArith Reals Bool Lia String ZifyBool.
From Verif Require Import Base Model_Float Model_Bincode BincodeFacts Spec Spec_Metric FloatFacts Model_Wavbrro Props_Wavbrro Model_Csv Spec_Csv CsvFacts Model_Stream Model_Cli Model_Disk Model_Args Model_Command Spec_Args
  Model_Refusal Model_WavTool Props_Args Props_Cli Props_Fft Props_Pipeline Props_Stream Props_Csv Props_Crash Props_Csvc Props_Command Props_Wav Props_Refusal Props_Poly PolyLoopFacts.
Import ListNotations.
Open Scope Z_scope.
Local Open Scope string_scope.
Local Open Scope list_scope.
Local Open Scope Z_scope.

(** ** Vocabulary *)
(** The options: 0 --validate, 1 -h --help, 2 -V --version. *)
Definition wav_options : list opt_decl := [ Opt None (Some (txt "validate")) false; Opt (Some 104) (Some (txt "help")) false; Opt (Some 86) (Some (txt "version")) false ].
Record wav_means (uses : list occurrence) (ws : list text) (input : name) (validate : bool) : Prop := {
  wm_line : line wav_options uses ws;
  wm_once : each_once uses;
  wm_runs : ~ In (Flag 1) uses /\ ~ In (Flag 2) uses;
  wm_input : In (Input input) uses /\ input <> [];
  wm_validate : validate = true <-> In (Flag 0) uses }.
(** The file starts like a WAV file: RIFF, four bytes, WAVE. *)
Definition wav_marks (b : list Z) : Prop := (12 <= List.length b)%nat /\ firstn 4 b = txt "RIFF" /\ firstn 4 (skipn 8 b) = txt "WAVE".
(** The doubles recorded in a file: of one to four channels, each complete group of samples is a double; what the WAV library does not understand has
    none, and neither have files of other channel counts with at most four samples. *)
Definition recorded (decode : list Z -> option (nat * list Z)) (b : list Z) (data : list f64) : Prop :=
  (decode b = None /\ data = []) \/
  (exists c groups tail, decode b = Some (c, List.concat groups ++ tail) /\ (1 <= c <= 4)%nat /\ Forall (fun g => List.length g = c) groups /\ (List.length tail < c)%nat /\
     data = map (fun g => from_bits (little_endian g)) groups) \/
  (exists c samples, decode b = Some (c, samples) /\ (c = 0 \/ 4 < c)%nat /\ (List.length samples <= 4)%nat /\ data = []).

(** ** Words *)
Lemma wav_same : wav_decls = wav_options. Proof. reflexivity. Qed.
Lemma wav_table : table_ok wav_options.
Proof.
  rewrite <- wav_same. split; [|split; [|reflexivity]].
  - intros i d c H E. unfold wav_decls in H. cbn [nth_error] in H.
    do 3 (destruct i as [|i]; [injection H as <-; cbv in E; (discriminate E || (injection E as <-; reflexivity))|cbn [nth_error] in H]). destruct i; discriminate H.
  - intros i d n H E. unfold wav_decls in H. cbn [nth_error] in H.
    do 3 (destruct i as [|i]; [injection H as <-; cbn [od_long] in E; (discriminate E || (injection E as <-; split; [vm_compute; reflexivity|split; [vm_compute; intuition discriminate|discriminate]]))|cbn [nth_error] in H]). destruct i; discriminate H.
Qed.
Theorem C88_words ws n v : wav_parse ws = Some (n, v) <-> exists uses, wav_means uses ws n v.
Proof.
  split.
  - unfold wav_parse. rewrite wav_same. destruct (parse_words wav_options ws) as [os|] eqn:Ep; [|discriminate]. assert (L := parse_words_line wav_options wav_table (List.length ws) ws os (le_n _) Ep). assert (F := line_fits _ _ _ L).
    destruct (negb (at_most_once 3 os) || has_flag 1 os || has_flag 2 os) eqn:B; [discriminate|]. apply orb_false_elim in B. destruct B as [B B2]. apply orb_false_elim in B. destruct B as [B B1]. apply negb_false_iff in B.
    destruct (inputs os) as [|t [|t2 ts]] eqn:Ei; [discriminate| |discriminate].
    assert (N : each_once os /\ In (Input t) os) by (apply (once_iff wav_options); auto). destruct N as [N Ni].
    destruct t as [|t0 t]; [discriminate|]. intros H. injection H as <- <-. exists os. constructor.
    + exact L.
    + exact N.
    + split; [apply (flag_false wav_options os 1 _ F eq_refl eq_refl), B1|apply (flag_false wav_options os 2 _ F eq_refl eq_refl), B2].
    + split; [exact Ni|discriminate].
    + exact (has_flag_spec wav_options os 0 _ F eq_refl eq_refl).
  - intros [os [L N [R1 R2] [Ni Nn] F0]]. assert (F := line_fits _ _ _ L). unfold wav_parse. rewrite wav_same. rewrite (line_parse_words wav_options wav_table os ws L).
    destruct (proj2 (once_iff wav_options os n F) (conj N Ni)) as [B Ei]. change (List.length wav_options) with 3%nat in B. rewrite B, (proj2 (flag_false wav_options os 1 _ F eq_refl eq_refl) R1), (proj2 (flag_false wav_options os 2 _ F eq_refl eq_refl) R2), Ei. cbn [negb orb].
    destruct n as [|n0 n]; [congruence|]. do 2 f_equal. rewrite <- (has_flag_spec wav_options os 0 _ F eq_refl eq_refl) in F0. destruct v, (has_flag 0 os); intuition congruence.
Qed.
Print Assumptions C88_words.

(** ** What is read *)
Lemma groups_of (c : nat) : (1 <= c)%nat -> forall k l, (List.length l <= k)%nat -> exists groups tail, l = List.concat groups ++ tail /\ Forall (fun g : list Z => List.length g = c) groups /\ (List.length tail < c)%nat.
Proof.
  intros Hc. induction k as [|k IH]; intros l Hl; [exists [], l; repeat split; [constructor|lia]|].
  destruct (Nat.lt_ge_cases (List.length l) c) as [H|H]; [exists [], l; repeat split; [constructor|exact H]|].
  destruct (IH (skipn c l)) as (groups & tail & E & F & T); [rewrite skipn_length; lia|]. exists (firstn c l :: groups), tail. split; [|split; [constructor; [rewrite firstn_length; lia|exact F]|exact T]].
  cbn [List.concat]. rewrite <- app_assoc, <- E. symmetry. apply firstn_skipn.
Qed.
Lemma recorded_read decode b data : read_metrics_from_wav (decode b) = Ok data <-> recorded decode b data.
Proof.
  split.
  - destruct (decode b) as [[c samples]|] eqn:E; [|intros H; left; split; [exact E|cbn in H; now apply ok_inj in H]]. intros H. right.
    destruct (Nat.le_gt_cases 1 c) as [H1|H1]; [destruct (Nat.le_gt_cases c 4) as [H4|H4]|].
    + left. destruct (groups_of c H1 _ samples (le_n _)) as (groups & tail & -> & F & T). rewrite C43_channels in H by (auto; lia). apply ok_inj in H. exists c, groups, tail. auto 10.
    + right. exists c, samples. destruct (Nat.le_gt_cases (List.length samples) 4) as [Hs|Hs]; [|rewrite C43_more_channels_panic in H by lia; discriminate H]. split; [exact E|]. split; [lia|]. split; [exact Hs|].
      clear E. unfold read_metrics_from_wav in H. destruct samples as [|s0 [|s1 [|s2 [|s3 [|s4 r]]]]]; cbn [List.length] in Hs; try lia; cbn [read_wav set_nth option_map] in H;
        repeat match type of H with context [(?k =? c)%nat] => replace (k =? c)%nat with false in H by lia end; cbn [read_wav set_nth option_map] in H; now apply ok_inj in H.
    + right. exists c, samples. destruct (Nat.le_gt_cases (List.length samples) 4) as [Hs|Hs]; [|rewrite C43_more_channels_panic in H by lia; discriminate H]. split; [exact E|]. split; [lia|]. split; [exact Hs|].
      clear E. unfold read_metrics_from_wav in H. destruct samples as [|s0 [|s1 [|s2 [|s3 [|s4 r]]]]]; cbn [List.length] in Hs; try lia; cbn [read_wav set_nth option_map] in H;
        repeat match type of H with context [(?k =? c)%nat] => replace (k =? c)%nat with false in H by lia end; cbn [read_wav set_nth option_map] in H; now apply ok_inj in H.
  - intros [[-> ->]|[(c & groups & tail & -> & Hc & F & T & ->)|(c & samples & -> & Hc & Hs & ->)]]; [reflexivity|now apply C43_channels|].
    unfold read_metrics_from_wav. destruct samples as [|s0 [|s1 [|s2 [|s3 [|s4 r]]]]]; cbn [List.length] in Hs; try lia; cbn [read_wav set_nth option_map];
      repeat match goal with |- context [(?k =? c)%nat] => replace (k =? c)%nat with false by lia end; reflexivity.
Qed.
Lemma marks_read b : is_wav_file b = Some true <-> wav_marks b.
Proof.
  unfold is_wav_file, wav_marks. destruct (Nat.ltb_spec (List.length b) 12) as [H|H]; [split; [discriminate|intros [X _]; lia]|].
  destruct (list_eq_dec Z.eq_dec (firstn 4 b) mark_riff) as [E1|E1]; destruct (list_eq_dec Z.eq_dec (firstn 4 (skipn 8 b)) mark_wave) as [E2|E2]; cbn [andb]; (split; [intros X; try discriminate X|intros (_ & X1 & X2)]); auto; try (now elim E1); try (now elim E2).
Qed.
Lemma strip_spec n stem : strip_suffix n ext_wav = Some stem <-> n = stem ++ ext_wav.
Proof.
  unfold strip_suffix. split.
  - intros H. destruct (_ && _) eqn:B in H; [|discriminate H]. apply andb_prop in B. destruct B as [_ B]. apply text_eqb_spec in B. assert (E : firstn (List.length n - List.length ext_wav) n = stem) by congruence. subst stem. rewrite <- B at 2. symmetry. apply firstn_skipn.
  - intros ->. rewrite app_length. replace (List.length stem + List.length ext_wav - List.length ext_wav)%nat with (List.length stem) by lia.
    rewrite skipn_app, skipn_all, Nat.sub_diag, firstn_app, firstn_all, Nat.sub_diag. cbn [app firstn skipn]. rewrite (proj2 (text_eqb_spec _ _) eq_refl), app_nil_r.
    replace (_ <=? _)%nat with true by lia. reflexivity.
Qed.
Definition keep (data : list f64) : list f64 := filter (fun x => negb (fis_nan x)) data.
Lemma keep_length data : (List.length (keep data) <= List.length data)%nat.
Proof. unfold keep. induction data as [|y l IH]; cbn [filter List.length]; [lia|destruct (negb _); cbn [List.length]; lia]. Qed.
Lemma keep_all data : Forall not_nan data <-> keep data = data.
Proof.
  unfold keep. induction data as [|y l IH]; cbn [filter]; [split; auto|]. unfold not_nan in *. split.
  - intros V. inversion V; subst. rewrite H1. cbn [negb]. f_equal. now apply IH.
  - destruct (fis_nan y) eqn:E; cbn [negb]; intros H; [|constructor; [exact E|apply IH; congruence]]. exfalso. assert (L := keep_length l). unfold keep in L. apply (f_equal (@List.length f64)) in H. cbn [List.length] in H. lia.
Qed.
Lemma feq_keep data : feq_list data (keep data) = true <-> Forall not_nan data.
Proof.
  split.
  - intros Q. apply feq_list_length in Q. unfold keep in Q. induction data as [|y l IH]; [constructor|]. cbn [filter List.length] in Q. assert (L := keep_length l). unfold keep in L.
    destruct (fis_nan y) eqn:Ey; cbn [negb List.length] in Q; [lia|]. constructor; [exact Ey|]. apply IH. lia.
  - intros V. rewrite (proj1 (keep_all data) V). now apply feq_list_same.
Qed.
(** Adding the samples one by one. *)
Lemma wb_add_samples p w x w' : wb_add p w x = Ok w' -> wb_samples w' = wb_samples w ++ [x].
Proof.
  unfold wb_add. destruct (arith_u p 32 (wb_count w + 1)) as [c|]; [|discriminate]. cbn [bind]. set (chunks := if wb_full w then wb_chunks w ++ [[]] else wb_chunks w).
  assert (C : List.concat chunks = List.concat (wb_chunks w)) by (unfold chunks; destruct (wb_full w); [rewrite concat_app; cbn [List.concat app]; now rewrite app_nil_r|reflexivity]).
  destruct (rev chunks) as [|last r] eqn:E; [discriminate|]. intros H. apply ok_inj in H. subst w'. unfold wb_samples. cbn [wb_chunks]. rewrite <- C.
  assert (R : chunks = rev r ++ [last]) by (rewrite <- (rev_involutive chunks), E; reflexivity). rewrite R, removelast_last, !concat_app. cbn [List.concat]. rewrite !app_nil_r. now rewrite <- app_assoc.
Qed.
Lemma added_samples p data : forall w w', fold_res (add_unless_nan p) data w = Ok w' -> wb_samples w' = wb_samples w ++ keep data.
Proof.
  induction data as [|x data IH]; intros w w' H; cbn [fold_res keep filter] in *; [apply ok_inj in H; subst; now rewrite app_nil_r|]. unfold add_unless_nan in H at 1. destruct (fis_nan x); cbn [negb bind] in *.
  - now apply IH.
  - destruct (wb_add p w x) as [w1|] eqn:E; [|discriminate H]. cbn [bind] in H. rewrite (IH _ _ H), (wb_add_samples _ _ _ _ E), <- app_assoc. reflexivity.
Qed.

(** ** The command *)
Section Command.
Variable p : profile.
Variable decode : list Z -> option (nat * list Z).

(** Status 0 or 101. Only the output next to the input can change, and only if the input's name ends in wav. Status 0: the output holds the recorded
    doubles that are no NaN, in order, and the message is printed if and only if --validate was given. *)
Theorem C88_status ws fs n v fs' st told : wav_parse ws = Some (n, v) -> wav_command p decode ws fs = (fs', st, told) ->
  (st = Some 0 \/ st = Some 101) /\
  (forall stem, n = stem ++ txt "wav" -> only_changes (stem ++ txt "wbro") fs fs') /\
  ((forall stem, n <> stem ++ txt "wav") -> st = Some 101 /\ unchanged fs fs') /\
  (st = Some 0 -> told = v /\ exists stem b data kept, n = stem ++ txt "wav" /\ fs n = Some b /\ wav_marks b /\ recorded decode b data /\ subsequence_of not_nan data kept /\
     (v = true -> kept = data) /\ (Z.of_nat (List.length data) <= 2 ^ 28 -> from_file (fs' (stem ++ txt "wbro")) = Ok (WbSamples kept))).
Proof.
  intros Hp H. unfold wav_command in H. rewrite Hp in H. unfold wav2wbro_main in H.
  assert (Bad : (fs, Some (status_of Panicked), false) = (fs', st, told) -> (st = Some 0 \/ st = Some 101) /\ (forall stem, n = stem ++ txt "wav" -> only_changes (stem ++ txt "wbro") fs fs') /\
    ((forall stem, n <> stem ++ txt "wav") -> st = Some 101 /\ unchanged fs fs') /\
    (st = Some 0 -> told = v /\ exists stem b data kept, n = stem ++ txt "wav" /\ fs n = Some b /\ wav_marks b /\ recorded decode b data /\ subsequence_of not_nan data kept /\
      (v = true -> kept = data) /\ (Z.of_nat (List.length data) <= 2 ^ 28 -> from_file (fs' (stem ++ txt "wbro")) = Ok (WbSamples kept)))).
  { intros X. assert (fs = fs' /\ st = Some 101) as [<- ->] by (cbn [status_of] in X; split; congruence). split; [auto|]. split; [intros stem _ m _; reflexivity|]. split; [intros _; split; [reflexivity|intros m; reflexivity]|discriminate]. }
  destruct (fs n) as [b|] eqn:Ei; [|now apply Bad]. destruct (is_wav_file b) as [[|]|] eqn:Em; [|now apply Bad|now apply Bad].
  destruct (read_metrics_from_wav (decode b)) as [data|] eqn:Er; cbn [bind] in H; [|now apply Bad]. destruct (fold_res (add_unless_nan p) data wb_new) as [w|] eqn:Ew; cbn [bind] in H; [|now apply Bad].
  destruct (strip_suffix n ext_wav) as [stem|] eqn:Es; [|now apply Bad]. apply strip_spec in Es.
  assert (St : forall s, n = s ++ txt "wav" -> s = stem) by (intros s Hs; rewrite Es in Hs; change (txt "wav") with ext_wav in Hs; now apply app_inv_tail in Hs).
  assert (K : wb_samples w = keep data) by (rewrite (added_samples _ _ _ _ Ew); reflexivity). rewrite K in H. change ext_wbro with (txt "wbro") in H.
  destruct (put_wbro fs (stem ++ txt "wbro") w) as [fs1 o] eqn:Ep.
  assert (O : only_changes (stem ++ txt "wbro") fs fs1) by (unfold put_wbro in Ep; destruct (do c <- wb_to_bytes w; wbro_file c); assert (Y := f_equal fst Ep); cbn [fst] in Y; subst fs1; intros m Hm; [now apply put_other|reflexivity]).
  assert (E1 : fs' = fs1) by (destruct o, v; try (destruct (feq_list data (keep data))); congruence). subst fs1.
  split; [destruct o; [| |]; try (destruct v; [destruct (feq_list data (keep data))|]); cbn [status_of] in H; try (left; congruence); try (right; congruence); exfalso; unfold put_wbro in Ep; destruct (do c <- wb_to_bytes w; wbro_file c); discriminate Ep|].
  split; [intros s Hs; now rewrite (St s Hs)|]. split; [intros X; now elim (X stem)|]. intros Hz.
  assert (Od : o = Done) by (destruct o; [reflexivity|exfalso; cbn [status_of] in H; congruence|exfalso; cbn [status_of] in H; congruence]). subst o.
  assert (V : told = v /\ (v = true -> Forall not_nan data)).
  { destruct v; [|split; [congruence|discriminate]]. destruct (feq_list data (keep data)) eqn:Q; [|cbn [status_of] in H; exfalso; congruence]. split; [congruence|]. intros _. now apply feq_keep. }
  destruct V as [V1 V2]. split; [exact V1|]. exists stem, b, data, (keep data). split; [exact Es|]. split; [reflexivity|]. split; [now apply marks_read|]. split; [now apply recorded_read|]. split; [apply filter_subsequence|].
  split; [intros X; apply keep_all; auto|]. intros Hl. rewrite add_unless_nan_filter in Ew. assert (L := keep_length data). destruct (put_wbro_object p fs (stem ++ txt "wbro") (keep data) w ltac:(lia) Ew) as (_ & file & P & F).
  rewrite P in Ep. assert (Y := f_equal fst Ep). cbn [fst] in Y. subst fs'. rewrite put_same. exact F.
Qed.

(** Whatever starts like a WAV file is converted, with status 0 unless --validate meets a NaN. *)
Theorem C88_converts ws fs stem v b data : wav_parse ws = Some (stem ++ txt "wav", v) -> fs (stem ++ txt "wav") = Some b -> wav_marks b -> recorded decode b data -> Z.of_nat (List.length data) <= 2 ^ 28 ->
  exists fs' kept, subsequence_of not_nan data kept /\ from_file (fs' (stem ++ txt "wbro")) = Ok (WbSamples kept) /\ only_changes (stem ++ txt "wbro") fs fs' /\
    ((v = false \/ Forall not_nan data) -> wav_command p decode ws fs = (fs', Some 0, v)) /\
    (v = true -> ~ Forall not_nan data -> wav_command p decode ws fs = (fs', Some 101, false)).
Proof.
  intros Hp Hi Hm Hr Hl. unfold wav_command. rewrite Hp. unfold wav2wbro_main. rewrite Hi, (proj2 (marks_read b) Hm), (proj2 (recorded_read decode b data) Hr). cbn [bind]. rewrite add_unless_nan_filter. fold (keep data). assert (L := keep_length data).
  destruct (C36_accumulates p (keep data) ltac:(lia)) as (w & E & _). rewrite <- fold_add_all in E. rewrite E. cbn [bind]. rewrite (proj2 (strip_spec (stem ++ txt "wav") stem) eq_refl).
  destruct (put_wbro_object p fs (stem ++ ext_wbro) (keep data) w ltac:(lia) E) as (Ws & file & P & F). rewrite P, Ws. change ext_wbro with (txt "wbro").
  exists (put fs (stem ++ txt "wbro") file), (keep data). split; [apply filter_subsequence|]. split; [rewrite put_same; exact F|]. split; [intros m Hm'; now apply put_other|]. split.
  - intros X. destruct v; [|reflexivity]. destruct X as [X|X]; [discriminate X|]. now rewrite (proj2 (feq_keep data) X).
  - intros -> X. destruct (feq_list data (keep data)) eqn:Q; [elim X; now apply feq_keep|reflexivity].
Qed.

(** The message that the data does not match is printed only when it does. *)
Theorem C88_mismatch_message_refuted ws fs fs' st : wav_command p decode ws fs = (fs', st, true) ->
  st = Some 0 /\ exists stem b data, fs (stem ++ txt "wav") = Some b /\ recorded decode b data /\ (Z.of_nat (List.length data) <= 2 ^ 28 -> from_file (fs' (stem ++ txt "wbro")) = Ok (WbSamples data)).
Proof.
  intros H. destruct (wav_parse ws) as [[n v]|] eqn:Hp; [|unfold wav_command in H; rewrite Hp in H; discriminate H]. destruct (C88_status ws fs n v fs' st true Hp H) as (S1 & _ & _ & S4).
  assert (Hz : st = Some 0).
  { clear S1 S4. unfold wav_command in H. rewrite Hp in H. unfold wav2wbro_main in H. destruct (fs n) as [b|]; [|discriminate H]. destruct (is_wav_file b) as [[|]|]; [|discriminate H|discriminate H].
    destruct (do data <- read_metrics_from_wav (decode b); do w <- fold_res (add_unless_nan p) data wb_new; Ok (data, w)) as [[data w]|]; [|discriminate H]. destruct (strip_suffix n ext_wav) as [stem|]; [|discriminate H].
    destruct (put_wbro fs (stem ++ ext_wbro) w) as [fs1 o]. destruct o; [|discriminate H|discriminate H]. destruct v; [|discriminate H]. destruct (feq_list data (wb_samples w)); [|discriminate H]. cbn [status_of] in H. congruence. }
  split; [exact Hz|]. destruct (S4 Hz) as (<- & stem & b & data & kept & -> & Hi & _ & Hr & _ & Hk & Hf). exists stem, b, data. split; [exact Hi|]. split; [exact Hr|]. specialize (Hk eq_refl). subst kept. exact Hf.
Qed.

(** ** A disk that refuses *)
Theorem C88_no_refusal ws fs : exists fs', refusing_wav_command p decode ReadsAll ws fs [] = (fs', snd (fst (wav_command p decode ws fs)), snd (wav_command p decode ws fs)) /\ same_files fs' (fst (fst (wav_command p decode ws fs))).
Proof.
  unfold refusing_wav_command, wav_command. destruct (wav_parse ws) as [[n v]|]; [|exists fs; split; [reflexivity|apply same_files_refl]]. unfold refusing_wav, wav2wbro_main. cbn [read_whole metrics_read].
  assert (Bad : exists fs', (fs, Some (status_of Panicked), false) = (fs', Some (status_of Panicked), false) /\ same_files fs' fs) by (exists fs; split; [reflexivity|apply same_files_refl]).
  destruct (fs n) as [b|]; [|exact Bad]. destruct (is_wav_file b) as [[|]|]; [|exact Bad|exact Bad].
  destruct (do data <- read_metrics_from_wav (decode b); do w <- fold_res (add_unless_nan p) data wb_new; Ok (data, w)) as [[data w]|]; [|exact Bad]. destruct (strip_suffix n ext_wav) as [stem|]; [|exact Bad].
  destruct (refusing_wbro_none fs (stem ++ ext_wbro) w) as (fs1 & E & R). rewrite E. destruct (put_wbro fs (stem ++ ext_wbro) w) as [g o]. cbn [fst snd] in *.
  destruct o; [destruct v; [destruct (feq_list data (wb_samples w))|]| |]; exists fs1; split; try reflexivity; exact R.
Qed.

(** Whatever the disk answers: status 0 or 101, and only the output can change; with status 0 and no write answered short, if the WAV library could read
    the file, everything is as on a disk that never refuses. *)
Theorem C88_refused how ws fs n v os fs' st told : wav_parse ws = Some (n, v) -> refusing_wav_command p decode how ws fs os = (fs', st, told) ->
  (st = Some 0 \/ st = Some 101) /\ (forall m, (forall stem, n = stem ++ txt "wav" -> m <> stem ++ txt "wbro") -> fs' m = fs m) /\
  (st = Some 0 -> how = ReadsAll -> no_part os -> exists final, wav_command p decode ws fs = (final, Some 0, told) /\ same_files fs' final).
Proof.
  intros Hp H. unfold refusing_wav_command in H. unfold wav_command. rewrite Hp in *. unfold refusing_wav in H. unfold wav2wbro_main.
  destruct (read_whole (fs n) os) as [file os1] eqn:E0. destruct (read_whole_cases _ _ _ _ E0) as [C0 P0].
  assert (Bad : (fs, Some (status_of Panicked), false) = (fs', st, told) -> forall X : Prop, (st = Some 0 \/ st = Some 101) /\ (forall m, (forall stem, n = stem ++ txt "wav" -> m <> stem ++ txt "wbro") -> fs' m = fs m) /\ (st = Some 0 -> X)).
  { intros E X. assert (fs = fs' /\ st = Some 101) as [<- ->] by (cbn [status_of] in E; split; congruence). split; [auto|]. split; [reflexivity|discriminate]. }
  destruct file as [b|]; [|apply (Bad H)]. destruct C0 as [C0|C0]; [|discriminate C0]. rewrite <- C0. destruct (is_wav_file b) as [[|]|]; [|apply (Bad H)|apply (Bad H)].
  destruct (metrics_read decode how b) as [data|] eqn:Er; cbn [bind] in H; [|apply (Bad H)]. destruct (fold_res (add_unless_nan p) data wb_new) as [w|] eqn:Ew; cbn [bind] in H; [|apply (Bad H)].
  destruct (strip_suffix n ext_wav) as [stem|] eqn:Es; [|apply (Bad H)]. apply strip_spec in Es.
  destruct (refusing_wbro fs (stem ++ ext_wbro) w os1) as [[fs1 os2] o] eqn:Ef. assert (C := refusing_wbro_cases _ _ _ _ _ _ _ Ef).
  destruct C as (C1 & _ & C2 & C3 & C4). assert (E1 : fs' = fs1) by (destruct o, v; try (destruct (feq_list data (wb_samples w))); congruence). subst fs1.
  split; [destruct C2 as [-> | ->]; [destruct v; [destruct (feq_list data (wb_samples w))|]|]; cbn [status_of] in H; try (left; congruence); right; congruence|].
  split; [intros m Hm; apply C1; now apply Hm|]. intros Hz -> Hn.
  assert (Od : o = Done) by (destruct C2 as [-> | ->]; [reflexivity|exfalso; cbn [status_of] in H; congruence]). subst o. cbn [metrics_read] in Er. rewrite Er. cbn [bind]. rewrite Ew. cbn [bind].
  specialize (C3 eq_refl). specialize (C4 (P0 Hn) eq_refl). destruct (put_wbro fs (stem ++ ext_wbro) w) as [g o]. cbn [fst snd] in *. subst o.
  destruct v; [destruct (feq_list data (wb_samples w))|]; exists g; (split; [cbn [status_of] in *; congruence|exact C4]).
Qed.

(** If the WAV library cannot open the file or read its header, a call without --validate (or with) ends well and leaves an empty series, whatever was
    recorded and whatever the output was before. *)
Theorem C88_unopened_refuted ws fs stem v b : wav_parse ws = Some (stem ++ txt "wav", v) -> fs (stem ++ txt "wav") = Some b -> wav_marks b ->
  exists fs', refusing_wav_command p decode NotOpened ws fs [] = (fs', Some 0, v) /\ from_file (fs' (stem ++ txt "wbro")) = Ok (WbSamples []).
Proof.
  intros Hp Hi Hm. unfold refusing_wav_command. rewrite Hp. unfold refusing_wav. cbn [read_whole]. rewrite Hi, (proj2 (marks_read b) Hm). cbn [metrics_read read_metrics_from_wav bind fold_res]. rewrite (proj2 (strip_spec (stem ++ txt "wav") stem) eq_refl).
  destruct (refusing_wbro_none fs (stem ++ ext_wbro) wb_new) as (fs1 & E & R). rewrite E. destruct (put_wbro_object p fs (stem ++ ext_wbro) [] wb_new ltac:(cbn; lia) eq_refl) as (Ws & file & P & F). rewrite P in *. cbn [fst snd] in *. rewrite Ws. cbn [feq_list].
  exists fs1. split; [destruct v; reflexivity|]. rewrite (R (stem ++ txt "wbro")). change (txt "wbro") with ext_wbro. rewrite put_same. exact F.
Qed.
End Command.
Print Assumptions C88_status.
Print Assumptions C88_converts.
Print Assumptions C88_mismatch_message_refuted.
Print Assumptions C88_no_refusal.
Print Assumptions C88_refused.
Print Assumptions C88_unopened_refuted.

(** ** From the recording to the uncompressed series *)
Lemma subsequence_in P data kept x : subsequence_of P data kept -> In x kept -> In x data /\ P x.
Proof. induction 1 as [|y l s Hy S IH|y l s Hy S IH]; cbn [In]; [tauto| |]; intros H; [destruct H as [<-|H]; [auto|]|]; destruct (IH H); auto. Qed.
Lemma subsequence_has P data kept x : subsequence_of P data kept -> In x data -> P x -> In x kept.
Proof. induction 1 as [|y l s Hy S IH|y l s Hy S IH]; cbn [In]; [tauto| |]; intros [->|H] Hx; auto. contradiction. Qed.
Lemma finite_not_nan x : finite x -> not_nan x.
Proof. unfold finite, not_nan. destruct x; cbn; congruence. Qed.
Lemma subsequence_twice data kept cleaned : subsequence_of not_nan data kept -> subsequence_of finite kept cleaned -> subsequence_of finite data cleaned.
Proof.
  intros H. revert cleaned. induction H as [|y l s Hy S IH|y l s Hy S IH]; intros cleaned C; [exact C| |].
  - inversion C; subst; constructor; auto.
  - apply sub_drop; [|now apply IH]. intros Hf. apply Hy. now apply finite_not_nan.
Qed.
Lemma wav_alone n : undashed n -> n <> [] -> wav_parse [n] = Some (n, false).
Proof.
  intros U N. apply C88_words. exists [Input n]. constructor.
  - apply line_input; [exact U|constructor].
  - repeat constructor. intros [].
  - split; intros [H|[]]; discriminate H.
  - split; [now left|exact N].
  - split; [discriminate|intros [H|[]]; discriminate H].
Qed.
(** [wav2wbro x.wav], [atsc x.wbro], [atsc -u x.bro]: all three end with status 0, and x.wbro holds the finite doubles recorded in x.wav, chunk by chunk nearly
    equal or within 6/5 of 3 percent; x.wav is unchanged. *)
Theorem C88_session e p nt decode fs sp x b data v :
  env_ok e -> proper_stem x -> hd_error x <> Some 45 -> fs (named x (txt "wav")) = Some b -> wav_marks b -> recorded decode b data -> In v data -> finite v ->
  Forall (fun x => finite x -> supported x /\ no_negative_zero x) data -> Z.of_nat (List.length data) < 247 * 131072 ->
  exists fs1 fs2 fs3 outs chunks cleaned,
    wav_command p decode [named x (txt "wav")] fs = (fs1, Some 0, false) /\ atsc_command e p nt [named x (txt "wbro")] fs1 sp = (fs2, Some 0) /\ atsc_command e p nt [txt "-u"; named x (txt "bro")] fs2 sp = (fs3, Some 0) /\
    (forall m, m <> named x (txt "bro") -> m <> named x (txt "wbro") -> fs3 m = fs m) /\
    from_file (fs3 (named x (txt "wbro"))) = Ok (WbSamples (List.concat outs)) /\
    subsequence_of finite data cleaned /\ List.concat chunks = cleaned /\
    Forall2 (fun chunk out => nearly_equal chunk out \/ relative_error_within (6 / 5 * (3 / 100 + / 1000000)) chunk out) chunks outs.
Proof.
  intros He Hx Hd Hi Hm Hr Hv Fv Hs Hl. assert (Nx : x <> []) by (destruct Hx as (d & f & -> & _ & Hn & _); destruct d, f; congruence || discriminate).
  destruct (undashed_named x ext_wav Nx Hd) as [U1 N1]. assert (Nm : forall ex, named x ex = (x ++ [46]) ++ ex) by (intros; unfold named; now rewrite <- app_assoc).
  assert (P := wav_alone _ U1 N1). change ext_wav with (txt "wav") in P. rewrite Nm in P, Hi.
  destruct (C88_converts p decode _ fs (x ++ [46]) false b data P Hi Hm Hr ltac:(lia)) as (fs1 & kept & Sub & F1 & O1 & C & _). specialize (C (or_introl eq_refl)). rewrite <- Nm in *.
  assert (Lk : (List.length kept <= List.length data)%nat) by (clear - Sub; induction Sub; cbn [List.length]; lia).
  destruct (C81_default_session e p nt fs1 sp x kept v He Hx Hd F1 (subsequence_has _ _ _ _ Sub Hv (finite_not_nan _ Fv)) Fv) as (fs2 & fs3 & outs & chunks & cleaned & A1 & A2 & A3 & A4 & A5 & A6 & A7).
  - rewrite Forall_forall in *. intros y Hy. apply Hs. now apply (subsequence_in _ _ _ _ Sub).
  - apply fits_small. lia.
  - lia.
  - exists fs1, fs2, fs3, outs, chunks, cleaned. split; [exact C|]. split; [exact A1|]. split; [exact A2|]. split; [intros m Hm1 Hm2; rewrite (A3 m Hm1 Hm2); now apply O1|]. split; [exact A4|].
    split; [now apply (subsequence_twice data kept)|]. split; [exact A6|exact A7].
Qed.
Print Assumptions C88_session.

(** The hypotheses are met: x.wav with a NaN, 1.5 and an infinity in four channels (C43), and one with 2 alone. *)
Definition two_words : list text := [txt "--validate"; txt "x.wav"].
Definition only_wav : files := fun n => if text_eqb n (txt "x.wav") then Some wav_bytes else None.
Definition nan_decode : list Z -> option (nat * list Z) := fun _ => Some (4%nat, flat_map words_of wav_data).
Definition fine_decode : list Z -> option (nat * list Z) := fun _ => Some (4%nat, [0; 0; 0; 16384; 7]).
Example C88_applies : wav_parse two_words = Some (txt "x" ++ txt "." ++ txt "wav", true) /\ wav_parse [txt "-h"] = None /\ wav_parse [txt "x.wav"; txt "y.wav"] = None /\
  only_wav (txt "x.wav") = Some wav_bytes /\ wav_marks wav_bytes /\ recorded nan_decode wav_bytes wav_data /\ ~ Forall not_nan wav_data /\
  recorded fine_decode wav_bytes [int_as_f64 2] /\
  snd (fst (wav_command Dev nan_decode two_words only_wav)) = Some 101 /\ wav_command Dev fine_decode two_words only_wav = (fst (fst (wav_command Dev fine_decode two_words only_wav)), Some 0, true) /\
  finite (int_as_f64 2) /\ supported (int_as_f64 2) /\ no_negative_zero (int_as_f64 2).
Proof.
  split; [reflexivity|]. split; [reflexivity|]. split; [reflexivity|]. split; [reflexivity|]. split; [unfold wav_marks; split; [cbn; lia|split; reflexivity]|].
  split; [apply recorded_read; exact (C43_split_join wav_data)|]. split; [apply C43_example|].
  split. { right. left. exists 4%nat, [[0; 0; 0; 16384]], [7]. split; [reflexivity|]. split; [lia|]. split; [repeat constructor|]. split; [cbn; lia|]. cbn [map]. f_equal. apply to_bits_inj. vm_compute. reflexivity. }
  split; [vm_compute; reflexivity|]. split.
  { assert (E : snd (fst (wav_command Dev fine_decode two_words only_wav)) = Some 0) by (vm_compute; reflexivity). assert (T : snd (wav_command Dev fine_decode two_words only_wav) = true) by (vm_compute; reflexivity).
    destruct (wav_command Dev fine_decode two_words only_wav) as [[g st] t]. cbn [fst snd] in *. congruence. }
  split; [vm_compute; reflexivity|]. split; [apply supported_int; lia|]. intros C. apply (f_equal to_bits) in C. vm_compute in C. discriminate C.
Qed.
