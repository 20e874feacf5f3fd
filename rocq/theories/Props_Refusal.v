(** C86: the tools on a disk that refuses, runs full or answers short. *)
From Coq Require Import List ZArith Bool Lia.
From Verif Require Import Base Model_Float Model_Bincode Spec Model_Vsri Model_Wavbrro Props_Wavbrro Model_Csv Model_Stream Model_Cli Model_Disk Model_Args Model_Command Model_Refusal
  CsvFacts Props_Cli Props_Fft Props_Pipeline Props_Stream Props_Csv Props_Crash Props_Csvc.
Import ListNotations.
Open Scope Z_scope.

(** ** The calls *)
(** No write is answered short: every call is carried out, interrupted or refused. *)
Definition no_part (os : answers) : Prop := forall k, ~ In (Part k) os.
Lemma no_part_tail o os : no_part (o :: os) -> no_part os.
Proof. intros H k Hk. apply (H k). now right. Qed.

Lemma same_files_refl fs : same_files fs fs. Proof. intros m. reflexivity. Qed.
Lemma put_self fs n c : fs n = Some c -> same_files (put fs n c) fs.
Proof. intros H m. unfold put. destruct (text_eqb m n) eqn:E; [|reflexivity]. apply text_eqb_spec in E. subst m. now symmetry. Qed.
Lemma content_at fs n c : fs n = Some c -> content fs n = c. Proof. intros H. unfold content. now rewrite H. Qed.
Lemma content_same fs fs' n : same_files fs fs' -> content fs n = content fs' n. Proof. intros H. unfold content. now rewrite (H n). Qed.

Lemma read_whole_cases file : forall os f os', read_whole file os = (f, os') -> (f = file \/ f = None) /\ (no_part os -> no_part os').
Proof.
  induction os as [|[| | |] os IH]; intros f os' H; cbn [read_whole] in H.
  - assert (f = file) by congruence. assert (os' = []) by congruence. subst. auto.
  - assert (f = file) by congruence. assert (os' = os) by congruence. subst. split; [auto|]. apply no_part_tail.
  - destruct (IH f os' H) as [I1 I2]. split; [exact I1|]. intros N. apply I2, (no_part_tail _ _ N).
  - destruct (IH f os' H) as [I1 I2]. split; [exact I1|]. intros N. apply I2, (no_part_tail _ _ N).
  - assert (f = None) by congruence. assert (os' = os) by congruence. subst. split; [auto|]. apply no_part_tail.
Qed.
Lemma read_csv_cases file : forall os f os', read_csv_whole file os = (f, os') -> (f = file \/ f = None) /\ (no_part os -> no_part os').
Proof.
  induction os as [|[| | |] os IH]; intros f os' H; cbn [read_csv_whole] in H.
  - assert (f = file) by congruence. assert (os' = []) by congruence. subst. auto.
  - assert (f = file) by congruence. assert (os' = os) by congruence. subst. split; [auto|]. apply no_part_tail.
  - destruct (IH f os' H) as [I1 I2]. split; [exact I1|]. intros N. apply I2, (no_part_tail _ _ N).
  - assert (f = None) by congruence. assert (os' = os) by congruence. subst. split; [auto|]. apply no_part_tail.
  - assert (f = None) by congruence. assert (os' = os) by congruence. subst. split; [auto|]. apply no_part_tail.
Qed.
Lemma create_cases fs n : forall os fs' os' ok, create_file fs n os = (fs', os', ok) ->
  (ok = true /\ fs' = put fs n [] \/ ok = false /\ fs' = fs) /\ (no_part os -> no_part os').
Proof.
  induction os as [|[| | |] os IH]; intros fs' os' ok H; cbn [create_file] in H;
    try (assert (Ha : fs' = put fs n []) by congruence; assert (Hb : ok = true) by congruence; split; [left; auto|]).
  - assert (os' = []) by congruence. subst. auto.
  - assert (os' = os) by congruence. subst. apply no_part_tail.
  - assert (os' = os) by congruence. subst. apply no_part_tail.
  - destruct (IH _ _ _ H) as [I1 I2]. split; [exact I1|]. intros N. apply I2, (no_part_tail _ _ N).
  - assert (fs' = fs) by congruence. assert (ok = false) by congruence. assert (os' = os) by congruence. subst. split; [right; auto|apply no_part_tail].
Qed.
Lemma firstn_split : forall (l : list Z) q j, firstn (Nat.min q (length l) + j) l = firstn q l ++ firstn j (skipn q l).
Proof.
  induction l as [|x l IH]; intros [|q] j; cbn [length Nat.min Nat.add firstn skipn app]; try reflexivity; try (now rewrite !firstn_nil). now rewrite IH.
Qed.
Lemma write_all_cases n : forall os fs c b fs' os' ok, fs n = Some c -> write_all fs n b os = (fs', os', ok) ->
  (exists k, (k <= length b)%nat /\ same_files fs' (put fs n (c ++ firstn k b)) /\ (ok = true -> k = length b)) /\ (no_part os -> no_part os').
Proof.
  induction os as [|o os IH]; intros fs c b fs' os' ok Hc H; destruct b as [|b0 b].
  - cbn [write_all] in H. assert (fs' = fs) by congruence. assert (os' = []) by congruence. subst. split; [|auto]. exists 0%nat. cbn [firstn length]. rewrite app_nil_r.
    split; [lia|]. split; [|auto]. intros m. symmetry. now apply put_self.
  - cbn [write_all] in H. rewrite (content_at _ _ _ Hc) in H. assert (fs' = put fs n (c ++ b0 :: b)) by congruence. assert (os' = []) by congruence. subst. split; [|auto].
    exists (length (b0 :: b)). rewrite firstn_all. split; [lia|]. split; [apply same_files_refl|auto].
  - cbn [write_all] in H. assert (fs' = fs) by congruence. assert (os' = o :: os) by congruence. subst. split; [|auto]. exists 0%nat. cbn [firstn length]. rewrite app_nil_r.
    split; [lia|]. split; [|auto]. intros m. symmetry. now apply put_self.
  - cbn [write_all] in H. rewrite (content_at _ _ _ Hc) in H.
    assert (Stop : (fs, os, false) = (fs', os', ok) -> (exists k, (k <= length (b0 :: b))%nat /\ same_files fs' (put fs n (c ++ firstn k (b0 :: b))) /\ (ok = true -> k = length (b0 :: b))) /\ (no_part (o :: os) -> no_part os')).
    { intros E. assert (fs' = fs) by congruence. assert (os' = os) by congruence. assert (ok = false) by congruence. subst. split; [|apply no_part_tail].
      exists 0%nat. cbn [firstn]. rewrite app_nil_r. split; [lia|]. split; [|discriminate]. intros m. symmetry. now apply put_self. }
    destruct o as [|k| |]; [| | |exact (Stop H)].
    + assert (fs' = put fs n (c ++ b0 :: b)) by congruence. assert (os' = os) by congruence. subst. split; [|apply no_part_tail].
      exists (length (b0 :: b)). rewrite firstn_all. split; [lia|]. split; [apply same_files_refl|auto].
    + destruct k as [|k]; [exact (Stop H)|]. set (q := S k) in *. clearbody q.
      destruct (IH _ (c ++ firstn q (b0 :: b)) _ _ _ _ (put_same _ _ _) H) as [(j & J1 & J2 & J3) I2]. split; [|intros N; apply I2, (no_part_tail _ _ N)].
      rewrite skipn_length in *. exists (Nat.min q (length (b0 :: b)) + j)%nat. split; [lia|]. split; [|intros Hok; specialize (J3 Hok); lia].
      eapply same_trans; [exact J2|]. eapply same_trans; [apply put_put|]. rewrite <- app_assoc.
      rewrite firstn_split. apply same_files_refl.
    + destruct (IH _ c _ _ _ _ Hc H) as [I1 I2]. split; [exact I1|]. intros N. apply I2, (no_part_tail _ _ N).
Qed.
Lemma write_file_cases fs n b os fs' os' ok : write_file fs n b os = (fs', os', ok) ->
  (ok = false /\ same_files fs' fs \/ exists k, (k <= length b)%nat /\ same_files fs' (put fs n (firstn k b)) /\ (ok = true -> k = length b)) /\ (no_part os -> no_part os').
Proof.
  unfold write_file. destruct (create_file fs n os) as [[fs1 os1] ok1] eqn:E1. destruct (create_cases _ _ _ _ _ _ E1) as [[[-> ->]|[-> ->]] N1]; intros H.
  - destruct (write_all_cases n _ _ _ _ _ _ _ (put_same _ _ _) H) as [(k & K1 & K2 & K3) N2]. split; [|auto]. right. exists k. split; [exact K1|]. split; [|exact K3].
    eapply same_trans; [exact K2|]. apply put_put.
  - assert (fs' = fs) by congruence. assert (ok = false) by congruence. assert (os' = os1) by congruence. subst. split; [|auto]. left. split; [reflexivity|apply same_files_refl].
Qed.
(** The whole content of a .wbro file. *)
Lemma write_wbro_cases fs n b os fs' os' ok : write_wbro_file fs n b os = (fs', os', ok) ->
  (forall m, m <> n -> fs' m = fs m) /\ (no_part os -> no_part os') /\ (no_part os -> ok = true -> same_files fs' (put fs n (wbro_header ++ b))).
Proof.
  unfold write_wbro_file. destruct (create_file fs n os) as [[fs1 os1] ok1] eqn:E1. destruct (create_cases _ _ _ _ _ _ E1) as [[[-> ->]|[-> ->]] N1]; intros H.
  2: { assert (fs' = fs) by congruence. assert (ok = false) by congruence. assert (os' = os1) by congruence. subst. split; [auto|]. split; [auto|]. discriminate. }
  assert (W : forall fs0 off x os0 fs2 os2 okk, write_once fs0 n off x os0 = (fs2, os2, okk) -> (forall m, m <> n -> fs2 m = fs0 m) /\ (no_part os0 -> no_part os2) /\
    (no_part os0 -> okk = true -> fs2 = do_op fs0 (WriteAt n off x))).
  { intros fs0 off x os0 fs2 os2 okk W. destruct os0 as [|[|k| |] os0]; cbn [write_once] in W.
    - assert (fs2 = do_op fs0 (WriteAt n off x)) by congruence. assert (os2 = []) by congruence. subst. split; [intros m Hm; cbn [do_op]; now apply put_other|]. auto.
    - assert (fs2 = do_op fs0 (WriteAt n off x)) by congruence. assert (os2 = os0) by congruence. subst. split; [intros m Hm; cbn [do_op]; now apply put_other|]. split; [apply no_part_tail|auto].
    - assert (fs2 = do_op fs0 (WriteAt n off (firstn k x))) by congruence. assert (os2 = os0) by congruence. subst. split; [intros m Hm; cbn [do_op]; now apply put_other|]. split; [apply no_part_tail|].
      intros N. exfalso. apply (N k). now left.
    - assert (fs2 = fs0) by congruence. assert (os2 = os0) by congruence. assert (okk = false) by congruence. subst. split; [auto|]. split; [apply no_part_tail|discriminate].
    - assert (fs2 = fs0) by congruence. assert (os2 = os0) by congruence. assert (okk = false) by congruence. subst. split; [auto|]. split; [apply no_part_tail|discriminate]. }
  destruct (write_once (put fs n []) n 0 wbro_header os1) as [[fs2 os2] ok2] eqn:E2. destruct (W _ _ _ _ _ _ _ E2) as (A2 & B2 & C2). destruct ok2.
  - destruct (W _ _ _ _ _ _ _ H) as (A3 & B3 & C3). split; [intros m Hm; rewrite (A3 m Hm), (A2 m Hm); now apply put_other|]. split; [auto|].
    intros N Hok. assert (E3 := C2 (N1 N) eq_refl). assert (E4 := C3 (B2 (N1 N)) Hok). subst fs' fs2. apply (run_wbro n b fs).
  - assert (fs' = fs2) by congruence. assert (ok = false) by congruence. assert (os' = os2) by congruence. subst. split; [intros m Hm; rewrite (A2 m Hm); now apply put_other|]. split; [auto|discriminate].
Qed.

(** ** One file *)
(** What a call makes of the content of its input: the bytes to be written, or the end without writing. *)
Definition made (e : env) (p : profile) (nt : number_text) (a : atsc_args) (file : option (list Z)) : list Z + outcome :=
  let compressed data := match compress_data e p data (a_compressor a) (a_error a) (a_level a) with Ok bytes => inl bytes | Panic _ => inr Panicked end in
  if a_uncompress a then
    match file with
    | None => inr (Failed IoError)
    | Some b =>
      match bro_read b with
      | RIoError => inr (Failed IoError)
      | RNotBro => inr Done
      | RBro bytes =>
        match decompress_data e p bytes with
        | Panic _ => inr Panicked
        | Ok out => match wb_to_bytes (wb_from_slice out) with Ok c => inl (wbro_header ++ c) | Panic _ => inr Panicked end
        end
      end
    end
  else if a_csv a then
    match (if a_no_header a then read_samples nt file else match split_on ch_comma (a_fields a) with h0 :: h1 :: _ => read_samples_with_headers nt file h0 h1 | _ => Panic PIndex end) with
    | Panic _ => inr Panicked
    | Ok (CsvFailed err) => inr (Failed (CsvError err))
    | Ok (Samples l) => compressed (map sm_val l)
    end
  else
    match from_file file with
    | Panic _ => inr Panicked
    | Ok WbIoError => inr (Failed IoError)
    | Ok WbFormatError => inr (Failed WbroFormatError)
    | Ok (WbSamples data) => compressed data
    end.
(** The file a call of atsc writes. *)
Definition output_of (a : atsc_args) (n : name) : name := set_extension n (if a_uncompress a then ext_wbro else ext_bro).

Lemma single_made e p nt a fs n : process_single_file e p nt a fs n = match made e p nt a (fs n) with inl b => (put fs (output_of a n) b, Done) | inr o => (fs, o) end.
Proof.
  unfold process_single_file, made, output_of, compress_to. destruct (a_uncompress a).
  - destruct (fs n) as [b|]; [|reflexivity]. destruct (bro_read b) as [| |bytes]; [reflexivity|reflexivity|]. destruct (decompress_data e p bytes) as [out|]; [|reflexivity].
    unfold put_wbro. destruct (wb_to_bytes (wb_from_slice out)) as [c|]; cbn [bind]; [|reflexivity].
    unfold wbro_file, write_wavbrro_file. now rewrite firstn_all, firstn_all, write_at_start, write_at_end.
  - destruct (a_csv a).
    + match goal with |- context [match ?c with Ok _ => _ | Panic _ => _ end] => destruct c as [[l|er]|] end; [|reflexivity|reflexivity]. now destruct (compress_data e p _ _ _ _).
    + destruct (from_file (fs n)) as [[data| |]|]; [|reflexivity|reflexivity|reflexivity]. now destruct (compress_data e p _ _ _ _).
Qed.
Lemma made_none e p nt a : exists o, made e p nt a None = inr o /\ o <> Done.
Proof.
  unfold made. destruct (a_uncompress a); [eexists; split; [reflexivity|discriminate]|]. destruct (a_csv a).
  - destruct (a_no_header a); [eexists; split; [reflexivity|discriminate]|]. destruct (split_on ch_comma (a_fields a)) as [|h0 [|h1 r]]; (eexists; split; [reflexivity|discriminate]).
  - eexists; split; [reflexivity|discriminate].
Qed.

(** A call on a disk that may refuse: it ends without writing, as on the other disk or because reading was refused; or it comes to writing its result. *)
Lemma refusing_made e p nt a fs n os fs' os' o : refusing_single_file e p nt a fs n os = (fs', os', o) ->
  (no_part os -> no_part os') /\
  ((fs' = fs /\ (made e p nt a (fs n) = inr o \/ o <> Done)) \/
   exists b, made e p nt a (fs n) = inl b /\ (forall m, m <> output_of a n -> fs' m = fs m) /\
     ((a_uncompress a = false \/ no_part os) -> o = Done -> same_files fs' (put fs (output_of a n) b)) /\
     (a_uncompress a = false -> (o = Done \/ o = Failed IoError) /\ (same_files fs' fs \/ exists k, same_files fs' (put fs (output_of a n) (firstn k b))))).
Proof.
  unfold refusing_single_file.
  assert (W : forall bytes os1, a_uncompress a = false -> made e p nt a (fs n) = inl bytes -> (no_part os -> no_part os1) ->
    (let '(fs1, os2, ok) := write_file fs (set_extension n ext_bro) bytes os1 in (fs1, os2, if ok then Done else Failed IoError)) = (fs', os', o) ->
    (no_part os -> no_part os') /\ ((fs' = fs /\ (made e p nt a (fs n) = inr o \/ o <> Done)) \/
   exists b, made e p nt a (fs n) = inl b /\ (forall m, m <> output_of a n -> fs' m = fs m) /\
     ((a_uncompress a = false \/ no_part os) -> o = Done -> same_files fs' (put fs (output_of a n) b)) /\
     (a_uncompress a = false -> (o = Done \/ o = Failed IoError) /\ (same_files fs' fs \/ exists k, same_files fs' (put fs (output_of a n) (firstn k b)))))).
  { intros bytes os1 Hu Hm N1 H. destruct (write_file fs (set_extension n ext_bro) bytes os1) as [[fs1 os2] ok] eqn:E. destruct (write_file_cases _ _ _ _ _ _ _ E) as [C N2].
    assert (fs' = fs1) by congruence. assert (os' = os2) by congruence. assert (Ho : o = if ok then Done else Failed IoError) by congruence. clear H. subst fs' os'. split; [auto|]. right.
    unfold output_of. rewrite Hu in *. exists bytes. split; [exact Hm|]. destruct C as [[-> C]|(k & K1 & K2 & K3)].
    - split; [intros m _; apply C|]. split; [intros _ D; subst o; discriminate D|]. intros _. split; [subst o; now right|now left].
    - split; [intros m Hmn; rewrite (K2 m); now apply put_other|]. split.
      + intros _ D. destruct ok; [|subst o; discriminate D]. rewrite (K3 eq_refl), firstn_all in K2. exact K2.
      + intros _. split; [destruct ok; auto|]. right. exists k. exact K2. }
  destruct (a_uncompress a) eqn:Hu.
  - destruct (read_whole (fs n) os) as [file os1] eqn:E1. destruct (read_whole_cases _ _ _ _ E1) as [R N1]. destruct R as [-> | ->].
    2: { intros H. assert (fs' = fs) by congruence. assert (o = Failed IoError) by congruence. assert (os' = os1) by congruence. subst. split; [exact N1|]. left. split; [reflexivity|]. right. discriminate. }
    unfold made. rewrite Hu. destruct (fs n) as [b|].
    2: { intros H. assert (fs' = fs) by congruence. assert (o = Failed IoError) by congruence. assert (os' = os1) by congruence. subst. split; [exact N1|]. left. auto. }
    destruct (bro_read b) as [| |bytes].
    { intros H. assert (fs' = fs) by congruence. assert (os' = os1) by congruence. subst. split; [exact N1|]. left. split; [reflexivity|]. left. congruence. }
    { intros H. assert (fs' = fs) by congruence. assert (os' = os1) by congruence. subst. split; [exact N1|]. left. split; [reflexivity|]. left. congruence. }
    destruct (decompress_data e p bytes) as [out|].
    2: { intros H. assert (fs' = fs) by congruence. assert (os' = os1) by congruence. subst. split; [exact N1|]. left. split; [reflexivity|]. left. congruence. }
    unfold refusing_wbro. destruct (wb_to_bytes (wb_from_slice out)) as [c|].
    2: { intros H. assert (fs' = fs) by congruence. assert (os' = os1) by congruence. subst. split; [exact N1|]. left. split; [reflexivity|]. left. congruence. }
    destruct (write_wbro_file fs (set_extension n ext_wbro) c os1) as [[fs1 os2] ok] eqn:E2. destruct (write_wbro_cases _ _ _ _ _ _ _ E2) as (A & B & C). intros H.
    assert (fs' = fs1) by congruence. assert (os' = os2) by congruence. assert (Ho : o = if ok then Done else Panicked) by congruence. clear H. subst fs' os'. split; [auto|]. right.
    unfold output_of. rewrite Hu. exists (wbro_header ++ c). split; [reflexivity|]. split; [exact A|]. split; [|discriminate]. intros [D|N] Hd; [discriminate D|]. apply C; [auto|]. destruct ok; [reflexivity|congruence].
  - destruct (a_csv a) eqn:Hc.
    + destruct (read_csv_whole (fs n) os) as [file os1] eqn:E1. destruct (read_csv_cases _ _ _ _ E1) as [R N1]. intros H. destruct R as [-> | ->].
      * assert (Mm : made e p nt a (fs n) = match (if a_no_header a then read_samples nt (fs n) else match split_on ch_comma (a_fields a) with h0 :: h1 :: _ => read_samples_with_headers nt (fs n) h0 h1 | _ => Panic PIndex end) with
          | Panic _ => inr Panicked | Ok (CsvFailed err) => inr (Failed (CsvError err))
          | Ok (Samples l) => match compress_data e p (map sm_val l) (a_compressor a) (a_error a) (a_level a) with Ok bytes => inl bytes | Panic _ => inr Panicked end end)
          by (unfold made; now rewrite Hu, Hc).
        cbv zeta in H. destruct (if a_no_header a then _ else _) as [[l|er]|].
        -- unfold refusing_compress_to in H. destruct (compress_data e p _ _ _ _) as [bytes|].
           ++ apply (W bytes os1); auto.
           ++ assert (fs' = fs) by congruence. assert (os' = os1) by congruence. subst. split; [exact N1|]. left. split; [reflexivity|]. left. congruence.
        -- assert (fs' = fs) by congruence. assert (os' = os1) by congruence. subst. split; [exact N1|]. left. split; [reflexivity|]. left. congruence.
        -- assert (fs' = fs) by congruence. assert (os' = os1) by congruence. subst. split; [exact N1|]. left. split; [reflexivity|]. left. congruence.
      * assert (Q : fs' = fs /\ os' = os1 /\ o <> Done).
        { cbv zeta in H. destruct (a_no_header a); [cbn in H; split; [congruence|]; split; [congruence|]; intros ->; discriminate H|].
          destruct (split_on ch_comma (a_fields a)) as [|h0 [|h1 r]]; cbn in H; (split; [congruence|]; split; [congruence|]; intros ->; discriminate H). }
        destruct Q as (-> & -> & Q). split; [exact N1|]. left. auto.
    + destruct (read_whole (fs n) os) as [file os1] eqn:E1. destruct (read_whole_cases _ _ _ _ E1) as [R N1]. intros H. destruct R as [-> | ->].
      * assert (Mm : made e p nt a (fs n) = match from_file (fs n) with
          | Panic _ => inr Panicked | Ok WbIoError => inr (Failed IoError) | Ok WbFormatError => inr (Failed WbroFormatError)
          | Ok (WbSamples data) => match compress_data e p data (a_compressor a) (a_error a) (a_level a) with Ok bytes => inl bytes | Panic _ => inr Panicked end end)
          by (unfold made; now rewrite Hu, Hc).
        destruct (from_file (fs n)) as [[data| |]|].
        -- unfold refusing_compress_to in H. destruct (compress_data e p _ _ _ _) as [bytes|].
           ++ apply (W bytes os1); auto.
           ++ assert (fs' = fs) by congruence. assert (os' = os1) by congruence. subst. split; [exact N1|]. left. split; [reflexivity|]. left. congruence.
        -- assert (fs' = fs) by congruence. assert (os' = os1) by congruence. subst. split; [exact N1|]. left. split; [reflexivity|]. left. congruence.
        -- assert (fs' = fs) by congruence. assert (os' = os1) by congruence. subst. split; [exact N1|]. left. split; [reflexivity|]. left. congruence.
        -- assert (fs' = fs) by congruence. assert (os' = os1) by congruence. subst. split; [exact N1|]. left. split; [reflexivity|]. left. congruence.
      * cbn in H. assert (fs' = fs) by congruence. assert (os' = os1) by congruence. subst. split; [exact N1|]. left. split; [reflexivity|]. right. intros ->. discriminate H.
Qed.

(** ** Directories *)
Lemma listed_cases os f os' : read_whole (Some []) os = (f, os') -> (f = Some [] \/ f = None) /\ (no_part os -> no_part os').
Proof. apply read_whole_cases. Qed.

Lemma directory_done e p nt a known : forall entries fs os fs' os' fsp,
  (a_uncompress a = false \/ no_part os) -> (forall n, In n entries -> known n = true) -> (forall n m, In n entries -> In m entries -> output_of a m <> n) ->
  same_files fs fsp -> refusing_directory e p nt a known fs entries os = (fs', os', Done) ->
  exists final, process_directory e p nt a fsp entries = (final, Done) /\ same_files fs' final.
Proof.
  induction entries as [|n rest IH]; intros fs os fs' os' fsp Hu Hk Ho Hs H; cbn [refusing_directory process_directory] in *.
  - exists fsp. split; [reflexivity|]. assert (fs' = fs) by congruence. now subst.
  - assert (Hk' : forall m, In m rest -> known m = true) by (intros m Hm; apply Hk; now right).
    assert (Ho' : forall m q, In m rest -> In q rest -> output_of a q <> m) by (intros m q Hm Hq; apply Ho; now right).
    assert (Hon : output_of a n <> n) by (apply Ho; now left).
    destruct (read_whole (Some []) os) as [f os0] eqn:El. destruct (listed_cases _ _ _ El) as [[-> | ->] N0]; [|discriminate H].
    assert (Hu0 : a_uncompress a = false \/ no_part os0) by (destruct Hu; auto). rewrite (Hk n) in H by (now left). rewrite <- (Hs n).
    destruct (fs n) as [bn|] eqn:En; [|apply (IH _ _ _ _ fsp Hu0 Hk' Ho' Hs H)].
    rewrite single_made, <- (Hs n), En. destruct (refusing_single_file e p nt a fs n os0) as [[fs1 os1] o1] eqn:E1.
    destruct (refusing_made _ _ _ _ _ _ _ _ _ _ E1) as [N1 C1]. rewrite En in C1. assert (Hu1 : a_uncompress a = false \/ no_part os1) by (destruct Hu0; auto).
    destruct o1 as [|er|]; [| |discriminate H].
    + destruct C1 as [[-> [M|M]]|(b & M & _ & D & _)]; [| |].
      * rewrite M. apply (IH _ _ _ _ fsp Hu1 Hk' Ho' Hs H).
      * congruence.
      * rewrite M. apply (IH fs1 os1 fs' os' (put fsp (output_of a n) b) Hu1 Hk' Ho'); [|exact H]. eapply same_trans; [apply (D Hu0 eq_refl)|]. now apply put_congr.
    + destruct (refusing_single_file e p nt a fs1 n os1) as [[fs2 os2] o2] eqn:E2. destruct (refusing_made _ _ _ _ _ _ _ _ _ _ E2) as [N2 C2].
      destruct o2 as [|er2|]; [|discriminate H|discriminate H]. assert (Hu2 : a_uncompress a = false \/ no_part os2) by (destruct Hu1; auto).
      assert (F1 : forall m, m <> output_of a n -> fs1 m = fs m) by (destruct C1 as [[-> _]|(b & _ & F & _)]; auto).
      rewrite (F1 n), En in C2 by (intros X; now apply Hon).
      destruct C2 as [[-> [M|M]]|(b & M & _ & D & _)]; [|congruence|].
      * rewrite M. destruct C1 as [[-> _]|(b & M' & _)]; [|congruence]. apply (IH _ _ _ _ fsp Hu2 Hk' Ho' Hs H).
      * rewrite M. apply (IH fs2 os2 fs' os' (put fsp (output_of a n) b) Hu2 Hk' Ho'); [|exact H]. eapply same_trans; [apply (D Hu1 eq_refl)|].
        intros m. destruct (list_eq_dec Z.eq_dec m (output_of a n)) as [->|Nm]; [now rewrite !put_same|]. rewrite !put_other by exact Nm. now rewrite (F1 m Nm).
Qed.
Lemma directory_frame e p nt a known y : forall entries fs os fs' os' o,
  (forall n, In n entries -> output_of a n <> y) -> refusing_directory e p nt a known fs entries os = (fs', os', o) -> fs' y = fs y.
Proof.
  induction entries as [|n rest IH]; intros fs os fs' os' o Hy H; cbn [refusing_directory] in H.
  - congruence.
  - assert (Hy' : forall m, In m rest -> output_of a m <> y) by (intros m Hm; apply Hy; now right). assert (Hn : y <> output_of a n) by (intros X; apply (Hy n); [now left|now symmetry]).
    destruct (read_whole (Some []) os) as [[f|] os0]; [|congruence]. destruct (if known n then fs n else None) as [bn|]; [|apply (IH _ _ _ _ _ Hy' H)].
    assert (F : forall g os1 g' os1' o1, refusing_single_file e p nt a g n os1 = (g', os1', o1) -> g' y = g y).
    { intros g os1 g' os1' o1 E. destruct (refusing_made _ _ _ _ _ _ _ _ _ _ E) as [_ [[-> _]|(b & _ & F & _)]]; [reflexivity|now apply F]. }
    destruct (refusing_single_file e p nt a fs n os0) as [[fs1 os1] o1] eqn:E1. apply F in E1. destruct o1 as [|er|].
    + rewrite <- E1. apply (IH _ _ _ _ _ Hy' H).
    + destruct (refusing_single_file e p nt a fs1 n os1) as [[fs2 os2] o2] eqn:E2. apply F in E2. rewrite <- E1, <- E2. destruct o2; [apply (IH _ _ _ _ _ Hy' H)|congruence|congruence].
    + congruence.
Qed.

Lemma torn_bytes_refused e p nt a fs n data bytes k : env_ok e -> accepted_args a -> fits_counter p data -> compress_data e p data (a_compressor a) (a_error a) (a_level a) = Ok bytes ->
  (k < length bytes)%nat -> fs n = Some (firstn k bytes) -> exists o, process_single_file e p nt (uncompressing a) fs n = (fs, o) /\ (o = Failed IoError \/ o = Panicked).
Proof.
  intros He (Ha1 & Ha2) Hf Cb Hk Hn. destruct (compressed_typed e p data (a_compressor a) (a_error a) (a_level a) bytes He ltac:(lia) Ha2 Hf Cb) as (s & Ts & Eb).
  assert (S2 : bytes = firstn k bytes ++ skipn k bytes) by (symmetry; apply firstn_skipn). assert (Ne : skipn k bytes <> []) by (intros X; apply (f_equal (@length Z)) in X; rewrite skipn_length in X; cbn [length] in X; lia).
  set (cut := firstn k bytes) in *. set (rest := skipn k bytes) in *. clearbody cut rest.
  unfold process_single_file, uncompressing. cbn [a_uncompress]. rewrite Hn. unfold bro_read.
  destruct (length cut <? 12)%nat eqn:L; [eexists; split; [reflexivity|now left]|]. apply Nat.ltb_ge in L.
  assert (M : firstn 4 cut = BRRO).
  { rewrite Eb in S2. unfold stream_to_bytes, header_bytes in S2. rewrite <- app_assoc in S2. assert (E := f_equal (firstn 4) S2).
    rewrite (firstn_app 4 cut) in E. replace (4 - length cut)%nat with 0%nat in E by lia. rewrite (firstn_O rest), app_nil_r in E. rewrite <- E. reflexivity. }
  destruct (list_eq_dec Z.eq_dec (firstn 4 cut) BRRO) as [_|N]; [|contradiction].
  assert (Rf : refused (stream_from_bytes cut)) by (apply (C02_torn_stream_refused s cut rest); [exact Ts|congruence|exact Ne]).
  destruct Rf as [why Rf]. unfold decompress_data. rewrite Rf. cbn [bind]. eexists. split; [reflexivity|now right].
Qed.

(** ** Buffered writers *)
Lemma write_buffered_cases kept fs n b os fs' os' ok : write_buffered kept fs n b os = (fs', os', ok) ->
  (forall m, m <> n -> fs' m = fs m) /\ (no_part os -> no_part os') /\ (ok = true -> same_files fs' (put fs n b)).
Proof.
  unfold write_buffered. destruct (create_file fs n os) as [[fs1 os1] ok1] eqn:E1. destruct (create_cases _ _ _ _ _ _ E1) as [[[-> ->]|[-> ->]] N1]; intros H.
  2: { assert (fs' = fs) by congruence. assert (ok = false) by congruence. assert (os' = os1) by congruence. subst. split; [auto|]. split; [auto|discriminate]. }
  destruct (write_all (put fs n []) n b os1) as [[fs2 os2] ok2] eqn:E2. destruct (write_all_cases n _ _ _ _ _ _ _ (put_same _ _ _) E2) as [(k & K1 & K2 & K3) N2]. cbn [app] in K2.
  assert (K4 : same_files fs2 (put fs n (firstn k b))) by (eapply same_trans; [exact K2|apply put_put]). destruct ok2.
  - assert (fs' = fs2) by congruence. assert (ok = true) by congruence. assert (os' = os2) by congruence. subst. rewrite (K3 eq_refl), firstn_all in K4.
    split; [intros m Hm; rewrite (K4 m); now apply put_other|]. split; [auto|]. intros _. exact K4.
  - cbv zeta in H. destruct (write_all fs2 n _ os2) as [[fs3 os3] ok3] eqn:E3. assert (fs' = fs3) by congruence. assert (ok = false) by congruence. assert (os' = os3) by congruence. subst.
    assert (Hc : fs2 n = Some (firstn k b)) by (rewrite (K4 n); apply put_same).
    destruct (write_all_cases n _ _ _ _ _ _ _ Hc E3) as [(j & _ & J2 & _) N3]. split; [|split; [auto|discriminate]].
    intros m Hm. rewrite (J2 m), put_other by exact Hm. rewrite (K4 m). now apply put_other.
Qed.
Lemma write_pieces_cases n : forall ps fs c os fs' os' ok, fs n = Some c -> write_pieces fs n ps os = (fs', os', ok) ->
  (forall m, m <> n -> fs' m = fs m) /\ (ok = true -> exists k, (length (concat (removelast ps)) <= k <= length (concat ps))%nat /\ same_files fs' (put fs n (c ++ firstn k (concat ps)))).
Proof.
  induction ps as [|q ps IH]; intros fs c os fs' os' ok Hc H.
  - cbn [write_pieces] in H. assert (fs' = fs) by congruence. subst. split; [auto|]. intros _. exists 0%nat. cbn [removelast concat length firstn]. split; [lia|]. rewrite app_nil_r. intros m. symmetry. now apply put_self.
  - destruct ps as [|q2 ps].
    + cbn [write_pieces] in H. destruct (write_all fs n q os) as [[fs1 os1] ok1] eqn:E1. assert (fs' = fs1) by congruence. subst fs1.
      destruct (write_all_cases n _ _ _ _ _ _ _ Hc E1) as [(k & K1 & K2 & K3) _]. split; [intros m Hm; rewrite (K2 m); now apply put_other|]. intros _. exists k. cbn [removelast concat length]. rewrite app_nil_r. split; [lia|exact K2].
    + change (write_pieces fs n (q :: q2 :: ps) os) with (let '(fs1, os1, ok) := write_all fs n q os in if ok then write_pieces fs1 n (q2 :: ps) os1 else let '(fs2, os2, _) := write_all fs1 n q os1 in (fs2, os2, false)) in H.
      destruct (write_all fs n q os) as [[fs1 os1] ok1] eqn:E1. destruct (write_all_cases n _ _ _ _ _ _ _ Hc E1) as [(k & K1 & K2 & K3) _].
      assert (Hc1 : fs1 n = Some (c ++ firstn k q)) by (rewrite (K2 n); apply put_same). assert (F1 : forall m, m <> n -> fs1 m = fs m) by (intros m Hm; rewrite (K2 m); now apply put_other). destruct ok1.
      * rewrite (K3 eq_refl), firstn_all in *. destruct (IH _ _ _ _ _ _ Hc1 H) as [I1 I2]. split; [intros m Hm; rewrite (I1 m Hm); now apply F1|]. intros Hok. destruct (I2 Hok) as (j & J1 & J2).
        exists (length q + j)%nat. change (removelast (q :: q2 :: ps)) with (q :: removelast (q2 :: ps)). cbn [concat] in *. rewrite !app_length in *. split; [lia|].
        eapply same_trans; [exact J2|]. rewrite firstn_app_2, app_assoc. intros m. destruct (list_eq_dec Z.eq_dec m n) as [->|Nm]; [now rewrite !put_same|]. rewrite !put_other by exact Nm. now apply F1.
      * destruct (write_all fs1 n q os1) as [[fs2 os2] ok2] eqn:E2. assert (fs' = fs2) by congruence. assert (ok = false) by congruence. subst. split; [|discriminate].
        destruct (write_all_cases n _ _ _ _ _ _ _ Hc1 E2) as [(j & _ & J2 & _) _]. intros m Hm. rewrite (J2 m), put_other by exact Hm. now apply F1.
Qed.
Lemma write_csv_cases pieces fs n b os fs' os' ok : concat (pieces b) = b -> write_csv_file pieces fs n b os = (fs', os', ok) ->
  (forall m, m <> n -> fs' m = fs m) /\ (ok = true -> exists k, (length (concat (removelast (pieces b))) <= k <= length b)%nat /\ same_files fs' (put fs n (firstn k b))).
Proof.
  intros Hb. unfold write_csv_file. destruct (create_file fs n os) as [[fs1 os1] ok1] eqn:E1. destruct (create_cases _ _ _ _ _ _ E1) as [[[-> ->]|[-> ->]] N1]; intros H.
  - destruct (write_pieces_cases n _ _ _ _ _ _ _ (put_same _ _ _) H) as [C1 C2]. rewrite Hb in C2. split; [intros m Hm; rewrite (C1 m Hm); now apply put_other|].
    intros Hok. destruct (C2 Hok) as (k & K1 & K2). exists k. split; [exact K1|]. eapply same_trans; [exact K2|apply put_put].
  - assert (fs' = fs) by congruence. assert (ok = false) by congruence. subst. split; [auto|discriminate].
Qed.
Lemma refusing_wbro_cases fs n w os fs' os' o : refusing_wbro fs n w os = (fs', os', o) ->
  (forall m, m <> n -> fs' m = fs m) /\ (no_part os -> no_part os') /\ (o = Done \/ o = Panicked) /\
  (o = Done -> snd (put_wbro fs n w) = Done) /\ (no_part os -> o = Done -> same_files fs' (fst (put_wbro fs n w))).
Proof.
  unfold refusing_wbro, put_wbro. destruct (wb_to_bytes w) as [b|]; cbn [bind].
  - destruct (write_wbro_file fs n b os) as [[fs1 os1] ok] eqn:E. intros H. assert (fs' = fs1) by congruence. assert (os' = os1) by congruence. assert (o = if ok then Done else Panicked) by congruence. subst fs' os' o. clear H.
    destruct (write_wbro_cases _ _ _ _ _ _ _ E) as (A & B & C). split; [exact A|]. split; [exact B|]. split; [destruct ok; auto|].
    unfold wbro_file, write_wavbrro_file. rewrite firstn_all, firstn_all, write_at_start, write_at_end. split; [reflexivity|]. intros N Hd. apply C; [exact N|]. destruct ok; congruence.
  - intros H. assert (fs' = fs) by congruence. assert (os' = os) by congruence. assert (o = Panicked) by congruence. subst. split; [auto|]. split; [auto|]. split; [auto|]. split; [discriminate|discriminate].
Qed.

(** ** A disk that refuses nothing *)
Lemma write_file_none fs n b : exists fs', write_file fs n b [] = (fs', [], true) /\ same_files fs' (put fs n b).
Proof.
  unfold write_file. cbn [create_file]. destruct b as [|x b]; cbn [write_all]; (eexists; split; [reflexivity|]); [apply same_files_refl|]. rewrite content_put. apply put_put.
Qed.
Lemma write_wbro_none fs n b : exists fs', write_wbro_file fs n b [] = (fs', [], true) /\ same_files fs' (put fs n (wbro_header ++ b)).
Proof. unfold write_wbro_file. cbn [create_file write_once]. eexists. split; [reflexivity|]. apply (run_wbro n b fs). Qed.
Lemma refusing_wbro_none fs n w : exists fs', refusing_wbro fs n w [] = (fs', [], snd (put_wbro fs n w)) /\ same_files fs' (fst (put_wbro fs n w)).
Proof.
  unfold refusing_wbro, put_wbro. destruct (wb_to_bytes w) as [b|]; cbn [bind]; [|eexists; split; [reflexivity|apply same_files_refl]].
  destruct (write_wbro_none fs n b) as (fs' & -> & S). exists fs'. unfold wbro_file, write_wavbrro_file. rewrite firstn_all, firstn_all, write_at_start, write_at_end. split; [reflexivity|exact S].
Qed.
Lemma single_none e p nt a fs n : exists fs', refusing_single_file e p nt a fs n [] = (fs', [], snd (process_single_file e p nt a fs n)) /\ same_files fs' (fst (process_single_file e p nt a fs n)).
Proof.
  assert (W : forall data, exists fs', refusing_compress_to e p a fs n data [] = (fs', [], snd (compress_to e p a fs n data)) /\ same_files fs' (fst (compress_to e p a fs n data))).
  { intros data. unfold refusing_compress_to, compress_to. destruct (compress_data e p data _ _ _) as [bytes|]; [|eexists; split; [reflexivity|apply same_files_refl]].
    destruct (write_file_none fs (set_extension n ext_bro) bytes) as (fs' & -> & S). exists fs'. split; [reflexivity|exact S]. }
  unfold refusing_single_file, process_single_file. destruct (a_uncompress a).
  - cbn [read_whole]. destruct (fs n) as [b|]; [|eexists; split; [reflexivity|apply same_files_refl]].
    destruct (bro_read b) as [| |bytes]; try (eexists; split; [reflexivity|apply same_files_refl]).
    destruct (decompress_data e p bytes) as [out|]; [|eexists; split; [reflexivity|apply same_files_refl]]. apply refusing_wbro_none.
  - destruct (a_csv a).
    + cbn [read_csv_whole]. cbv zeta. destruct (if a_no_header a then _ else _) as [[l|er]|]; [apply W| |]; (eexists; split; [reflexivity|apply same_files_refl]).
    + cbn [read_whole]. destruct (from_file (fs n)) as [[data| |]|]; [apply W| | |]; (eexists; split; [reflexivity|apply same_files_refl]).
Qed.
Lemma single_congr e p nt a fs fs' n : same_files fs fs' -> snd (process_single_file e p nt a fs n) = snd (process_single_file e p nt a fs' n) /\
  same_files (fst (process_single_file e p nt a fs n)) (fst (process_single_file e p nt a fs' n)).
Proof. intros S. rewrite !single_made, (S n). destruct (made e p nt a (fs' n)) as [b|o]; (split; [reflexivity|]); [now apply put_congr|exact S]. Qed.
Lemma directory_none e p nt a : forall entries fs fsp, same_files fs fsp -> exists fs', refusing_directory e p nt a (fun _ => true) fs entries [] = (fs', [], snd (process_directory e p nt a fsp entries)) /\
  same_files fs' (fst (process_directory e p nt a fsp entries)).
Proof.
  induction entries as [|n rest IH]; intros fs fsp Hs; cbn [refusing_directory process_directory read_whole]; [exists fs; auto|].
  rewrite <- (Hs n). destruct (fs n) as [b|]; [|apply IH, Hs].
  assert (One : forall g gp, same_files g gp -> exists g', refusing_single_file e p nt a g n [] = (g', [], snd (process_single_file e p nt a gp n)) /\ same_files g' (fst (process_single_file e p nt a gp n))).
  { intros g gp G. destruct (single_none e p nt a g n) as (g' & E & S). destruct (single_congr e p nt a g gp n G) as [C1 C2]. exists g'. split; [now rewrite E, C1|]. eapply same_trans; [exact S|exact C2]. }
  destruct (One fs fsp Hs) as (fs1 & -> & S1). destruct (process_single_file e p nt a fsp n) as [fsp1 o1]. cbn [fst snd] in *. destruct o1 as [|er|]; [apply IH, S1| |exists fs1; auto].
  destruct (One fs1 fsp1 S1) as (fs2 & -> & S2). destruct (process_single_file e p nt a fsp1 n) as [fsp2 o2]. cbn [fst snd] in *. destruct o2 as [|er2|]; [apply IH, S2| |]; exists fs2; auto.
Qed.

(** ** The commands *)
Section Commands.
Variable e : env.
Variable p : profile.
Variable nt : number_text.

(** With a disk that does everything, these commands are the ones of C81. *)
Theorem C86_no_refusal ws fs sp : exists fs', refusing_atsc_command e p nt ws (fun _ => true) fs sp [] = (fs', snd (atsc_command e p nt ws fs sp)) /\
  same_files fs' (fst (atsc_command e p nt ws fs sp)).
Proof.
  unfold refusing_atsc_command, atsc_command. destruct (atsc_parse ws) as [[input a]|]; [|exists fs; split; [reflexivity|apply same_files_refl]].
  unfold refusing_process_args, atsc_process_args. destruct (fs input) as [b|].
  - destruct (single_none e p nt a fs input) as (fs' & -> & S). destruct (process_single_file e p nt a fs input) as [f o]. exists fs'. split; [reflexivity|exact S].
  - destruct (sp input) as [[entries|]|]; try (exists fs; split; [reflexivity|apply same_files_refl]).
    destruct (directory_none e p nt a (map (join input) entries) fs fs (same_files_refl fs)) as (fs' & -> & S). destruct (process_directory e p nt a fs _) as [f o]. exists fs'. split; [reflexivity|exact S].
Qed.

(** Exit status 0 of a compressing atsc means that every output is on disk, complete, whatever the disk answered on the way; uncompressing, if
    no write was answered short. For directories: the system tells what each entry is, and no entry is the output of another one or of itself. *)
Theorem C86_status_zero ws known fs sp os fs' input a : atsc_parse ws = Some (input, a) -> (a_uncompress a = false \/ no_part os) ->
  (forall entries, fs input = None -> sp input = Some (Listing entries) -> forall n m, In n entries -> In m entries ->
     known (join input n) = true /\ output_of a (join input m) <> join input n) ->
  refusing_atsc_command e p nt ws known fs sp os = (fs', Some 0) ->
  exists final, atsc_command e p nt ws fs sp = (final, Some 0) /\ same_files fs' final.
Proof.
  intros Hp Hu Hd H. unfold refusing_atsc_command in H. unfold atsc_command. rewrite Hp in *. unfold refusing_process_args in H. unfold atsc_process_args.
  destruct (known input); [|discriminate H]. destruct (fs input) as [b|] eqn:Ei.
  - destruct (refusing_single_file e p nt a fs input os) as [[fs1 os1] o1] eqn:E1. rewrite single_made. destruct (refusing_made _ _ _ _ _ _ _ _ _ _ E1) as [_ C].
    assert (fs' = fs1) by congruence. subst fs1. destruct o1 as [|er|]; [|discriminate H|discriminate H].
    destruct C as [[-> [M|M]]|(x & M & _ & D & _)]; [|congruence|].
    + rewrite M. exists fs. split; [reflexivity|apply same_files_refl].
    + rewrite M. eexists. split; [reflexivity|]. now apply D.
  - destruct (sp input) as [[entries|]|] eqn:Es; [|discriminate H|discriminate H].
    destruct (refusing_directory e p nt a known fs (map (join input) entries) os) as [[fs1 os1] o1] eqn:E1. assert (fs' = fs1) by congruence. subst fs1. destruct o1 as [|er|]; [|discriminate H|discriminate H].
    assert (K1 : forall n, In n (map (join input) entries) -> known n = true).
    { intros n Hn. apply in_map_iff in Hn. destruct Hn as (n0 & <- & Hn). apply (Hd entries eq_refl eq_refl n0 n0 Hn Hn). }
    assert (K2 : forall n m, In n (map (join input) entries) -> In m (map (join input) entries) -> output_of a m <> n).
    { intros n m Hn Hm. apply in_map_iff in Hn. destruct Hn as (n0 & <- & Hn). apply in_map_iff in Hm. destruct Hm as (m0 & <- & Hm). apply (Hd entries eq_refl eq_refl n0 m0 Hn Hm). }
    destruct (directory_done e p nt a known _ _ _ _ _ fs Hu K1 K2 (same_files_refl fs) E1) as (final & F1 & F2). rewrite F1. exists final. auto.
Qed.

(** Whatever the disk answers and however the call ends, only outputs change. *)
Theorem C86_only_outputs ws known fs sp os fs' st y :
  (forall input a, atsc_parse ws = Some (input, a) -> (fs input <> None -> output_of a input <> y) /\
     (forall entries n, fs input = None -> sp input = Some (Listing entries) -> In n entries -> output_of a (join input n) <> y)) ->
  refusing_atsc_command e p nt ws known fs sp os = (fs', st) -> fs' y = fs y.
Proof.
  intros Hy H. unfold refusing_atsc_command in H. destruct (atsc_parse ws) as [[input a]|]; [|congruence]. destruct (Hy input a eq_refl) as [Y1 Y2]. unfold refusing_process_args in H.
  destruct (known input); [|congruence]. destruct (fs input) as [b|] eqn:Ei.
  - destruct (refusing_single_file e p nt a fs input os) as [[fs1 os1] o1] eqn:E1. assert (fs' = fs1) by congruence. subst fs1.
    destruct (refusing_made _ _ _ _ _ _ _ _ _ _ E1) as [_ [[-> _]|(x & _ & F & _)]]; [reflexivity|]. apply F. intros X. apply Y1; [discriminate|now symmetry].
  - destruct (sp input) as [[entries|]|] eqn:Es; [|congruence|congruence].
    destruct (refusing_directory e p nt a known fs (map (join input) entries) os) as [[fs1 os1] o1] eqn:E1. assert (fs' = fs1) by congruence. subst fs1.
    refine (directory_frame e p nt a known y _ _ _ _ _ _ _ E1). intros n Hn. apply in_map_iff in Hn. destruct Hn as (n0 & <- & Hn). apply (Y2 entries n0 eq_refl eq_refl Hn).
Qed.

(** A compressing call that ends with another status leaves the output as it was, or as a beginning of what it would have been; a proper
    beginning is refused when it is uncompressed, and uncompressing it changes nothing. *)
Theorem C86_failed_compress ws known fs sp os fs' st x old a data : env_ok e -> proper_stem x -> proper_ext old -> atsc_parse ws = Some (named x old, a) -> a_uncompress a = false ->
  accepted_args a -> input_samples nt a (fs (named x old)) data -> fits_counter p data ->
  refusing_atsc_command e p nt ws known fs sp os = (fs', st) -> st <> Some 0 ->
  only_changes (named x ext_bro) fs fs' /\
  (fs' (named x ext_bro) = fs (named x ext_bro) \/
   exists bytes k, compress_data e p data (a_compressor a) (a_error a) (a_level a) = Ok bytes /\ fs' (named x ext_bro) = Some (firstn k bytes) /\
     ((k < length bytes)%nat -> exists o, process_single_file e p nt (uncompressing a) fs' (named x ext_bro) = (fs', o) /\ (o = Failed IoError \/ o = Panicked))).
Proof.
  intros He Hx Ho Hp Hu Ha Hi Hf H Hst. assert (Out : output_of a (named x old) = named x ext_bro) by (unfold output_of; rewrite Hu; now apply set_ext_named).
  assert (Hin : fs (named x old) <> None).
  { intros N. rewrite N in Hi. destruct Hi as [[_ Hi]|[_ (s & _ & [(_ & Hi)|(_ & t & v & m & _ & Hi)])]]; discriminate Hi. }
  unfold refusing_atsc_command in H. rewrite Hp in H. unfold refusing_process_args in H.
  destruct (known (named x old)); [|assert (fs' = fs) by congruence; subst fs'; split; [intros m _; reflexivity|now left]].
  destruct (fs (named x old)) as [b|] eqn:Ei; [clear Hin|congruence]. rewrite <- Ei in Hi.
  destruct (refusing_single_file e p nt a fs (named x old) os) as [[fs1 os1] o1] eqn:E1. assert (fs' = fs1) by congruence. subst fs1.
  assert (St : st = Some (status_of o1)) by congruence. destruct (refusing_made _ _ _ _ _ _ _ _ _ _ E1) as [_ C]. rewrite Out in C.
  destruct C as [[-> _]|(bytes & M & F & _ & D)]; [split; [intros m _; reflexivity|now left]|]. split; [exact F|].
  destruct (D Hu) as [_ [S|(k & S)]]; [left; apply S|]. right. exists bytes, k.
  assert (Cb : compress_data e p data (a_compressor a) (a_error a) (a_level a) = Ok bytes).
  { unfold made in M. rewrite Hu in M. destruct Hi as [[Hc Hi]|[Hc (s & -> & [(Hn & Hi)|(Hn & t & v & m & Hi1 & Hi)])]]; rewrite Hc in M.
    - rewrite Hi in M. destruct (compress_data e p _ _ _ _); congruence.
    - rewrite Hn, Hi in M. destruct (compress_data e p _ _ _ _); congruence.
    - rewrite Hn, Hi1, Hi in M. destruct (compress_data e p _ _ _ _); congruence. }
  split; [exact Cb|]. split; [rewrite (S _); apply put_same|]. intros Hk.
  apply (torn_bytes_refused e p nt a fs' _ data bytes k He Ha Hf Cb Hk). rewrite (S _). apply put_same.
Qed.

(** Uncompressing ends with status 0 although the output is cut short: the disk takes only a part of the one write of the samples. *)
Theorem C86_short_write_refuted ws known fs sp input a b bytes out : atsc_parse ws = Some (input, a) -> a_uncompress a = true -> known input = true ->
  fs input = Some b -> bro_read b = RBro bytes -> decompress_data e p bytes = Ok out -> Z.of_nat (length out) <= 2 ^ 28 ->
  exists whole, (12 < length whole)%nat /\ fst (atsc_command e p nt ws fs sp) (set_extension input ext_wbro) = Some whole /\
    forall k, (12 < k < length whole)%nat -> exists os fs', refusing_atsc_command e p nt ws known fs sp os = (fs', Some 0) /\ fs' (set_extension input ext_wbro) = Some (firstn k whole).
Proof.
  intros Hp Hu Hk Hi Hb Hd Hl. destruct (C37_round_trip (Wrote 0) (Wrote 0) out Hl) as (c & Ec & _).
  assert (Lc : (0 < length c)%nat).
  { unfold wb_to_bytes in Ec. cbv zeta in Ec. destruct (vec_table _ _ _) as [t|]; [|discriminate Ec]. cbn [bind] in Ec. destruct (rel_ptr _ _) as [q|]; [|discriminate Ec]. cbn [bind] in Ec.
    apply ok_inj in Ec. subst c. rewrite !app_length. cbn [length]. lia. }
  exists (wbro_header ++ c). rewrite app_length. change (length wbro_header) with 12%nat. split; [lia|]. split.
  { unfold atsc_command. rewrite Hp. unfold atsc_process_args. rewrite Hi, single_made. unfold made. rewrite Hu, Hi, Hb, Hd, Ec. unfold output_of. rewrite Hu. cbn [fst]. apply put_same. }
  intros k Hkk. exists [All; All; All; Part (k - 12)]. unfold refusing_atsc_command. rewrite Hp. unfold refusing_process_args. rewrite Hk, Hi. unfold refusing_single_file. rewrite Hu, Hi. cbn [read_whole].
  rewrite Hb, Hd. unfold refusing_wbro. rewrite Ec. unfold write_wbro_file. cbn [create_file write_once]. eexists. split; [reflexivity|].
  cbn [do_op]. rewrite put_same, !content_put, write_at_start, write_at_end. f_equal. rewrite firstn_app. change (length wbro_header) with 12%nat. f_equal.
  symmetry. apply firstn_all2. change (length wbro_header) with 12%nat. lia.
Qed.
(** A directory run ends with status 0 without doing anything if the system lists the directory but does not tell what its entries are. *)
Theorem C86_directory_skipped_refuted ws known fs sp input a entries : atsc_parse ws = Some (input, a) -> known input = true -> fs input = None -> sp input = Some (Listing entries) ->
  (forall n, In n entries -> known (join input n) = false) ->
  refusing_atsc_command e p nt ws known fs sp [] = (fs, Some 0).
Proof.
  intros Hp Hk Hi Hs Hn. unfold refusing_atsc_command. rewrite Hp. unfold refusing_process_args. rewrite Hk, Hi, Hs.
  assert (D : refusing_directory e p nt a known fs (map (join input) entries) [] = (fs, [], Done)); [|now rewrite D].
  clear Hs. induction entries as [|n rest IH]; cbn [map refusing_directory read_whole]; [reflexivity|]. rewrite Hn by (now left). apply IH. intros m Hm. apply Hn. now right.
Qed.
End Commands.

(** * csv-compressor *)
Section Csvc.
Variable e : env.
Variable p : profile.
Variable nt : number_text.
Variable kept : list Z -> nat.
Variable pieces : list Z -> list (list Z).
Notation command := (refusing_csvc_command e p nt kept pieces).

Lemma put_wbro_congr fs fs' n w : same_files fs fs' -> snd (put_wbro fs n w) = snd (put_wbro fs' n w) /\ same_files (fst (put_wbro fs n w)) (fst (put_wbro fs' n w)).
Proof. intros S. unfold put_wbro. destruct (do c <- wb_to_bytes w; wbro_file c) as [f|]; (split; [reflexivity|]); [now apply put_congr|exact S]. Qed.

(** Compressing: status 0 means that all outputs asked for are complete; the .wavbro file only if no write was answered short. *)
Theorem C86_csvc_status_zero ws known fs os fs' c : csvc_parse ws = Some c -> c_uncompress c = false -> (c_output_wavbrro c = false \/ no_part os) ->
  command ws known fs os = (fs', Some 0) -> exists final, csvc_command e p nt ws fs = (final, Some 0) /\ same_files fs' final.
Proof.
  intros Hp Hu Hw H. unfold refusing_csvc_command in H. unfold csvc_command. rewrite Hp in *. destruct (if known (c_input c) then fs (c_input c) else None) as [b|] eqn:Ei; [|discriminate H].
  destruct (known (c_input c)); [|discriminate Ei]. rewrite Ei. unfold csvc_process_args. rewrite Hu in *. unfold refusing_csvc_compress in H. unfold csvc_compress. cbv zeta in *.
  destruct (read_csv_whole (fs (c_input c)) os) as [file os1] eqn:E1. destruct (read_csv_cases _ _ _ _ E1) as [[-> | ->] N1]; [|discriminate H].
  destruct (process_csv p nt (fs (c_input c))) as [m|]; [|discriminate H].
  set (base := match c_output c with Some o => o | None => c_input c end) in *.
  assert (W : exists fs1 os2, (if c_output_wavbrro c then refusing_wbro fs (set_extension base ext_wavbro) (mt_wbro m) os1 else (fs, os1, Done)) = (fs1, os2, Done) /\
    snd (if c_output_wavbrro c then put_wbro fs (set_extension base ext_wavbro) (mt_wbro m) else (fs, Done)) = Done /\
    same_files fs1 (fst (if c_output_wavbrro c then put_wbro fs (set_extension base ext_wavbro) (mt_wbro m) else (fs, Done)))).
  { destruct (c_output_wavbrro c).
    - destruct (refusing_wbro fs (set_extension base ext_wavbro) (mt_wbro m) os1) as [[fs1 os2] o1] eqn:E2. destruct (refusing_wbro_cases _ _ _ _ _ _ _ E2) as (_ & _ & [-> | ->] & C & D); [|discriminate H].
      exists fs1, os2. split; [reflexivity|]. split; [now apply C|]. destruct Hw as [Hw|Hw]; [discriminate Hw|]. apply D; [now apply N1|reflexivity].
    - exists fs, os1. split; [reflexivity|]. split; [reflexivity|apply same_files_refl]. }
  destruct W as (fs1 & os2 & W1 & W2 & W3). rewrite W1 in H. destruct (if c_output_wavbrro c then put_wbro _ _ _ else _) as [g1 o1]. cbn [fst snd] in W2, W3. subst o1.
  assert (V : exists fs2 os3, (if c_output_vsri c then write_buffered kept fs1 (set_extension base ext_vsri) (flush_bytes (mt_vsri m)) os2 else (fs1, os2, true)) = (fs2, os3, true) /\
    same_files fs2 (if c_output_vsri c then put g1 (set_extension base ext_vsri) (flush_bytes (mt_vsri m)) else g1)).
  { destruct (c_output_vsri c).
    - destruct (write_buffered kept fs1 (set_extension base ext_vsri) (flush_bytes (mt_vsri m)) os2) as [[fs2 os3] ok] eqn:E3. destruct (write_buffered_cases _ _ _ _ _ _ _ _ E3) as (_ & _ & C).
      destruct ok; [|discriminate H]. exists fs2, os3. split; [reflexivity|]. eapply same_trans; [now apply C|]. now apply put_congr.
    - exists fs1, os2. split; [reflexivity|exact W3]. }
  destruct V as (fs2 & os3 & V1 & V2). rewrite V1 in H. clear V1. set (g2 := if c_output_vsri c then _ else _) in V2 |- *. destruct (c_no_compression c); [exists g2; split; [reflexivity|]; assert (fs' = fs2) by congruence; now subst|].
  destruct (compress_data e p (wb_samples (mt_wbro m)) (c_compressor c) (c_error c) (c_level c)) as [bytes|]; [|discriminate H].
  destruct (write_file fs2 (set_extension base ext_bro) bytes os3) as [[fs3 os4] ok3] eqn:E4. destruct (write_file_cases _ _ _ _ _ _ _ E4) as [C _]. destruct ok3; [|discriminate H].
  assert (fs' = fs3) by congruence. subst fs3. eexists. split; [reflexivity|]. destruct C as [[D _]|(k & _ & K2 & K3)]; [discriminate D|]. rewrite (K3 eq_refl), firstn_all in K2.
  eapply same_trans; [exact K2|]. now apply put_congr.
Qed.

(** Uncompressing: with status 0, and no write answered short, the .wbro file is complete, and the CSV file holds everything but, possibly, a part of
    what was in the writer's buffer at the end. *)
Theorem C86_csvc_uncompress ws known fs os fs' c : csvc_parse ws = Some c -> c_uncompress c = true -> no_part os -> (forall b, concat (pieces b) = b) ->
  command ws known fs os = (fs', Some 0) ->
  exists final, csvc_command e p nt ws fs = (final, Some 0) /\
    (same_files fs' final \/
     exists text k, let csv := set_extension (set_extension (match c_output c with Some o => o | None => c_input c end) ext_wbro) ext_csv in
       final csv = Some text /\ (length (concat (removelast (pieces text))) <= k <= length text)%nat /\ same_files fs' (put final csv (firstn k text))).
Proof.
  intros Hp Hu Hn Hc H. unfold refusing_csvc_command in H. unfold csvc_command. rewrite Hp in *. destruct (if known (c_input c) then fs (c_input c) else None) as [b|] eqn:Ei; [|discriminate H].
  destruct (known (c_input c)); [|discriminate Ei]. rewrite Ei. unfold csvc_process_args. rewrite Hu in *. unfold refusing_csvc_uncompress in H. unfold csvc_uncompress. cbv zeta in *. rewrite Ei in *.
  destruct (read_whole (Some b) os) as [file os1] eqn:E1. destruct (read_whole_cases _ _ _ _ E1) as [[-> | ->] N1]; [|discriminate H].
  destruct (bro_read b) as [| |bytes]; [discriminate H|assert (fs' = fs) by congruence; subst; exists fs; split; [reflexivity|left; apply same_files_refl]|].
  destruct (do out <- decompress_data e p bytes; do w <- fold_res (wb_add p) out wb_new; Ok (out, w)) as [[out w]|]; [|discriminate H].
  destruct (read_whole (fs (set_extension (c_input c) ext_vsri)) os1) as [ifile os2] eqn:E2. destruct (read_whole_cases _ _ _ _ E2) as [[-> | ->] N2]; [|discriminate H].
  destruct (fs (set_extension (c_input c) ext_vsri)) as [ib|]; [|discriminate H]. destruct (load ib) as [index|]; [|discriminate H].
  set (base := match c_output c with Some o => o | None => c_input c end) in *.
  destruct (refusing_wbro fs (set_extension base ext_wbro) (wb_from_slice out) os2) as [[fs1 os3] o1] eqn:E3. destruct (refusing_wbro_cases _ _ _ _ _ _ _ E3) as (_ & N3 & [-> | ->] & C & D); [|discriminate H].
  assert (D' := D (N2 (N1 Hn)) eq_refl). assert (C' := C eq_refl). clear C D. destruct (put_wbro fs (set_extension base ext_wbro) (wb_from_slice out)) as [g1 o1]. cbn [fst snd] in *. subst o1.
  destruct (get_samples p (Metric w index)) as [samples|]; [|discriminate H].
  destruct (write_csv_file pieces fs1 (set_extension (set_extension base ext_wbro) ext_csv) (write_samples_text nt samples) os3) as [[fs2 os4] ok] eqn:E4.
  destruct (write_csv_cases _ _ _ _ _ _ _ _ (Hc _) E4) as [_ K]. destruct ok; [|discriminate H]. assert (fs' = fs2) by congruence. subst fs2. destruct (K eq_refl) as (k & K1 & K2).
  eexists. split; [reflexivity|]. right. exists (write_samples_text nt samples), k. split; [apply put_same|]. split; [exact K1|].
  eapply same_trans; [exact K2|]. eapply same_trans; [apply put_congr, D'|]. apply same_sym, put_put.
Qed.

(** That part can be lost: the disk refuses the last write, and the call ends with status 0 all the same. *)
Theorem C86_csv_lost_refuted ws known fs c b bytes final text first last : csvc_parse ws = Some c -> c_uncompress c = true -> known (c_input c) = true ->
  fs (c_input c) = Some b -> bro_read b = RBro bytes ->
  let csv := set_extension (set_extension (match c_output c with Some o => o | None => c_input c end) ext_wbro) ext_csv in
  csvc_command e p nt ws fs = (final, Some 0) -> final csv = Some text -> pieces text = first ++ [last] -> Forall (fun q => q <> []) first -> last <> [] ->
  exists os fs', command ws known fs os = (fs', Some 0) /\ fs' csv = Some (concat first) /\ (forall m, m <> csv -> fs' m = final m).
Proof.
  intros Hp Hu Hk Hi Hb csv H Hf Hpc Hq Hl. unfold csvc_command in H. rewrite Hp, Hi in H. unfold csvc_process_args in H. rewrite Hu in H. unfold csvc_uncompress in H. cbv zeta in H. rewrite Hi, Hb in H.
  destruct (do out <- decompress_data e p bytes; do w <- fold_res (wb_add p) out wb_new; Ok (out, w)) as [[out w]|] eqn:Ed; [|discriminate H].
  destruct (fs (set_extension (c_input c) ext_vsri)) as [ib|] eqn:Ev; [|discriminate H]. destruct (load ib) as [index|] eqn:Ex; [|discriminate H].
  set (base := match c_output c with Some o => o | None => c_input c end) in *.
  destruct (put_wbro fs (set_extension base ext_wbro) (wb_from_slice out)) as [g1 o1] eqn:Ew. destruct o1; [|discriminate H|discriminate H].
  destruct (get_samples p (Metric w index)) as [samples|] eqn:Es; [|discriminate H]. assert (F : final = put g1 csv (write_samples_text nt samples)) by (unfold csv; congruence).
  assert (T : text = write_samples_text nt samples) by (rewrite F, put_same in Hf; congruence).
  unfold put_wbro in Ew. destruct (wb_to_bytes (wb_from_slice out)) as [cb|] eqn:Ec; cbn [bind] in Ew; [|discriminate Ew].
  unfold wbro_file, write_wavbrro_file in Ew. rewrite firstn_all, firstn_all, write_at_start, write_at_end in Ew. assert (G : g1 = put fs (set_extension base ext_wbro) (wbro_header ++ cb)) by congruence. clear Ew.
  assert (Wp : forall qs f0 done, Forall (fun q => q <> []) qs -> f0 csv = Some done -> exists f1, write_pieces f0 csv (qs ++ [last]) (repeat All (length qs) ++ [Refused]) = (f1, [], true) /\ f1 csv = Some (done ++ concat qs) /\ (forall m, m <> csv -> f1 m = f0 m)).
  { induction qs as [|q qs IH]; intros f0 done Hqs Hdone.
    - cbn [app length repeat write_pieces]. exists f0. cbn [concat]. rewrite app_nil_r. split; [|auto]. destruct last as [|l0 last]; [congruence|]. reflexivity.
    - inversion Hqs as [|? ? Q1 Q2]; subst. destruct q as [|q0 q]; [congruence|].
      assert (Ne : qs ++ [last] <> []) by (destruct qs; discriminate). cbn [app length repeat].
      destruct (qs ++ [last]) as [|r rs] eqn:Er; [congruence|].
      change (write_pieces f0 csv ((q0 :: q) :: r :: rs) (All :: repeat All (length qs) ++ [Refused])) with (write_pieces (put f0 csv (content f0 csv ++ q0 :: q)) csv (r :: rs) (repeat All (length qs) ++ [Refused])).
      rewrite (content_at _ _ _ Hdone). destruct (IH (put f0 csv (done ++ q0 :: q)) (done ++ q0 :: q) Q2 (put_same _ _ _)) as (f1 & I1 & I2 & I3).
      exists f1. split; [exact I1|]. split; [rewrite I2; cbn [concat]; now rewrite <- app_assoc|]. intros m Hm. rewrite (I3 m Hm). now apply put_other. }
  set (fw := do_op (do_op (put fs (set_extension base ext_wbro) []) (WriteAt (set_extension base ext_wbro) 0 wbro_header)) (WriteAt (set_extension base ext_wbro) (length wbro_header) cb)).
  assert (Fw : same_files fw g1) by (rewrite G; apply (run_wbro (set_extension base ext_wbro) cb fs)).
  destruct (Wp first (put fw csv []) [] Hq (put_same _ _ _)) as (f1 & W1 & W2 & W3).
  exists (All :: All :: All :: All :: All :: All :: repeat All (length first) ++ [Refused]), f1.
  split; [|split; [exact W2|intros m Hm; rewrite (W3 m Hm), put_other by exact Hm; rewrite F, put_other by exact Hm; apply Fw]].
  unfold refusing_csvc_command. rewrite Hp, Hk, Hi, Hu. unfold refusing_csvc_uncompress. cbv zeta. rewrite Hi. cbn [read_whole]. rewrite Hb, Ed, Ev. cbn [read_whole]. rewrite Ex. fold base.
  unfold refusing_wbro. rewrite Ec. unfold write_wbro_file. cbn [create_file write_once]. fold fw. rewrite Es. fold csv. unfold write_csv_file. cbn [create_file]. rewrite <- T, Hpc, W1. reflexivity.
Qed.

(** The files a call of csv-compressor may write. *)
Definition csvc_outputs (c : csvc_args) : list name :=
  let base := match c_output c with Some o => o | None => c_input c end in
  if c_uncompress c then [set_extension base ext_wbro; set_extension (set_extension base ext_wbro) ext_csv]
  else [set_extension base ext_wavbro; set_extension base ext_vsri; set_extension base ext_bro].
Theorem C86_csvc_only_outputs ws known fs os fs' st y : (forall b, concat (pieces b) = b) -> (forall c, csvc_parse ws = Some c -> ~ In y (csvc_outputs c)) ->
  command ws known fs os = (fs', st) -> fs' y = fs y.
Proof.
  intros Hc Hy H. unfold refusing_csvc_command in H. destruct (csvc_parse ws) as [c|]; [|congruence]. specialize (Hy c eq_refl). destruct (if known (c_input c) then fs (c_input c) else None) as [b|]; [|congruence].
  unfold csvc_outputs in Hy. destruct (c_uncompress c); cbn [In] in Hy.
  - assert (U : forall g o, refusing_csvc_uncompress e p nt pieces c fs os = (g, o) -> g y = fs y); [|destruct (refusing_csvc_uncompress e p nt pieces c fs os) as [g o]; assert (fs' = g) by congruence; subst g; now apply (U fs' o)].
    clear H. intros g o. unfold refusing_csvc_uncompress. cbv zeta. set (base := match c_output c with Some o => o | None => c_input c end) in *.
    destruct (read_whole (fs (c_input c)) os) as [[b0|] os1]; [|congruence]. destruct (bro_read b0) as [| |bytes]; [congruence|congruence|].
    destruct (do out <- decompress_data e p bytes; do w <- fold_res (wb_add p) out wb_new; Ok (out, w)) as [[out w]|]; [|congruence].
    destruct (read_whole (fs (set_extension (c_input c) ext_vsri)) os1) as [[ib|] os2]; [|congruence]. destruct (load ib) as [index|]; [|congruence].
    destruct (refusing_wbro fs (set_extension base ext_wbro) (wb_from_slice out) os2) as [[fs1 os3] o1] eqn:E3. destruct (refusing_wbro_cases _ _ _ _ _ _ _ E3) as (F1 & _).
    assert (Y1 : fs1 y = fs y) by (apply F1; intros X; apply Hy; left; now symmetry).
    destruct o1; [|congruence|congruence]. destruct (get_samples p (Metric w index)) as [samples|]; [|congruence].
    destruct (write_csv_file pieces fs1 _ (write_samples_text nt samples) os3) as [[fs2 os4] ok] eqn:E4. destruct (write_csv_cases _ _ _ _ _ _ _ _ (Hc _) E4) as [F2 _].
    intros H. assert (g = fs2) by congruence. subst g. rewrite <- Y1. apply F2. intros X. apply Hy. right. left. now symmetry.
  - assert (U : forall g o, refusing_csvc_compress e p nt kept c fs os = (g, o) -> g y = fs y); [|destruct (refusing_csvc_compress e p nt kept c fs os) as [g o]; assert (fs' = g) by congruence; subst g; now apply (U fs' o)].
    clear H. intros g o. unfold refusing_csvc_compress. cbv zeta. set (base := match c_output c with Some o => o | None => c_input c end) in *.
    destruct (read_csv_whole (fs (c_input c)) os) as [file os1]. destruct (process_csv p nt file) as [m|]; [|congruence].
    assert (W : forall fs1 os2 o1, (if c_output_wavbrro c then refusing_wbro fs (set_extension base ext_wavbro) (mt_wbro m) os1 else (fs, os1, Done)) = (fs1, os2, o1) -> fs1 y = fs y).
    { intros fs1 os2 o1 E. destruct (c_output_wavbrro c); [|congruence]. destruct (refusing_wbro_cases _ _ _ _ _ _ _ E) as (F1 & _). apply F1. intros X. apply Hy. left. now symmetry. }
    destruct (if c_output_wavbrro c then _ else _) as [[fs1 os2] o1]. specialize (W _ _ _ eq_refl). destruct o1; [|congruence|congruence].
    assert (V : forall fs2 os3 ok, (if c_output_vsri c then write_buffered kept fs1 (set_extension base ext_vsri) (flush_bytes (mt_vsri m)) os2 else (fs1, os2, true)) = (fs2, os3, ok) -> fs2 y = fs y).
    { intros fs2 os3 ok E. rewrite <- W. destruct (c_output_vsri c); [|congruence]. destruct (write_buffered_cases _ _ _ _ _ _ _ _ E) as (F1 & _). apply F1. intros X. apply Hy. right. left. now symmetry. }
    destruct (if c_output_vsri c then _ else _) as [[fs2 os3] ok]. specialize (V _ _ _ eq_refl). destruct ok; [|congruence]. destruct (c_no_compression c); [congruence|].
    destruct (compress_data e p _ _ _ _) as [bytes|]; [|congruence]. destruct (write_file fs2 (set_extension base ext_bro) bytes os3) as [[fs3 os4] ok3] eqn:E4. intros H. assert (g = fs3) by congruence. subst g.
    rewrite <- V. destruct (write_file_cases _ _ _ _ _ _ _ E4) as [[[_ S]|(k & _ & S & _)] _]; [apply S|]. rewrite (S y). apply put_other. intros X. apply Hy. right. right. left. now symmetry.
Qed.

Lemma write_all_none fs n c b : fs n = Some c -> exists fs', write_all fs n b [] = (fs', [], true) /\ same_files fs' (put fs n (c ++ b)).
Proof.
  intros H. destruct (write_all fs n b []) as [[fs' os'] ok] eqn:E. assert (Q : os' = [] /\ ok = true) by (destruct b; cbn [write_all] in E; split; congruence). destruct Q as [-> ->].
  destruct (write_all_cases n _ _ _ _ _ _ _ H E) as [(k & _ & S & K) _]. exists fs'. split; [reflexivity|]. now rewrite (K eq_refl), firstn_all in S.
Qed.
Lemma write_pieces_none n : forall ps fs c, fs n = Some c -> exists fs', write_pieces fs n ps [] = (fs', [], true) /\ same_files fs' (put fs n (c ++ concat ps)).
Proof.
  induction ps as [|q ps IH]; intros fs c Hc.
  - exists fs. split; [reflexivity|]. cbn [concat]. rewrite app_nil_r. intros m. symmetry. now apply put_self.
  - destruct (write_all_none fs n c q Hc) as (fs1 & E1 & S1). assert (Hc1 : fs1 n = Some (c ++ q)) by (rewrite (S1 n); apply put_same). destruct ps as [|q2 ps].
    + cbn [write_pieces concat]. rewrite E1, app_nil_r. exists fs1. auto.
    + destruct (IH fs1 _ Hc1) as (fs2 & E2 & S2). exists fs2.
      change (write_pieces fs n (q :: q2 :: ps) []) with (let '(fs1, os1, ok) := write_all fs n q [] in if ok then write_pieces fs1 n (q2 :: ps) os1 else let '(fs2, os2, _) := write_all fs1 n q os1 in (fs2, os2, false)).
      rewrite E1. split; [exact E2|]. eapply same_trans; [exact S2|]. cbn [concat]. rewrite <- app_assoc. intros m. destruct (list_eq_dec Z.eq_dec m n) as [->|Nm]; [now rewrite !put_same|]. rewrite !put_other by exact Nm. rewrite (S1 m). now apply put_other.
Qed.
Theorem C86_csvc_no_refusal ws fs : (forall b, concat (pieces b) = b) -> exists fs', command ws (fun _ => true) fs [] = (fs', snd (csvc_command e p nt ws fs)) /\
  same_files fs' (fst (csvc_command e p nt ws fs)).
Proof.
  intros Hc. unfold refusing_csvc_command, csvc_command. destruct (csvc_parse ws) as [c|]; [|exists fs; split; [reflexivity|apply same_files_refl]].
  destruct (fs (c_input c)) as [b|] eqn:Ei; [|exists fs; split; [reflexivity|apply same_files_refl]]. unfold csvc_process_args. destruct (c_uncompress c).
  - assert (U : exists fs', refusing_csvc_uncompress e p nt pieces c fs [] = (fs', snd (csvc_uncompress e p nt c fs)) /\ same_files fs' (fst (csvc_uncompress e p nt c fs)));
      [|destruct U as (fs' & -> & S); destruct (csvc_uncompress e p nt c fs) as [g o]; exists fs'; auto].
    unfold refusing_csvc_uncompress, csvc_uncompress. cbv zeta. cbn [read_whole]. rewrite Ei. set (base := match c_output c with Some o => o | None => c_input c end).
    destruct (bro_read b) as [| |bytes]; try (exists fs; split; [reflexivity|apply same_files_refl]).
    destruct (do out <- decompress_data e p bytes; do w <- fold_res (wb_add p) out wb_new; Ok (out, w)) as [[out w]|]; [|exists fs; split; [reflexivity|apply same_files_refl]].
    cbn [read_whole]. destruct (fs (set_extension (c_input c) ext_vsri)) as [ib|]; [|exists fs; split; [reflexivity|apply same_files_refl]].
    destruct (load ib) as [index|]; [|exists fs; split; [reflexivity|apply same_files_refl]].
    destruct (refusing_wbro_none fs (set_extension base ext_wbro) (wb_from_slice out)) as (fs1 & -> & S1). destruct (put_wbro fs (set_extension base ext_wbro) (wb_from_slice out)) as [g1 o1]. cbn [fst snd] in *.
    destruct o1; try (exists fs1; auto; fail). destruct (get_samples p (Metric w index)) as [samples|]; [|exists fs1; auto].
    unfold write_csv_file. cbn [create_file]. set (csv := set_extension (set_extension base ext_wbro) ext_csv).
    destruct (write_pieces_none csv (pieces (write_samples_text nt samples)) (put fs1 csv []) [] (put_same _ _ _)) as (fs2 & -> & S2). exists fs2. split; [reflexivity|]. cbn [fst]. rewrite Hc in S2. cbn [app] in S2.
    eapply same_trans; [exact S2|]. eapply same_trans; [apply put_put|]. now apply put_congr.
  - assert (U : exists fs', refusing_csvc_compress e p nt kept c fs [] = (fs', snd (csvc_compress e p nt c fs)) /\ same_files fs' (fst (csvc_compress e p nt c fs)));
      [|destruct U as (fs' & -> & S); destruct (csvc_compress e p nt c fs) as [g o]; exists fs'; auto].
    unfold refusing_csvc_compress, csvc_compress. cbv zeta. cbn [read_csv_whole]. set (base := match c_output c with Some o => o | None => c_input c end).
    destruct (process_csv p nt (fs (c_input c))) as [m|]; [|exists fs; split; [reflexivity|apply same_files_refl]].
    assert (W : exists fs1, (if c_output_wavbrro c then refusing_wbro fs (set_extension base ext_wavbro) (mt_wbro m) [] else (fs, ([] : answers), Done)) =
       (fs1, [], snd (if c_output_wavbrro c then put_wbro fs (set_extension base ext_wavbro) (mt_wbro m) else (fs, Done))) /\
       same_files fs1 (fst (if c_output_wavbrro c then put_wbro fs (set_extension base ext_wavbro) (mt_wbro m) else (fs, Done)))).
    { destruct (c_output_wavbrro c); [apply refusing_wbro_none|exists fs; split; [reflexivity|apply same_files_refl]]. }
    destruct W as (fs1 & -> & S1). destruct (if c_output_wavbrro c then put_wbro _ _ _ else _) as [g1 o1]. cbn [fst snd] in *. destruct o1; try (exists fs1; auto; fail).
    assert (V : exists fs2, (if c_output_vsri c then write_buffered kept fs1 (set_extension base ext_vsri) (flush_bytes (mt_vsri m)) [] else (fs1, ([] : answers), true)) = (fs2, [], true) /\
       same_files fs2 (if c_output_vsri c then put g1 (set_extension base ext_vsri) (flush_bytes (mt_vsri m)) else g1)).
    { destruct (c_output_vsri c); [|exists fs1; auto]. unfold write_buffered. cbn [create_file]. set (v := set_extension base ext_vsri).
      destruct (write_all_none (put fs1 v []) v [] (flush_bytes (mt_vsri m)) (put_same _ _ _)) as (fs2 & -> & S2). exists fs2. split; [reflexivity|]. eapply same_trans; [exact S2|]. eapply same_trans; [apply put_put|]. now apply put_congr. }
    destruct V as (fs2 & -> & S2). set (g2 := if c_output_vsri c then _ else _) in *. clearbody g2. destruct (c_no_compression c); [exists fs2; auto|].
    destruct (compress_data e p _ _ _ _) as [bytes|]; [|exists fs2; auto]. destruct (write_file_none fs2 (set_extension base ext_bro) bytes) as (fs3 & -> & S3). exists fs3. split; [reflexivity|].
    cbn [fst]. eapply same_trans; [exact S3|]. now apply put_congr.
Qed.
End Csvc.
Print Assumptions C86_csvc_only_outputs.
Print Assumptions C86_csvc_no_refusal.

Print Assumptions C86_csvc_status_zero.
Print Assumptions C86_csvc_uncompress.
Print Assumptions C86_csv_lost_refuted.
Print Assumptions C86_no_refusal.
Print Assumptions C86_status_zero.
Print Assumptions C86_only_outputs.
Print Assumptions C86_failed_compress.
Print Assumptions C86_short_write_refuted.
Print Assumptions C86_directory_skipped_refuted.

(** The hypotheses are met: x.wbro with three samples, compressed without loss on a disk that is interrupted and takes pieces; one that refuses to
    create the output; one that is full after five bytes; uncompressed on a disk that takes only four bytes of the samples; and csv-compressor on a
    disk that refuses the CSV file. *)
From Coq Require Import String.
Open Scope string_scope.
Open Scope Z_scope.
Open Scope list_scope.
Definition here : name -> bool := fun _ => true.
Definition rle_words : list text := [txt "--compressor"; txt "rle"; txt "x.wbro"].
Definition after_rle (os : answers) : files * option Z := refusing_atsc_command id_env Dev toy_numbers rle_words here one_file (fun _ => None) os.
Definition back_words : list text := [txt "-u"; txt "x.bro"].
Example C86_applies :
  snd (after_rle [All; Interrupted; All; Part 5; Interrupted; Part 3]) = Some 0 /\
  (exists bytes, fst (after_rle [All; Interrupted; All; Part 5; Interrupted; Part 3]) (txt "x.bro") = Some bytes /\ fst (after_rle [All; All; Part 5; Refused]) (txt "x.bro") = Some (firstn 5 bytes) /\ (5 < List.length bytes)%nat) /\
  snd (after_rle [All; Refused]) = Some 1 /\ fst (after_rle [All; Refused]) (txt "x.bro") = None /\ snd (after_rle [All; All; Part 5; Refused]) = Some 1 /\
  (exists torn, refusing_atsc_command id_env Dev toy_numbers back_words here (fst (after_rle [])) (fun _ => None) [All; All; All; Part 4] = (torn, Some 0) /\
     exists b, torn (txt "x.wbro") = Some b /\ List.length b = 16%nat).
Proof.
  split; [vm_compute; reflexivity|]. split; [eexists; split; [vm_compute; reflexivity|]; split; [vm_compute; reflexivity|cbn [List.length]; lia]|].
  split; [vm_compute; reflexivity|]. split; [vm_compute; reflexivity|]. split; [vm_compute; reflexivity|].
  destruct (refusing_atsc_command id_env Dev toy_numbers back_words here (fst (after_rle [])) (fun _ => None) [All; All; All; Part 4]) as [torn st] eqn:E. exists torn.
  assert (S : st = Some 0) by (apply (f_equal snd) in E; cbn [snd] in E; rewrite <- E; vm_compute; reflexivity). subst st. split; [reflexivity|].
  apply (f_equal (fun q => fst q (txt "x.wbro"))) in E. cbn [fst] in E. rewrite <- E. eexists. split; [vm_compute; reflexivity|reflexivity].
Qed.
Definition noop_words : list text := [txt "--compressor"; txt "noop"; txt "--output-vsri"; txt "x.csv"].
Definition after_noop : files := fst (csvc_command id_env Dev toy_numbers noop_words csv_file).
Definition one_piece (b : list Z) : list (list Z) := [b].
Example C86_csv_applies : (forall b, List.concat (one_piece b) = b) /\
  snd (csvc_command id_env Dev toy_numbers back_words after_noop) = Some 0 /\
  (exists text, fst (csvc_command id_env Dev toy_numbers back_words after_noop) (txt "x.csv") = Some text /\ text <> []) /\
  snd (refusing_csvc_command id_env Dev toy_numbers (fun _ => 0%nat) one_piece back_words here after_noop [All; All; All; All; All; All; Refused]) = Some 0 /\
  fst (refusing_csvc_command id_env Dev toy_numbers (fun _ => 0%nat) one_piece back_words here after_noop [All; All; All; All; All; All; Refused]) (txt "x.csv") = Some [].
Proof.
  split; [intros b; cbn [one_piece List.concat]; apply app_nil_r|]. split; [vm_compute; reflexivity|]. split; [eexists; split; [vm_compute; reflexivity|discriminate]|]. split; vm_compute; reflexivity.
Qed.
