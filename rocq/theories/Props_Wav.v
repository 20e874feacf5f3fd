(** C43: the converter from the legacy WAV files. *)
From Coq Require Import List ZArith Bool Lia ZifyBool.
From Verif Require Import Base Model_Float Model_Bincode BincodeFacts Spec FloatFacts Model_Wavbrro Props_Wavbrro Model_Csv CsvFacts Model_Cli Props_Cli.
Import ListNotations.
Open Scope Z_scope.

(** * Vocabulary *)
Definition word (z : Z) : Prop := 0 <= z < 2 ^ 16.
(** The four 16-bit words of a double, least significant first, as the signed numbers a 16-bit WAV file holds. *)
Definition words_of (x : f64) : list Z :=
  let b := to_bits x in
  map (fun w => if w <? 2 ^ 15 then w else w - 2 ^ 16) [b mod 2 ^ 16; (b / 2 ^ 16) mod 2 ^ 16; (b / 2 ^ 32) mod 2 ^ 16; b / 2 ^ 48].
(** The number whose base-2^16 digits are the unsigned readings of the signed words [g], least significant first. *)
Fixpoint little_endian (g : list Z) : Z := match g with [] => 0 | w :: r => w mod 2 ^ 16 + 2 ^ 16 * little_endian r end.
Definition not_nan (x : f64) : Prop := fis_nan x = false.

Lemma lor_add a b n : 0 <= n -> 0 <= a < 2 ^ n -> 0 <= b -> Z.lor a (Z.shiftl b n) = a + b * 2 ^ n.
Proof.
  intros Hn Ha Hb. rewrite Z.shiftl_mul_pow2 by lia. rewrite <- Z.lxor_lor, <- Z.add_nocarry_lxor; [reflexivity| |];
  (apply Z.bits_inj'; intros k Hk; rewrite Z.land_spec, Z.bits_0, Z.mul_pow2_bits by lia;
   destruct (Z_lt_le_dec k n); [rewrite (Z.testbit_neg_r b) by lia; apply andb_false_r|];
   replace (Z.testbit a k) with false; [reflexivity|]; symmetry;
   destruct (Z.eq_dec a 0) as [->|]; [apply Z.bits_0|]; apply Z.bits_above_log2; [lia|]; apply Z.lt_le_trans with n; [apply Z.log2_lt_pow2; lia|lia]).
Qed.

(** * C43 *)
(** The double has the four words as its bit pattern. *)
Theorem C43_join_bits : forall b0 b1 b2 b3, word b0 -> word b1 -> word b2 -> word b3 ->
  to_bits (join_u16_into_f64 b0 b1 b2 b3) = b0 + 2 ^ 16 * b1 + 2 ^ 32 * b2 + 2 ^ 48 * b3.
Proof.
  unfold word. intros b0 b1 b2 b3 H0 H1 H2 H3. unfold join_u16_into_f64.
  assert (E1 : Z.lor b0 (Z.shiftl b1 16) = b0 + b1 * 2 ^ 16) by (apply lor_add; lia).
  assert (E2 : Z.lor (b0 + b1 * 2 ^ 16) (Z.shiftl b2 32) = b0 + b1 * 2 ^ 16 + b2 * 2 ^ 32) by (apply lor_add; lia).
  assert (E3 : Z.lor (b0 + b1 * 2 ^ 16 + b2 * 2 ^ 32) (Z.shiftl b3 48) = b0 + b1 * 2 ^ 16 + b2 * 2 ^ 32 + b3 * 2 ^ 48) by (apply lor_add; lia).
  rewrite E1, E2, E3, to_bits_from_bits by lia. lia.
Qed.
Print Assumptions C43_join_bits.

Definition pad (g : list Z) : list Z := map (wrap_u 16) g ++ repeat 0 (4 - length g).

Lemma wrap_word z : word (wrap_u 16 z).
Proof. unfold word, wrap_u. apply Z.mod_pos_bound. lia. Qed.
Lemma join_group g : (length g <= 4)%nat -> let h := pad g in join_u16_into_f64 (nth 0 h 0) (nth 1 h 0) (nth 2 h 0) (nth 3 h 0) = from_bits (little_endian g).
Proof.
  intros H h. assert (W : forall i, word (nth i h 0)).
  { intros i. subst h. destruct (nth_in_or_default i (pad g) 0) as [I|I]; [|rewrite I; unfold word; lia]. revert I. generalize (nth i (pad g) 0). intros z I. unfold pad in I. apply in_app_iff in I. destruct I as [I|I].
    - apply in_map_iff in I. destruct I as (z' & <- & _). apply wrap_word.
    - apply repeat_spec in I. rewrite I. unfold word. lia. }
  assert (R : 0 <= little_endian g < 2 ^ (16 * Z.of_nat (length g))).
  { clear. induction g as [|w r IH]; [cbn; lia|]. cbn [little_endian length]. assert (M := Z.mod_pos_bound w (2 ^ 16) ltac:(lia)).
    replace (16 * Z.of_nat (S (length r))) with (16 + 16 * Z.of_nat (length r)) by lia. rewrite Z.pow_add_r by lia. nia. }
  assert (R2 : 0 <= little_endian g < 2 ^ 64) by (split; [apply R|]; apply Z.lt_le_trans with (2 ^ (16 * Z.of_nat (length g))); [apply R|]; apply Z.pow_le_mono_r; lia).
  apply to_bits_inj. rewrite C43_join_bits by apply W. rewrite to_bits_from_bits by exact R2.
  unfold h, pad, wrap_u. destruct g as [|w0 [|w1 [|w2 [|w3 [|w4 g]]]]]; cbn [length] in H; try lia; cbn [map length Nat.sub repeat app nth little_endian]; lia.
Qed.

(** Reading within one group. *)
Lemma set_nth_app i x l : forall y r, i = length l -> set_nth i x (l ++ y :: r) = Some (l ++ x :: r).
Proof. revert i. induction l as [|a l IH]; intros i y r ->; cbn [length set_nth app option_map]; [reflexivity|]. now rewrite (IH _ y r eq_refl). Qed.
Lemma read_group c g done_ rest tail4 : (length done_ + length g = c)%nat -> g <> [] -> (c <= 4)%nat -> length tail4 = (4 - length done_)%nat ->
  read_wav c (map (wrap_u 16) done_ ++ tail4) (length done_) (g ++ rest) =
  let h := map (wrap_u 16) (done_ ++ g) ++ skipn (length g) tail4 in
  do r <- read_wav c h 0 rest; Ok (join_u16_into_f64 (nth 0 h 0) (nth 1 h 0) (nth 2 h 0) (nth 3 h 0) :: r).
Proof.
  revert done_ tail4. induction g as [|s g IH]; intros dn tl Hc Hg Hc4 Ht; [congruence|]. cbn [app read_wav].
  destruct tl as [|t tl]; [cbn [length] in *; lia|]. rewrite set_nth_app by (now rewrite map_length). cbn [length skipn] in *.
  destruct g as [|s' g].
  - replace (S (length dn) =? c)%nat with true by (cbn [length] in Hc; lia). cbn [length skipn app]. rewrite map_app, <- app_assoc. reflexivity.
  - replace (S (length dn) =? c)%nat with false by (cbn [length] in Hc; lia).
    specialize (IH (dn ++ [s]) tl). rewrite app_length in IH. cbn [length] in *.
    replace (S (length dn)) with (length dn + 1)%nat by lia.
    replace (map (wrap_u 16) dn ++ wrap_u 16 s :: tl) with (map (wrap_u 16) (dn ++ [s]) ++ tl) by (rewrite map_app, <- app_assoc; reflexivity).
    rewrite IH by (try discriminate; lia). rewrite <- app_assoc. reflexivity.
Qed.

(** Fewer samples than the group needs give nothing. *)
Lemma read_incomplete c g dn tl : (length dn + length g < c)%nat -> (c <= 4)%nat -> length tl = (4 - length dn)%nat ->
  read_wav c (map (wrap_u 16) dn ++ tl) (length dn) g = Ok [].
Proof.
  revert dn tl. induction g as [|s g IH]; intros dn tl Hc Hc4 Ht; [reflexivity|]. cbn [read_wav]. cbn [length] in Hc.
  destruct tl as [|t tl]; [cbn [length] in *; lia|]. rewrite set_nth_app by (now rewrite map_length). replace (S (length dn) =? c)%nat with false by lia.
  specialize (IH (dn ++ [s]) tl). rewrite app_length in IH. cbn [length] in *. replace (S (length dn)) with (length dn + 1)%nat by lia.
  replace (map (wrap_u 16) dn ++ wrap_u 16 s :: tl) with (map (wrap_u 16) (dn ++ [s]) ++ tl) by (rewrite map_app, <- app_assoc; reflexivity).
  apply IH; lia.
Qed.

(** With one to four channels every complete group of samples gives the double with these words as low bits (the missing ones are
    zero); an incomplete last group is dropped. *)
Theorem C43_channels : forall c groups tail,
  (1 <= c <= 4)%nat -> Forall (fun g => length g = c) groups -> (length tail < c)%nat ->
  read_metrics_from_wav (Some (c, concat groups ++ tail)) = Ok (map (fun g => from_bits (little_endian g)) groups).
Proof.
  intros c groups tail Hc Hg Ht. unfold read_metrics_from_wav.
  enough (G : forall h, length h = 4%nat -> skipn c h = repeat 0 (4 - c) -> read_wav c h 0 (concat groups ++ tail) = Ok (map (fun g => from_bits (little_endian g)) groups)).
  { apply G; [reflexivity|]. destruct c as [|[|[|[|[|c]]]]]; try reflexivity; lia. }
  induction groups as [|g groups IH]; intros h Hh Hz; cbn [concat map app].
  - exact (read_incomplete c tail [] h ltac:(cbn; lia) ltac:(lia) ltac:(cbn; lia)).
  - inversion Hg as [|? ? Hl Hg']; subst. rewrite <- app_assoc. assert (g <> []) by (intros ->; cbn in Hc; lia).
    assert (R := read_group (length g) g [] (concat groups ++ tail) h ltac:(reflexivity) H ltac:(lia) ltac:(cbn; lia)). cbn [map app length] in R. rewrite R.
    cbn zeta. rewrite Hz. change (map (wrap_u 16) g ++ repeat 0 (4 - length g)) with (pad g). rewrite (join_group g ltac:(lia)).
    rewrite IH; [reflexivity|exact Hg'| |].
    + unfold pad. rewrite app_length, map_length, repeat_length. lia.
    + unfold pad. rewrite skipn_app, map_length, skipn_all2 by (rewrite map_length; lia). rewrite Nat.sub_diag. reflexivity.
Qed.
Print Assumptions C43_channels.

(** Doubles written as four channels of 16 bits come back exactly, NaN patterns included. *)
Theorem C43_split_join : forall data, read_metrics_from_wav (Some (4%nat, flat_map words_of data)) = Ok data.
Proof.
  intros data. assert (E : flat_map words_of data = concat (map words_of data) ++ []) by (rewrite app_nil_r; apply flat_map_concat_map). rewrite E.
  rewrite C43_channels; [|lia| |cbn; lia].
  - f_equal. rewrite map_map. rewrite <- (map_id data) at 2. apply map_ext. intros x. rewrite <- (from_bits_to_bits x) at 2. f_equal.
    assert (B := to_bits_range x). unfold words_of. cbn [map little_endian]. set (b := to_bits x) in *.
    assert (S1 : forall w, 0 <= w < 2 ^ 16 -> (if w <? 2 ^ 15 then w else w - 2 ^ 16) mod 2 ^ 16 = w).
    { intros w Hw. destruct (w <? 2 ^ 15); [apply Z.mod_small; lia|]. replace (w - 2 ^ 16) with (w + (-1) * 2 ^ 16) by lia. rewrite Z.mod_add by lia. apply Z.mod_small. lia. }
    rewrite !S1 by (first [apply Z.mod_pos_bound; lia | Z.to_euclidean_division_equations; lia]). clear S1. Z.to_euclidean_division_equations. lia.
  - rewrite Forall_map. apply Forall_forall. intros x _. reflexivity.
Qed.
Print Assumptions C43_split_join.

(** More than four channels (or none) panic at the fifth sample of the file. *)
Theorem C43_more_channels_panic : forall c samples, (c = 0 \/ 4 < c)%nat -> (5 <= length samples)%nat ->
  read_metrics_from_wav (Some (c, samples)) = Panic PIndex.
Proof.
  intros c samples Hc Hl. destruct samples as [|s0 [|s1 [|s2 [|s3 [|s4 r]]]]]; cbn [length] in Hl; try lia.
  unfold read_metrics_from_wav. cbn [read_wav set_nth option_map].
  replace (1 =? c)%nat with false by lia. replace (2 =? c)%nat with false by lia. replace (3 =? c)%nat with false by lia. replace (4 =? c)%nat with false by lia. reflexivity.
Qed.
Print Assumptions C43_more_channels_panic.

(** * The converter *)
Lemma add_unless_nan_filter p data : forall w, fold_res (add_unless_nan p) data w = fold_res (wb_add p) (filter (fun x => negb (fis_nan x)) data) w.
Proof.
  induction data as [|x r IH]; intros w; cbn [fold_res filter]; [reflexivity|]. unfold add_unless_nan at 1. destruct (fis_nan x); cbn [negb bind fold_res]; [apply IH|].
  destruct (wb_add p w x); cbn [bind]; [apply IH|reflexivity].
Qed.
Lemma filter_subsequence data : subsequence_of not_nan data (filter (fun x => negb (fis_nan x)) data).
Proof.
  induction data as [|x r IH]; cbn [filter]; [constructor|]. destruct (fis_nan x) eqn:E; cbn [negb]; constructor; try exact IH; unfold not_nan; congruence.
Qed.
Lemma subsequence_unique P data : forall s1 s2, subsequence_of P data s1 -> subsequence_of P data s2 -> s1 = s2.
Proof.
  induction data as [|x r IH]; intros s1 s2 H1 H2; inversion H1; inversion H2; subst; try reflexivity; try contradiction; [f_equal|]; now apply IH.
Qed.
Lemma strip_named x : strip_suffix (named x ext_wav) ext_wav = Some (x ++ [46]).
Proof.
  unfold strip_suffix, named. rewrite app_assoc. set (y := x ++ [46]). rewrite app_length. replace (length y + length ext_wav - length ext_wav)%nat with (length y) by lia.
  rewrite skipn_app, skipn_all, Nat.sub_diag, firstn_app, firstn_all, Nat.sub_diag. cbn [app firstn skipn]. rewrite (proj2 (text_eqb_spec _ _) eq_refl), app_nil_r.
  replace (_ <=? _)%nat with true by lia. reflexivity.
Qed.
Lemma feq_list_same l : Forall not_nan l -> feq_list l l = true.
Proof. induction l as [|x l IH]; intros H; [reflexivity|]. inversion H; subst. cbn [feq_list]. rewrite feq_refl by assumption. now apply IH. Qed.
Lemma feq_list_length a : forall b, feq_list a b = true -> length a = length b.
Proof. induction a as [|x a IH]; intros [|y b] H; try reflexivity; try discriminate H. cbn [feq_list] in H. apply andb_true_iff in H. cbn [length]. f_equal. now apply IH. Qed.
Lemma fold_add_all p data : forall w, fold_res (wb_add p) data w = Props_Wavbrro.add_all p w data.
Proof. induction data as [|x r IH]; intros w; cbn [fold_res Props_Wavbrro.add_all]; [reflexivity|]. destruct (wb_add p w x); cbn [bind]; [apply IH|reflexivity]. Qed.
Lemma put_wbro_object p fs n data w : Z.of_nat (length data) <= 2 ^ 28 -> fold_res (wb_add p) data wb_new = Ok w ->
  wb_samples w = data /\ exists file, put_wbro fs n w = (put fs n file, Done) /\ from_file (Some file) = Ok (WbSamples data).
Proof.
  intros Hl E. destruct (C36_accumulates p data ltac:(lia)) as (w' & E' & S' & _ & _ & F). assert (w' = w) as -> by (rewrite <- fold_add_all, E in E'; now apply ok_inj in E').
  split; [exact S'|]. rewrite <- F. now apply put_wbro_reads.
Qed.

(** A file x.wav with the RIFF and WAVE marks whose four channels hold [data] is converted to x.wbro with exactly the samples that
    are not NaN (infinities are kept), in order. No other file changes. *)
Theorem C43_converter : forall p decode fs x b data,
  fs (named x ext_wav) = Some b -> (12 <= length b)%nat -> firstn 4 b = [82; 73; 70; 70] -> firstn 4 (skipn 8 b) = [87; 65; 86; 69] ->
  decode b = Some (4%nat, flat_map words_of data) -> Z.of_nat (length data) <= 2 ^ 28 ->
  exists fs1 kept, wav2wbro_main p decode false fs (named x ext_wav) = (fs1, Done, false) /\
    subsequence_of not_nan data kept /\ from_file (fs1 (named x ext_wbro)) = Ok (WbSamples kept) /\
    (forall m, m <> named x ext_wbro -> fs1 m = fs m) /\
    (* With --validate the same file is written; then the call panics if a NaN was dropped, and otherwise reports a mismatch that is not there. *)
    (Forall not_nan data -> wav2wbro_main p decode true fs (named x ext_wav) = (fs1, Done, true)) /\
    (~ Forall not_nan data -> wav2wbro_main p decode true fs (named x ext_wav) = (fs1, Panicked, false)).
Proof.
  intros p decode fs x b data Hn Hl H1 H2 Hd Hs. unfold wav2wbro_main. rewrite Hn. unfold is_wav_file. replace (length b <? 12)%nat with false by lia.
  rewrite H1, H2. destruct (list_eq_dec Z.eq_dec [82; 73; 70; 70] mark_riff) as [_|N]; [|now elim N]. destruct (list_eq_dec Z.eq_dec [87; 65; 86; 69] mark_wave) as [_|N]; [|now elim N].
  cbn [andb]. rewrite Hd, C43_split_join. cbn [bind]. rewrite add_unless_nan_filter. set (kept := filter (fun x => negb (fis_nan x)) data).
  assert (Lk : (length kept <= length data)%nat) by (unfold kept; clear; induction data as [|y l IH]; cbn [filter length]; [lia|destruct (negb _); cbn [length]; lia]).
  destruct (C36_accumulates p kept ltac:(lia)) as (w & E & _). rewrite <- fold_add_all in E. rewrite E. cbn [bind]. rewrite strip_named.
  destruct (put_wbro_object p fs ((x ++ [46]) ++ ext_wbro) kept w ltac:(lia) E) as (Ws & file & P & F). rewrite P.
  assert (Nm : (x ++ [46]) ++ ext_wbro = named x ext_wbro) by (unfold named; now rewrite <- app_assoc). rewrite Nm.
  exists (put fs (named x ext_wbro) file), kept. split; [reflexivity|]. split; [apply filter_subsequence|]. split; [rewrite put_same; exact F|].
  split; [intros m Hm; now apply put_other|]. rewrite Ws. split; intros V.
  - assert (kept = data) as ->. { unfold kept. clear - V. induction data as [|y l IH]; [reflexivity|]. inversion V; subst. cbn [filter]. unfold not_nan in *. rewrite H1. cbn [negb]. f_equal. now apply IH. }
    now rewrite feq_list_same.
  - destruct (feq_list data kept) eqn:Q; [|reflexivity]. exfalso. apply V. apply feq_list_length in Q. clear - Q. unfold kept in Q. clear kept.
    assert (L : forall l, (length (filter (fun x => negb (fis_nan x)) l) <= length l)%nat) by (induction l as [|y l IH]; cbn [filter length]; [lia|destruct (negb _); cbn [length]; lia]).
    induction data as [|y l IH]; [constructor|]. cbn [filter length] in Q. destruct (fis_nan y) eqn:Ey; cbn [negb length] in Q; [specialize (L l); lia|]. constructor; [exact Ey|]. apply IH. lia.
Qed.
Print Assumptions C43_converter.

(** A file the WAV library refuses is converted without complaint to an empty x.wbro. *)
Theorem C43_unreadable_becomes_empty : forall p decode fs x b,
  fs (named x ext_wav) = Some b -> (12 <= length b)%nat -> firstn 4 b = [82; 73; 70; 70] -> firstn 4 (skipn 8 b) = [87; 65; 86; 69] -> decode b = None ->
  exists fs1, wav2wbro_main p decode false fs (named x ext_wav) = (fs1, Done, false) /\ from_file (fs1 (named x ext_wbro)) = Ok (WbSamples []).
Proof.
  intros p decode fs x b Hn Hl H1 H2 Hd. unfold wav2wbro_main. rewrite Hn. unfold is_wav_file. replace (length b <? 12)%nat with false by lia.
  rewrite H1, H2. destruct (list_eq_dec Z.eq_dec [82; 73; 70; 70] mark_riff) as [_|N]; [|now elim N]. destruct (list_eq_dec Z.eq_dec [87; 65; 86; 69] mark_wave) as [_|N]; [|now elim N].
  cbn [andb]. rewrite Hd. cbn [read_metrics_from_wav bind fold_res]. rewrite strip_named.
  destruct (put_wbro_object p fs ((x ++ [46]) ++ ext_wbro) [] wb_new ltac:(cbn; lia) eq_refl) as (Ws & file & P & F). rewrite P.
  assert (Nm : (x ++ [46]) ++ ext_wbro = named x ext_wbro) by (unfold named; now rewrite <- app_assoc). rewrite Nm.
  exists (put fs (named x ext_wbro) file). split; [reflexivity|]. rewrite put_same. exact F.
Qed.
Print Assumptions C43_unreadable_becomes_empty.

(** A NaN, 1.5 and an infinity in four channels: hypotheses met, NaN dropped. *)
Definition wav_data : list f64 := [from_bits 9221120237041090561; from_bits 4609434218613702656; from_bits 9218868437227405312].
Definition wav_bytes : list Z := [82; 73; 70; 70; 0; 0; 0; 0; 87; 65; 86; 69].
Example C43_example :
  flat_map words_of wav_data = [1; 0; 0; 32760; 0; 0; 0; 16376; 0; 0; 0; 32752] /\
  (12 <= length wav_bytes)%nat /\ firstn 4 wav_bytes = [82; 73; 70; 70] /\ firstn 4 (skipn 8 wav_bytes) = [87; 65; 86; 69] /\ Z.of_nat (length wav_data) <= 2 ^ 28 /\
  ~ Forall not_nan wav_data /\
  (do w <- wav_to_wavbrro Dev (Some (4%nat, flat_map words_of wav_data)); Ok (map to_bits (wb_samples w))) = Ok [4609434218613702656; 9218868437227405312].
Proof.
  split; [vm_compute; reflexivity|]. split; [cbn; lia|]. split; [reflexivity|]. split; [reflexivity|]. split; [cbn; lia|]. split; [|vm_compute; reflexivity].
  intros H. inversion H as [|? ? N _]. revert N. unfold not_nan. vm_compute. discriminate.
Qed.
