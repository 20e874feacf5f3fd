(** C92: the same call several times at once. *)
From Coq Require Import List ZArith Bool Lia.
From Verif Require Import Base Model_Float Model_Bincode BincodeFacts Spec Spec_Wire Model_Vsri Model_Wavbrro Model_Csv Model_Stream Model_Cli Model_Disk Model_Args Model_Command Model_Parallel
  CsvFacts Props_Stream Props_Cli Props_Fft Props_Pipeline Props_Csv Props_Crash Props_Csvc Props_Refusal Props_Damage Props_Parallel.
Import ListNotations.
Open Scope Z_scope.

Lemma nth_first (i n : nat) (l : list Z) : (i < n)%nat -> nth i (firstn n l) 0 = nth i l 0.
Proof. revert i l. induction n as [|n IH]; intros i l H; [lia|]. destruct l as [|x l], i as [|i]; cbn [firstn nth]; try reflexivity. apply IH. lia. Qed.
Lemma nth_rest (n i : nat) (l : list Z) : nth i (skipn n l) 0 = nth (n + i) l 0.
Proof. revert l. induction n as [|n IH]; intros l; [reflexivity|]. destruct l as [|x l]; [cbn [skipn]; destruct i; reflexivity|]. cbn [skipn Nat.add nth]. apply IH. Qed.
(** What a write leaves at each position. *)
Lemma nth_write (f q : list Z) (off i : nat) : q <> [] ->
  nth i (write_at f off q) 0 = (if (i <? off)%nat then nth i f 0 else if (i <? off + length q)%nat then nth (i - off) q 0 else nth i f 0) /\
  length (write_at f off q) = Nat.max (length f) (off + length q).
Proof.
  intros Hq. assert (W : write_at f off q = firstn off f ++ repeat 0 (off - length f) ++ q ++ skipn (off + length q) f) by (destruct q; [congruence|reflexivity]).
  rewrite W. split.
  2: { rewrite !app_length, firstn_length, repeat_length, skipn_length. lia. }
  rewrite app_assoc. set (P := firstn off f ++ repeat 0 (off - length f)). assert (Lp : length P = off) by (unfold P; rewrite app_length, firstn_length, repeat_length; lia).
  destruct (Nat.ltb_spec i off) as [H|H].
  - rewrite app_nth1 by lia. unfold P. destruct (Nat.lt_ge_cases i (length f)) as [G|G].
    + rewrite app_nth1 by (rewrite firstn_length; lia). now apply nth_first.
    + rewrite app_nth2 by (rewrite firstn_length; lia). rewrite (nth_overflow f) by exact G. apply nth_repeat.
  - rewrite app_nth2 by lia. rewrite Lp. destruct (Nat.ltb_spec i (off + length q)) as [G|G].
    + rewrite app_nth1 by lia. reflexivity.
    + rewrite app_nth2 by lia. rewrite nth_rest. f_equal. lia.
Qed.

Section Same.
Variable e : env.
Variable p : profile.
Variable nt : number_text.
Variable pieces : bool.

(** The writes [ws] to [out] still have to bring [b] from position [k] on. *)
Inductive still (out : name) (b : list Z) : nat -> list disk_op -> Prop :=
| all_there : still out b (length b) []
| piece k q ws : (k + length q <= length b)%nat -> q = firstn (length q) (skipn k b) -> still out b (k + length q) ws -> still out b k (WriteAt out k q :: ws).
Lemma still_le out b k ws : still out b k ws -> (k <= length b)%nat.
Proof. intros H. destruct H; lia. Qed.
(** The file holds the first [k] bytes of [b], and is not longer than [b]. *)
Definition good (b : list Z) (k : nat) (f : list Z) : Prop := (k <= length f <= length b)%nat /\ forall i, (i < k)%nat -> nth i f 0 = nth i b 0.
Lemma good_write b k f k' q : good b k f -> (k' + length q <= length b)%nat -> q = firstn (length q) (skipn k' b) ->
  good b k (write_at f k' q) /\ (k' = k -> good b (k + length q) (write_at f k' q)).
Proof.
  intros [G1 G2] H1 H2. destruct q as [|x q0]; [cbn [length write_at]; rewrite Nat.add_0_r; split; [split; assumption|intros _; split; assumption]|].
  set (q := x :: q0) in *. assert (N : q <> []) by discriminate.
  assert (Q : forall i, (k' <= i < k' + length q)%nat -> nth (i - k') q 0 = nth i b 0).
  { intros i Hi. rewrite H2, nth_first by lia. rewrite nth_rest. f_equal. lia. }
  assert (L := proj2 (nth_write f q k' 0 N)).
  assert (V : forall i, (i < k)%nat -> nth i (write_at f k' q) 0 = nth i b 0).
  { intros i Hi. rewrite (proj1 (nth_write f q k' i N)). destruct (Nat.ltb_spec i k'); [now apply G2|]. destruct (Nat.ltb_spec i (k' + length q)); [apply Q; lia|now apply G2]. }
  split; [split; [lia|exact V]|]. intros ->. split; [lia|]. intros i Hi. destruct (Nat.lt_ge_cases i k) as [X|X]; [now apply V|].
  rewrite (proj1 (nth_write f q k i N)). destruct (Nat.ltb_spec i k); [lia|]. destruct (Nat.ltb_spec i (k + length q)); [apply Q; lia|lia].
Qed.
Lemma good_all b f : good b (length b) f -> f = b.
Proof. intros [G1 G2]. apply (nth_ext _ _ 0 0); [lia|]. intros i Hi. apply G2. lia. Qed.
Lemma still_split out b k q ws j : still out b k (WriteAt out k q :: ws) -> 
  still out b (k + length (firstn j q)) (WriteAt out (k + length (firstn j q)) (skipn j q) :: ws) /\ (k + length (firstn j q) <= length b)%nat /\ firstn j q = firstn (length (firstn j q)) (skipn k b).
Proof.
  intros H. inversion H as [|k0 q0 ws0 H1 H2 H3 E1 E2]; subst. assert (L : (length (firstn j q) + length (skipn j q) = length q)%nat) by (rewrite <- app_length; now rewrite firstn_skipn).
  assert (F : firstn j q = firstn (length (firstn j q)) (skipn k b)).
  { rewrite H2 at 1. rewrite firstn_firstn. f_equal. rewrite firstn_length. lia. }
  split; [|split; [lia|exact F]]. constructor; [lia| |rewrite <- Nat.add_assoc, L; exact H3].
  apply (app_inv_head (firstn j q)). rewrite firstn_skipn. rewrite H2 at 1. rewrite F at 1.
  replace (length q) with (length (firstn j q) + length (skipn j q))%nat by exact L.
  assert (SS : forall x y (l : list Z), skipn x (skipn y l) = skipn (y + x) l) by (intros x y; induction y as [|y IH]; intros [|z l]; cbn [skipn Nat.add]; [reflexivity|reflexivity|now rewrite skipn_nil|apply IH]).
  rewrite <- SS. set (s := skipn k b). set (u := length (firstn j q)). set (v := length (skipn j q)). clearbody s u v. clear.
  revert s. induction u as [|u IH]; intros [|z s]; cbn [Nat.add firstn skipn app]; try reflexivity; [now rewrite firstn_nil|]. now rewrite IH.
Qed.

Section Run.
Variable fs0 : files.
Variable c : call.
Variable out : name.
Variable b : list Z.
Variable ws0 : list disk_op.
Hypothesis not_read : ~ In out (inputs_of c).
Hypothesis the_plan : plan_of e p nt c fs0 = (Create out :: ws0, Done).
Hypothesis the_writes : still out b 0 ws0.

Definition stage_ok (ph : phase) : Prop :=
  ph = Ready c \/ ph = Busy (Create out :: ws0) Done \/ exists k ws, ph = Busy ws Done /\ still out b k ws.
(** Somebody who has created the file and whose beginning of it is there. *)
Definition leader (f : list Z) (ph : phase) : Prop := exists k ws, ph = Busy ws Done /\ still out b k ws /\ good b k f.
Definition waiting (ph : phase) : Prop := ph = Ready c \/ ph = Busy (Create out :: ws0) Done.
Definition inv (fs : files) (phs : list phase) : Prop :=
  (forall m, m <> out -> fs m = fs0 m) /\ Forall stage_ok phs /\
  (Forall waiting phs \/ exists f, fs out = Some f /\ Exists (leader f) phs).
Lemma still_create k ws : ~ still out b k (Create out :: ws).
Proof. intros H. inversion H. Qed.
Lemma inv_step fs before ph after fs1 ph1 : move e p nt pieces fs ph fs1 ph1 -> inv fs (before ++ ph :: after) -> inv fs1 (before ++ ph1 :: after).
Proof.
  intros M (I1 & I2 & I3). apply Forall_app in I2. destruct I2 as [F1 F2]. inversion F2 as [|? ? F3 F4]; subst.
  (* a write of [q] at [k'] by the moving call, which then has [ws1] to do from [k1] on *)
  assert (Wr : forall k' q k1 ws1, fs1 = do_op fs (WriteAt out k' q) -> ph1 = Busy ws1 Done -> still out b k1 ws1 -> k1 = (k' + length q)%nat -> (k' + length q <= length b)%nat -> q = firstn (length q) (skipn k' b) ->
    ~ waiting ph -> (forall f, leader f ph -> good b k' f) -> inv fs1 (before ++ ph1 :: after)).
  { intros k' q k1 ws1 -> -> S1 -> Hl Hq Nw Ld. split; [|split].
    - intros m Hm. cbn [do_op]. rewrite put_other by exact Hm. now apply I1.
    - apply Forall_app. split; [exact F1|]. constructor; [|exact F4]. right. right. eauto.
    - right. destruct I3 as [I3|(f & Hf & I3)]; [apply Forall_app in I3; destruct I3 as [_ I3]; inversion I3; contradiction|].
      exists (write_at f k' q). split; [cbn [do_op]; rewrite put_same; unfold content; now rewrite Hf|].
      assert (K : forall x, leader f x -> leader (write_at f k' q) x) by (intros x (k & ws & X1 & X2 & X3); exists k, ws; split; [exact X1|]; split; [exact X2|]; now apply good_write).
      apply Exists_app in I3. apply Exists_app. destruct I3 as [I3|I3]; [left; apply Exists_exists in I3; destruct I3 as (x & X1 & X2); apply Exists_exists; exists x; auto|].
      right. apply Exists_cons in I3. destruct I3 as [I3|I3].
      + apply Exists_cons_hd. exists (k' + length q)%nat, ws1. split; [reflexivity|]. split; [exact S1|]. apply Ld in I3. now apply (good_write b k' f k' q).
      + apply Exists_cons_tl. apply Exists_exists in I3. destruct I3 as (x & X1 & X2). apply Exists_exists. exists x. auto. }
  destruct M as [d fs|op ops o fs|n off q j ops o fs _].
  - assert (d = c) by (destruct F3 as [F3|[F3|(k & ws & F3 & _)]]; congruence). subst d.
    assert (P : plan_of e p nt c fs = plan_of e p nt c fs0) by (apply plan_local; intros m Hm; apply I1; intros ->; contradiction). rewrite P, the_plan. cbn [fst snd].
    split; [exact I1|]. split; [apply Forall_app; split; [exact F1|]; constructor; [right; now left|exact F4]|].
    destruct I3 as [I3|(f & Hf & I3)].
    + left. apply Forall_app in I3. destruct I3 as [J1 J2]. inversion J2; subst. apply Forall_app. split; [exact J1|]. constructor; [now right|assumption].
    + right. exists f. split; [exact Hf|]. apply Exists_app in I3. apply Exists_app. destruct I3 as [I3|I3]; [now left|]. right. apply Exists_cons in I3. destruct I3 as [(k & ws & X & _)|I3]; [discriminate X|]. now apply Exists_cons_tl.
  - destruct F3 as [F3|[F3|(k & ws & F3 & S3)]]; [discriminate F3| |].
    + assert (op = Create out /\ ops = ws0 /\ o = Done) as (-> & -> & ->) by (repeat split; congruence). split; [|split].
      * intros m Hm. cbn [do_op]. rewrite put_other by exact Hm. now apply I1.
      * apply Forall_app. split; [exact F1|]. constructor; [|exact F4]. right. right. exists 0%nat, ws0. auto.
      * right. exists []. split; [cbn [do_op]; apply put_same|]. apply Exists_app. right. apply Exists_cons_hd. exists 0%nat, ws0. split; [reflexivity|]. split; [exact the_writes|]. split; [cbn [length]; lia|]. intros i Hi. lia.
    + assert (E : op :: ops = ws /\ o = Done) by (split; congruence). destruct E as [<- ->]. inversion S3 as [|k0 q ws1 H1 H2 H3 E1 E2]; subst.
      apply (Wr k q (k + length q)%nat ops); auto.
      * intros [X|X]; [discriminate X|]. assert (Y : WriteAt out k q = Create out) by congruence. discriminate Y.
      * intros f (k2 & ws2 & X & X2 & X3). assert (ws2 = WriteAt out k q :: ops) by congruence. subst ws2. inversion X2; subst. exact X3.
  - destruct F3 as [F3|[F3|(k & ws & F3 & S3)]]; [discriminate F3|discriminate F3|].
    assert (E : WriteAt n off q :: ops = ws /\ o = Done) by (split; congruence). destruct E as [<- ->]. assert (n = out /\ off = k) as [-> ->] by (inversion S3; auto).
    destruct (still_split _ _ _ _ _ j S3) as (T1 & T2 & T3). apply (Wr k (firstn j q) (k + length (firstn j q))%nat (WriteAt out (k + length (firstn j q)) (skipn j q) :: ops)); auto.
    + intros [X|X]; discriminate X.
    + intros f (k2 & ws2 & X & X2 & X3). assert (ws2 = WriteAt out k q :: ops) by congruence. subst ws2. inversion X2; subst. exact X3.
Qed.
Lemma inv_run fs phs fs' phs' : together e p nt pieces fs phs fs' phs' -> inv fs phs -> inv fs' phs'.
Proof. intros T. induction T as [|fs before ph after fs1 ph1 fs' phs' M T IH]; intros I; [exact I|]. apply IH. now apply (inv_step fs before ph). Qed.
Lemma same_writes k fs' ends : together e p nt pieces fs0 (repeat (Ready c) (S k)) fs' (map (Busy []) ends) ->
  Forall (eq Done) ends /\ fs' out = Some b /\ forall m, m <> out -> fs' m = fs0 m.
Proof.
  intros T. assert (L : length ends = S k).
  { assert (X : forall g l g' l', together e p nt pieces g l g' l' -> length l = length l') by (intros g l g' l' Y; induction Y as [|g x ph y g1 ph1 g' l' _ Y IH]; [reflexivity|]; rewrite <- IH; now rewrite !app_length).
    apply X in T. now rewrite repeat_length, map_length in T. }
  apply inv_run in T.
  - destruct T as (I1 & I2 & I3). split; [|split; [|exact I1]].
    + clear - I2. induction ends as [|o ends IH]; [constructor|]. cbn [map] in I2. inversion I2 as [|? ? X Y]; subst. constructor; [|now apply IH]. destruct X as [X|[X|(j & ws & X & _)]]; [discriminate X|discriminate X|congruence].
    + destruct I3 as [I3|(f & Hf & I3)].
      * destruct ends as [|o ends]; [discriminate L|]. cbn [map] in I3. inversion I3 as [|? ? [X|X] _]; discriminate X.
      * rewrite Hf. f_equal. apply Exists_exists in I3. destruct I3 as (ph & Hin & j & ws & -> & S3 & G). apply in_map_iff in Hin. destruct Hin as (o & E & _). assert (ws = []) by congruence. subst ws. inversion S3; subst. now apply good_all.
  - split; [auto|]. split; [|left]; apply Forall_forall; intros x Hx; apply repeat_spec in Hx; subst x; now left.
Qed.
End Run.

(** Calls with nothing to write. *)
Lemma nothing_run c o fs0 fs phs fs' phs' : plan_of e p nt c fs0 = ([], o) -> together e p nt pieces fs phs fs' phs' ->
  (forall m, fs m = fs0 m) -> Forall (fun ph => ph = Ready c \/ ph = Busy [] o) phs -> (forall m, fs' m = fs0 m) /\ Forall (fun ph => ph = Ready c \/ ph = Busy [] o) phs'.
Proof.
  intros P T. induction T as [|g before ph after g1 ph1 g' phs' M T IH]; intros A F; [auto|]. apply Forall_app in F. destruct F as [F1 F2]. inversion F2 as [|? ? F3 F4]; subst.
  destruct M as [d g|op ops u g|n off q j ops u g _].
  - assert (d = c) by (destruct F3; congruence). subst d. assert (Q : plan_of e p nt c g = ([], o)) by (rewrite <- P; apply plan_local; intros m _; apply A).
    apply IH; [exact A|]. apply Forall_app. split; [exact F1|]. constructor; [|exact F4]. right. now rewrite Q.
  - destruct F3 as [F3|F3]; discriminate F3.
  - destruct F3 as [F3|F3]; discriminate F3.
Qed.
Lemma still_whole out b : still out b 0 [WriteAt out 0 b].
Proof. constructor; [lia| |apply all_there]. cbn [skipn]. now rewrite firstn_all. Qed.
Lemma still_two out h b : still out (h ++ b) 0 [WriteAt out 0 h; WriteAt out (length h) b].
Proof.
  constructor; [rewrite app_length; lia| |].
  - cbn [skipn]. rewrite firstn_app, firstn_all, Nat.sub_diag. cbn [firstn]. now rewrite app_nil_r.
  - cbn [Nat.add]. constructor; [rewrite app_length; lia| |].
    + rewrite skipn_app, skipn_all, Nat.sub_diag. cbn [skipn app]. now rewrite firstn_all.
    + replace (length h + length b)%nat with (length (h ++ b)) by apply app_length. apply all_there.
Qed.
(** What one call does: nothing to the files, or make its output and write it from its beginning to its end. *)
Lemma plan_shape a n fs : (exists o, plan_of e p nt (Atsc a n) fs = ([], o)) \/
  exists ws b, plan_of e p nt (Atsc a n) fs = (Create (output_of a n) :: ws, Done) /\ still (output_of a n) b 0 ws.
Proof.
  cbn [plan_of]. unfold ops_single_file, output_of.
  assert (C : forall data, (exists o, ops_compress_to e p a n data = ([], o)) \/ exists ws b, ops_compress_to e p a n data = (Create (set_extension n ext_bro) :: ws, Done) /\ still (set_extension n ext_bro) b 0 ws).
  { intros data. unfold ops_compress_to. destruct (compress_data _ _ _ _ _ _) as [q|]; [|left; now eexists]. right. eexists. exists q. split; [reflexivity|apply still_whole]. }
  destruct (a_uncompress a).
  - destruct (fs n) as [b|]; [|left; now eexists]. destruct (bro_read b) as [| |bytes]; [left; now eexists|left; now eexists|]. destruct (decompress_data e p bytes) as [out|]; [|left; now eexists].
    unfold ops_wbro. destruct (wb_to_bytes (wb_from_slice out)) as [q|]; [|left; now eexists]. right. eexists. exists (wbro_header ++ q). split; [reflexivity|apply still_two].
  - destruct (a_csv a).
    + match goal with |- context [match ?c with Ok _ => _ | Panic _ => _ end] => destruct c as [[l|er]|] end; [apply C|left; now eexists|left; now eexists].
    + destruct (from_file (fs n)) as [[data| |]|]; [apply C|left; now eexists|left; now eexists|left; now eexists].
Qed.

(** The same call of atsc on one file, started any number of times (at least once), in any interleaving, the writes in pieces or not: when all have
    ended, each has ended as one call alone ends, and the files are those one call alone leaves. *)
Theorem C92_same_call a n k fs fs' ends : output_of a n <> n ->
  together e p nt pieces fs (repeat (Ready (Atsc a n)) (S k)) fs' (map (Busy []) ends) ->
  Forall (eq (snd (process_single_file e p nt a fs n))) ends /\ forall m, fs' m = fst (process_single_file e p nt a fs n) m.
Proof.
  intros N T. destruct (plan_alone e p nt (Atsc a n) fs) as [A1 A2]. cbn [alone] in A1, A2. rewrite <- A1.
  destruct (plan_shape a n fs) as [(o & P)|(ws & b & P & S)].
  - rewrite P in *. cbn [fst snd] in *. destruct (nothing_run (Atsc a n) o fs fs _ fs' _ P T) as [F1 F2]; [reflexivity|apply Forall_forall; intros x Hx; apply repeat_spec in Hx; now left|]. split.
    + clear - F2. induction ends as [|u ends IH]; [constructor|]. cbn [map] in F2. inversion F2 as [|? ? X Y]; subst. constructor; [|now apply IH]. destruct X as [X|X]; [discriminate X|congruence].
    + intros m. rewrite <- (A2 m). apply F1.
  - assert (NR : ~ In (output_of a n) (inputs_of (Atsc a n))) by (intros [X|[]]; congruence).
    destruct (same_writes fs (Atsc a n) (output_of a n) b ws NR P S k fs' ends T) as (F1 & F2 & F3). rewrite P in *. cbn [fst snd] in *. split; [exact F1|].
    intros m. rewrite <- (A2 m). destruct (list_eq_dec Z.eq_dec m (output_of a n)) as [->|Nm].
    + rewrite F2. symmetry.
      assert (R : forall ws k g f, still (output_of a n) b k ws -> g (output_of a n) = Some f -> good b k f -> run_ops ws g (output_of a n) = Some b).
      { clear. induction ws as [|w ws IH]; intros k g f S Hg G; inversion S as [|k0 q ws1 H1 H2 H3 E1 E2]; subst; [cbn [run_ops fold_left]; rewrite Hg; f_equal; now apply good_all|].
        cbn [run_ops fold_left]. apply (IH (k + length q)%nat _ (write_at f k q) H3); [cbn [do_op]; rewrite put_same; unfold content; now rewrite Hg|]. now apply (good_write b k f k q). }
      cbn [run_ops fold_left]. apply (R ws 0%nat _ [] S); [cbn [do_op]; apply put_same|]. split; [cbn [length]; lia|]. intros i Hi. lia.
    + rewrite (F3 m Nm). symmetry.
      assert (R : forall ws k g, still (output_of a n) b k ws -> run_ops ws g m = g m).
      { clear - Nm. induction ws as [|w ws IH]; intros k g S; inversion S as [|k0 q ws1 H1 H2 H3 E1 E2]; subst; [reflexivity|]. cbn [run_ops fold_left]. unfold run_ops in IH. rewrite (IH _ _ H3). cbn [do_op]. now apply put_other. }
      cbn [run_ops fold_left]. unfold run_ops in R. rewrite (R ws _ _ S). cbn [do_op]. now apply put_other.
Qed.
End Same.
Print Assumptions C92_same_call.

From Coq Require Import String.
Local Open Scope string_scope.
(** Instances: three compressions of x.wbro at once; three decompressions of y.bro at once. *)
Definition three_times {A} (x : A) := repeat x 3.
Example C92_applies : output_of rle_args (txt "x.wbro") <> txt "x.wbro" /\ output_of u_args (txt "y.bro") <> txt "y.bro" /\
  (exists fs' ends, together id_env Dev toy_numbers true four_files (three_times (Ready (Atsc rle_args (txt "x.wbro")))) fs' (map (Busy []) ends) /\ ends = [Done; Done; Done] /\ fs' (txt "x.bro") <> None) /\
  (exists fs' ends, together id_env Dev toy_numbers true four_files (three_times (Ready (Atsc u_args (txt "y.bro")))) fs' (map (Busy []) ends) /\
     bits_of (fs' (txt "y.wbro")) = Some (repeat (to_bits (int_as_f64 7)) 2)).
Proof.
  assert (N1 : output_of rle_args (txt "x.wbro") <> txt "x.wbro") by (vm_compute; discriminate). assert (N2 : output_of u_args (txt "y.bro") <> txt "y.bro") by (vm_compute; discriminate).
  split; [exact N1|]. split; [exact N2|]. split.
  - destruct (C87_no_waiting id_env Dev toy_numbers true four_files (three_times (Ready (Atsc rle_args (txt "x.wbro"))))) as (fs' & ends & T & L). exists fs', ends. split; [exact T|].
    destruct (C92_same_call _ _ _ _ _ _ 2 _ _ _ N1 T) as [F1 F2]. split; [|rewrite F2; vm_compute; discriminate].
    assert (D : snd (process_single_file id_env Dev toy_numbers rle_args four_files (txt "x.wbro")) = Done) by (vm_compute; reflexivity). rewrite D in F1.
    clear - F1 L. cbn in L. do 4 (destruct ends as [|? ends]; try discriminate L). inversion F1 as [|? ? A1 B1]; subst. inversion B1 as [|? ? A2 B2]; subst. inversion B2; subst. reflexivity.
  - destruct (C87_no_waiting id_env Dev toy_numbers true four_files (three_times (Ready (Atsc u_args (txt "y.bro"))))) as (fs' & ends & T & L). exists fs', ends. split; [exact T|].
    destruct (C92_same_call _ _ _ _ _ _ 2 _ _ _ N2 T) as [F1 F2]. rewrite F2. vm_compute. reflexivity.
Qed.
