(** C87: several calls of the tools at the same time. *)
From Coq Require Import List ZArith Bool Lia.
From Verif Require Import Base Model_Float Model_Bincode BincodeFacts Spec Spec_Wire Model_Vsri Model_Wavbrro Model_Csv Model_Stream Model_Cli Model_Disk Model_Args Model_Command Model_Parallel
  CsvFacts Props_Stream Props_Cli Props_Fft Props_Pipeline Props_Csv Props_Crash Props_Csvc Props_Refusal Props_Damage.
Import ListNotations.
Open Scope Z_scope.

(** The files a call reads and writes. *)
Definition inputs_of (c : call) : list name :=
  match c with Atsc _ n => [n] | Csvc c => c_input c :: (if c_uncompress c then [set_extension (c_input c) ext_vsri] else []) end.
Definition outputs_of (c : call) : list name := match c with Atsc a n => [output_of a n] | Csvc c => csvc_outputs c end.
(** Two calls that do not get into each other's way: neither writes what the other one reads or writes. *)
Definition apart (c d : call) : Prop :=
  (forall m, In m (outputs_of c) -> ~ In m (inputs_of d) /\ ~ In m (outputs_of d)) /\ (forall m, In m (outputs_of d) -> ~ In m (inputs_of c)).

(** ** Operations are local *)
Lemma do_op_local op fs fs' m : fs m = fs' m -> do_op fs op m = do_op fs' op m.
Proof.
  intros H. destruct (list_eq_dec Z.eq_dec m (target op)) as [->|N]; [|now rewrite !do_op_other].
  destruct op as [n|n off b]; cbn [target do_op] in *; rewrite !put_same; [reflexivity|]. unfold content. now rewrite H.
Qed.
Lemma run_local ops : forall fs fs' m, fs m = fs' m -> run_ops ops fs m = run_ops ops fs' m.
Proof. induction ops as [|o ops IH]; intros fs fs' m H; [exact H|]. cbn [run_ops fold_left]. apply IH. now apply do_op_local. Qed.

Lemma write_at_split f off b1 b2 : write_at (write_at f off b1) (off + length b1) b2 = write_at f off (b1 ++ b2).
Proof.
  destruct b1 as [|x b1]; [cbn [length app]; now rewrite Nat.add_0_r|]. set (d := x :: b1). destruct b2 as [|y b2]; [now rewrite app_nil_r|]. set (d2 := y :: b2).
  assert (W : forall g o q, q <> [] -> write_at g o q = firstn o g ++ repeat 0 (o - length g) ++ q ++ skipn (o + length q) g) by (intros g o [|q0 q] Q; [congruence|reflexivity]).
  rewrite (W f off (d ++ d2)) by discriminate. rewrite (W f off d) by discriminate.
  assert (Lp : length (firstn off f ++ repeat 0 (off - length f)) = off) by (rewrite app_length, firstn_length, repeat_length; lia).
  set (P := firstn off f ++ repeat 0 (off - length f)) in *. rewrite (app_assoc (firstn off f)). fold P. rewrite W by discriminate.
  assert (L : length (P ++ d) = (off + length d)%nat) by (rewrite app_length; lia). rewrite (app_assoc P d).
  replace (firstn (off + length d) ((P ++ d) ++ skipn (off + length d) f)) with (P ++ d).
  2: { rewrite <- L, firstn_app, Nat.sub_diag, firstn_all. cbn [firstn]. now rewrite app_nil_r. }
  replace (off + length d - length ((P ++ d) ++ skipn (off + length d) f))%nat with 0%nat by (rewrite app_length; lia). cbn [repeat app].
  rewrite skipn_app, L. replace (off + length d + length d2 - (off + length d))%nat with (length d2) by lia. rewrite (skipn_all2 (P ++ d)) by lia. cbn [app].
  rewrite (app_assoc (firstn off f)). fold P. rewrite <- !app_assoc. do 3 f_equal. rewrite app_length.
  assert (SS : forall a b (l : list Z), skipn a (skipn b l) = skipn (b + a) l) by (intros a b; induction b as [|b IH]; intros [|z l]; cbn [skipn Nat.add]; [reflexivity|reflexivity|now rewrite skipn_nil|apply IH]).
  rewrite SS. f_equal. lia.
Qed.

Lemma compressing_same a : a_uncompress a = false -> compressing a = a.
Proof. destruct a. unfold compressing. cbn. now intros ->. Qed.

(** ** What a call does depends on its inputs only, and concerns its outputs only *)
Section Calls.
Variable e : env.
Variable p : profile.
Variable nt : number_text.

Lemma plan_local c fs fs' : (forall m, In m (inputs_of c) -> fs m = fs' m) -> plan_of e p nt c fs = plan_of e p nt c fs'.
Proof.
  destruct c as [a n|c]; cbn [inputs_of plan_of]; intros H.
  - unfold ops_single_file. rewrite (H n) by (now left). reflexivity.
  - unfold ops_csvc. destruct (c_uncompress c).
    + unfold ops_csvc_uncompress. rewrite (H (c_input c)) by (now left). rewrite (H (set_extension (c_input c) ext_vsri)) by (right; now left). reflexivity.
    + unfold ops_csvc_compress. rewrite (H (c_input c)) by (now left). reflexivity.
Qed.
Lemma ops_wbro_targets n w m : In m (map target (fst (ops_wbro n w))) -> m = n.
Proof. unfold ops_wbro. destruct (wb_to_bytes w); cbn [fst map target write_wbro In]; intuition. Qed.
Lemma plan_targets c fs m : In m (map target (fst (plan_of e p nt c fs))) -> In m (outputs_of c).
Proof.
  destruct c as [a n|c]; cbn [outputs_of plan_of].
  - unfold ops_single_file, output_of.
    assert (C : forall data, In m (map target (fst (ops_compress_to e p a n data))) -> m = set_extension n ext_bro).
    { intros data. unfold ops_compress_to. destruct (compress_data _ _ _ _ _ _); cbn [fst map target write_whole In]; intuition. }
    destruct (a_uncompress a).
    + destruct (fs n) as [b|]; [|intros []]. destruct (bro_read b) as [| |bytes]; [intros []|intros []|]. destruct (decompress_data e p bytes) as [out|]; [|intros []]. intros H. left. symmetry. now apply (ops_wbro_targets _ _ _ H).
    + destruct (a_csv a).
      * match goal with |- context [match ?c with Ok _ => _ | Panic _ => _ end] => destruct c as [[l|er]|] end; [|intros []|intros []]. intros H. left. symmetry. now apply (C _ H).
      * destruct (from_file (fs n)) as [[data| |]|]; [|intros []|intros []|intros []]. intros H. left. symmetry. now apply (C _ H).
  - unfold ops_csvc, csvc_outputs. cbv zeta. destruct (c_uncompress c).
    + unfold ops_csvc_uncompress. cbv zeta. destruct (fs (c_input c)) as [b|]; [|intros []]. destruct (bro_read b) as [| |bytes]; [intros []|intros []|].
      destruct (do out <- decompress_data e p bytes; do w <- fold_res (wb_add p) out wb_new; Ok (out, w)) as [[out w]|]; [|intros []].
      destruct (fs (set_extension (c_input c) ext_vsri)) as [ib|]; [|intros []]. destruct (load ib) as [index|]; [|intros []]. set (base := match c_output c with Some o => o | None => c_input c end).
      assert (T := ops_wbro_targets (set_extension base ext_wbro) (wb_from_slice out) m). destruct (ops_wbro (set_extension base ext_wbro) (wb_from_slice out)) as [ops1 o1]. cbn [fst] in T.
      destruct o1; cbn [fst]; try (intros H; left; symmetry; now apply T). destruct (get_samples p (Metric w index)); cbn [fst]; [|intros H; left; symmetry; now apply T].
      rewrite map_app, in_app_iff. cbn [map target write_whole In]. intros [H|H]; [left; symmetry; now apply T|intuition].
    + unfold ops_csvc_compress. cbv zeta. destruct (process_csv p nt (fs (c_input c))) as [mt|]; [|intros []]. set (base := match c_output c with Some o => o | None => c_input c end).
      assert (T : forall ops1 o1, (if c_output_wavbrro c then ops_wbro (set_extension base ext_wavbro) (mt_wbro mt) else ([], Done)) = (ops1, o1) -> In m (map target ops1) -> m = set_extension base ext_wavbro).
      { intros ops1 o1 E. destruct (c_output_wavbrro c); [intros H; apply (ops_wbro_targets _ (mt_wbro mt)); now rewrite E|]. assert (ops1 = []) by congruence. subst. intros []. }
      destruct (if c_output_wavbrro c then _ else _) as [ops1 o1]. specialize (T _ _ eq_refl).
      destruct o1; cbn [fst]; try (intros H; left; symmetry; now apply T).
      assert (T2 : In m (map target (ops1 ++ (if c_output_vsri c then write_whole (set_extension base ext_vsri) (flush_bytes (mt_vsri mt)) else []))) -> m = set_extension base ext_wavbro \/ m = set_extension base ext_vsri).
      { rewrite map_app, in_app_iff. intros [H|H]; [left; now apply T|]. right. destruct (c_output_vsri c); [cbn [map target write_whole In] in H; intuition|destruct H]. }
      destruct (c_no_compression c); cbn [fst]; [intros H; apply T2 in H; cbn [In]; intuition|].
      destruct (compress_data _ _ _ _ _ _); cbn [fst]; [|intros H; apply T2 in H; cbn [In]; intuition].
      rewrite map_app, in_app_iff. intros [H|H]; [apply T2 in H; cbn [In]; intuition|]. cbn [map target write_whole In] in *. intuition.
Qed.
Lemma plan_alone c fs : snd (plan_of e p nt c fs) = snd (alone e p nt c fs) /\ same_files (run_ops (fst (plan_of e p nt c fs)) fs) (fst (alone e p nt c fs)).
Proof. destruct c as [a n|c]; [apply C64_operations|apply C65_operations]. Qed.

(** ** The invariant *)
Section Run.
Variable pieces : bool.
Variable fs0 : files.
Definition on_track (fs : files) (c : call) (ph : phase) : Prop :=
  match ph with
  | Ready d => d = c /\ forall m, In m (inputs_of c) \/ In m (outputs_of c) -> fs m = fs0 m
  | Busy ops o => o = snd (plan_of e p nt c fs0) /\ (forall m, In m (map target ops) -> In m (outputs_of c)) /\
      forall m, In m (outputs_of c) -> run_ops ops fs m = run_ops (fst (plan_of e p nt c fs0)) fs0 m
  end.
Lemma move_own fs c ph fs1 ph1 : move e p nt pieces fs ph fs1 ph1 -> on_track fs c ph -> on_track fs1 c ph1 /\ forall m, ~ In m (outputs_of c) -> fs1 m = fs m.
Proof.
  intros M T. destruct M as [d fs|op ops o fs|n off b k ops o fs _]; cbn [on_track] in *.
  - destruct T as [-> T]. assert (P : plan_of e p nt c fs = plan_of e p nt c fs0) by (apply plan_local; intros m Hm; apply T; now left). rewrite P. split; [|auto].
    split; [reflexivity|]. split; [intros m; apply plan_targets|]. intros m Hm. apply run_local. apply T. now right.
  - destruct T as (T1 & T2 & T3). split.
    + split; [exact T1|]. split; [intros m Hm; apply T2; now right|]. exact T3.
    + intros m Hm. apply do_op_other. intros ->. apply Hm, T2. now left.
  - destruct T as (T1 & T2 & T3). assert (Hn : In n (outputs_of c)) by (apply T2; now left). split.
    + split; [exact T1|]. split; [exact T2|]. intros m Hm. rewrite <- (T3 m Hm). cbn [run_ops fold_left]. apply run_local.
      destruct (list_eq_dec Z.eq_dec m n) as [->|N]; cbn [do_op]; [|now rewrite !put_other by exact N].
      rewrite !put_same, content_put. now rewrite write_at_split, firstn_skipn.
    + intros m Hm. apply do_op_other. cbn [target]. intros ->. contradiction.
Qed.
Lemma move_foreign fs fs1 c d ph : (forall m, ~ In m (outputs_of c) -> fs1 m = fs m) -> apart c d -> on_track fs d ph -> on_track fs1 d ph.
Proof.
  intros F [A _] T. destruct ph as [d'|ops o]; cbn [on_track] in *.
  - destruct T as [-> T]. split; [reflexivity|]. intros m Hm. rewrite <- (T m Hm). apply F. intros X. destruct (A m X). tauto.
  - destruct T as (T1 & T2 & T3). split; [exact T1|]. split; [exact T2|]. intros m Hm. rewrite <- (T3 m Hm). apply run_local, F. intros X. destruct (A m X). tauto.
Qed.
Lemma apart_sym c d : apart c d -> apart d c.
Proof. intros [A B]. split; [intros m Hm; split; [now apply B|]; intros X; now destruct (A m X)|]. intros m Hm. apply (A m Hm). Qed.
Lemma pairs_at cb c ca : ForallOrdPairs apart (cb ++ c :: ca) -> Forall (apart c) cb /\ Forall (apart c) ca.
Proof.
  induction cb as [|b cb IH]; cbn [app]; intros H; inversion H as [|? ? H1 H2]; subst.
  - split; [constructor|exact H1].
  - destruct (IH H2) as [I1 I2]. split; [|exact I2]. constructor; [|exact I1]. apply apart_sym. rewrite Forall_forall in H1. apply H1. apply in_or_app. right. now left.
Qed.
(** What every step keeps of the moving call, and what foreign steps keep of a call, holds all the time. *)
Lemma together_keeps (I : files -> call -> phase -> Prop) calls :
  (forall fs c ph fs1 ph1, move e p nt pieces fs ph fs1 ph1 -> I fs c ph -> I fs1 c ph1 /\ forall m, ~ In m (outputs_of c) -> fs1 m = fs m) ->
  (forall fs fs1 c d ph, (forall m, ~ In m (outputs_of c) -> fs1 m = fs m) -> apart c d -> I fs d ph -> I fs1 d ph) ->
  ForallOrdPairs apart calls -> forall fs phs fs' phs', together e p nt pieces fs phs fs' phs' ->
  Forall2 (I fs) calls phs -> (forall m, (forall c, In c calls -> ~ In m (outputs_of c)) -> fs m = fs0 m) ->
  Forall2 (I fs') calls phs' /\ (forall m, (forall c, In c calls -> ~ In m (outputs_of c)) -> fs' m = fs0 m).
Proof.
  intros Own For Ap fs phs fs' phs' T. induction T as [fs phs|fs before ph after fs1 ph1 fs' phs' M T IH]; intros F U; [auto|].
  apply Forall2_app_inv_r in F. destruct F as (cb & cr & F1 & F2 & ->). inversion F2 as [|c ? ca ? F3 F4]; subst. destruct (pairs_at _ _ _ Ap) as [A1 A2].
  destruct (Own _ _ _ _ _ M F3) as [O1 O2]. apply IH.
  - apply Forall2_app.
    + clear - F1 A1 O2 For. revert A1. induction F1 as [|d q l l' Hd F1 IHF]; intros A1; [constructor|]. inversion A1; subst. constructor; [now apply (For fs fs1 c)|now apply IHF].
    + constructor; [exact O1|]. clear - F4 A2 O2 For. revert A2. induction F4 as [|d q l l' Hd F4 IHF]; intros A2; [constructor|]. inversion A2; subst. constructor; [now apply (For fs fs1 c)|now apply IHF].
  - intros m Hm. rewrite <- (U m Hm). apply O2. apply Hm. apply in_or_app. right. now left.
Qed.

(** A call that writes one file [out] in one go: how far it is. *)
Definition progress (out : name) (b : list Z) (fs : files) (ph : phase) : Prop :=
  ((exists c, ph = Ready c) /\ fs out = fs0 out) \/ (ph = Busy (write_whole out b) Done /\ fs out = fs0 out) \/
  (exists k, (k <= length b)%nat /\ ph = Busy [WriteAt out k (skipn k b)] Done /\ fs out = Some (firstn k b)) \/ (ph = Busy [] Done /\ fs out = Some b).
Definition on_track_and (fs : files) (c : call) (ph : phase) : Prop :=
  on_track fs c ph /\ forall out b, outputs_of c = [out] -> plan_of e p nt c fs0 = (write_whole out b, Done) -> progress out b fs ph.
Lemma prefix_write out b k j fs : (k <= length b)%nat -> fs out = Some (firstn k b) ->
  do_op fs (WriteAt out k (firstn j (skipn k b))) out = Some (firstn (k + length (firstn j (skipn k b))) b).
Proof.
  intros Hk Hf. cbn [do_op]. rewrite put_same, (content_at _ _ _ Hf). assert (L : length (firstn k b) = k) by (rewrite firstn_length; lia).
  rewrite <- L at 2. rewrite write_at_end. f_equal. rewrite firstn_length, skipn_length.
  assert (E := firstn_split b k (Nat.min j (length b - k))). replace (Nat.min k (length b)) with k in E by lia. rewrite E. f_equal.
  destruct (Nat.le_ge_cases j (length b - k)) as [H|H]; [now rewrite Nat.min_l by lia|]. rewrite Nat.min_r by lia. rewrite !firstn_all2; [reflexivity|rewrite skipn_length; lia|rewrite skipn_length; lia].
Qed.
Lemma move_progress fs c ph fs1 ph1 : move e p nt pieces fs ph fs1 ph1 -> on_track_and fs c ph -> on_track_and fs1 c ph1 /\ forall m, ~ In m (outputs_of c) -> fs1 m = fs m.
Proof.
  intros M [T Q]. destruct (move_own _ _ _ _ _ M T) as [T1 U]. split; [|exact U]. split; [exact T1|]. intros out b Ho Hp. specialize (Q out b Ho Hp). unfold progress in *.
  destruct M as [d fs|op ops o fs|n off q j ops o fs _].
  - right. left. destruct T as [-> T]. assert (P : plan_of e p nt c fs = plan_of e p nt c fs0) by (apply plan_local; intros m Hm; apply T; now left). rewrite P, Hp. split; [reflexivity|].
    destruct Q as [[_ Q]|[[Q _]|[(k & _ & Q & _)|[Q _]]]]; [exact Q|discriminate Q|discriminate Q|discriminate Q].
  - destruct Q as [[[? Q] _]|[[Q Qf]|[(k & Qk & Q & Qf)|[Q _]]]]; [discriminate Q| | |discriminate Q].
    + assert (op = Create out /\ ops = [WriteAt out 0 b] /\ o = Done) as (-> & -> & ->) by (unfold write_whole in Q; split; [congruence|split; congruence]).
      right. right. left. exists 0%nat. split; [lia|]. split; [reflexivity|]. cbn [do_op firstn]. apply put_same.
    + assert (op = WriteAt out k (skipn k b) /\ ops = [] /\ o = Done) as (-> & -> & ->) by (split; [congruence|split; congruence]).
      right. right. right. split; [reflexivity|]. assert (W := prefix_write out b k (length (skipn k b)) fs Qk Qf). rewrite firstn_all in W. rewrite W, skipn_length. replace (k + (length b - k))%nat with (length b) by lia. now rewrite firstn_all.
  - destruct Q as [[[? Q] _]|[[Q Qf]|[(k & Qk & Q & Qf)|[Q _]]]]; [discriminate Q|discriminate Q| |discriminate Q].
    assert (n = out /\ off = k /\ q = skipn k b /\ ops = [] /\ o = Done) as (-> & -> & -> & -> & ->) by (repeat split; congruence).
    assert (L : length (firstn j (skipn k b)) = Nat.min j (length b - k)) by (rewrite firstn_length, skipn_length; reflexivity).
    right. right. left. exists (k + length (firstn j (skipn k b)))%nat. split; [lia|]. split; [|now apply prefix_write]. do 2 f_equal. f_equal.
    assert (SS : forall x y (l : list Z), skipn x (skipn y l) = skipn (y + x) l) by (intros x y; induction y as [|y IH]; intros [|z l]; cbn [skipn Nat.add]; [reflexivity|reflexivity|now rewrite skipn_nil|apply IH]).
    rewrite SS, L. destruct (Nat.le_ge_cases j (length b - k)) as [H|H]; [now rewrite Nat.min_l by lia|]. rewrite Nat.min_r by lia. rewrite !skipn_all2 by lia. reflexivity.
Qed.
Lemma foreign_progress fs fs1 c d ph : (forall m, ~ In m (outputs_of c) -> fs1 m = fs m) -> apart c d -> on_track_and fs d ph -> on_track_and fs1 d ph.
Proof.
  intros F A [T Q]. split; [now apply (move_foreign fs fs1 c)|]. intros out b Ho Hp. specialize (Q out b Ho Hp). unfold progress in *. rewrite (F out); [exact Q|].
  intros X. destruct A as [A _]. destruct (A out X) as [_ A2]. apply A2. rewrite Ho. now left.
Qed.
End Run.

(** Any number of calls of the two tools that are apart, in any interleaving, the writes in pieces or not: each call ends as it would have alone, each
    output is what the call alone would have made it, and nothing else changes. *)
Theorem C87_independent pieces calls fs fs' ends : ForallOrdPairs apart calls ->
  together e p nt pieces fs (map Ready calls) fs' (map (Busy []) ends) ->
  Forall2 (fun c o => o = snd (alone e p nt c fs)) calls ends /\
  (forall c m, In c calls -> In m (outputs_of c) -> fs' m = fst (alone e p nt c fs) m) /\
  (forall m, (forall c, In c calls -> ~ In m (outputs_of c)) -> fs' m = fs m).
Proof.
  intros Ap T. destruct (together_keeps pieces fs (on_track fs) calls (move_own pieces fs) (move_foreign fs) Ap _ _ _ _ T) as [F U]; [|auto|].
  { clear. induction calls as [|c calls IH]; cbn [map]; constructor; [cbn [on_track]; auto|exact IH]. }
  assert (G : Forall2 (fun c o => o = snd (plan_of e p nt c fs) /\ forall m, In m (outputs_of c) -> fs' m = run_ops (fst (plan_of e p nt c fs)) fs m) calls ends).
  { clear - F. revert ends F. induction calls as [|c calls IH]; intros [|o ends] F; cbn [map] in F; inversion F as [|? ? ? ? F1 F2]; subst; constructor; [|now apply IH].
    cbn [on_track] in F1. destruct F1 as (F1 & _ & F3). split; [exact F1|exact F3]. }
  clear F T. split; [|split; [|exact U]].
  - clear U Ap. induction G as [|c o calls ends [G1 _] G IH]; constructor; [|exact IH]. rewrite G1. apply plan_alone.
  - clear U Ap. induction G as [|c o calls ends [_ G2] G IH]; intros d m Hd Hm; [destruct Hd|]. destruct Hd as [->|Hd]; [|now apply IH].
    rewrite (G2 m Hm). apply (plan_alone d fs).
Qed.

(** No call waits for another one: from every point of an interleaving the rest can be run to the end. *)
Theorem C87_no_waiting pieces fs phs : exists fs' ends, together e p nt pieces fs phs fs' (map (Busy []) ends) /\ length ends = length phs.
Proof.
  assert (Fin : forall ops o fs before after fs' phs', together e p nt pieces (run_ops ops fs) (before ++ Busy [] o :: after) fs' phs' -> together e p nt pieces fs (before ++ Busy ops o :: after) fs' phs').
  { induction ops as [|op ops IH]; intros o g before after fs' phs' H; [exact H|]. eapply one_moves; [apply acts|]. now apply IH. }
  assert (All : forall todo finished g, exists fs' ends, together e p nt pieces g (map (Busy []) finished ++ todo) fs' (map (Busy []) ends) /\ length ends = (length finished + length todo)%nat).
  { induction todo as [|ph todo IH]; intros finished g.
    - exists g, finished. rewrite app_nil_r. split; [apply rest_now|cbn [length]; lia].
    - assert (B : forall ops o, exists fs' ends, together e p nt pieces g (map (Busy []) finished ++ Busy ops o :: todo) fs' (map (Busy []) ends) /\ length ends = (length finished + S (length todo))%nat).
      { intros ops o. destruct (IH (finished ++ [o]) (run_ops ops g)) as (fs' & ends & H & L). exists fs', ends. split; [|rewrite L, app_length; cbn [length]; lia]. apply Fin. rewrite map_app, <- app_assoc in H. exact H. }
      destruct ph as [c|ops o]; [|apply B]. destruct (B (fst (plan_of e p nt c g)) (snd (plan_of e p nt c g))) as (fs' & ends & H & L). exists fs', ends. split; [|exact L]. eapply one_moves; [apply looks|exact H]. }
  destruct (All phs [] fs) as (fs' & ends & H & L). exists fs', ends. auto.
Qed.

(** At every moment of such an interleaving, the output of a compressing call is what it was before, or a beginning of the complete output; whoever
    uncompresses it then gets the old samples, all the new ones, or an error, and in the last case nothing changes. *)
Theorem C87_meanwhile pieces calls fs fs' phs a x old data bytes final : env_ok e -> proper_stem x -> proper_ext old -> accepted_args a -> a_uncompress a = false -> fits_counter p data ->
  ForallOrdPairs apart calls -> In (Atsc a (named x old)) calls ->
  input_samples nt a (fs (named x old)) data -> process_single_file e p nt a fs (named x old) = (final, Done) -> final (named x ext_bro) = Some bytes ->
  together e p nt pieces fs (map Ready calls) fs' phs ->
  fs' (named x ext_bro) = fs (named x ext_bro) \/ fs' (named x ext_bro) = Some bytes \/
  exists k, (k < length bytes)%nat /\ fs' (named x ext_bro) = Some (firstn k bytes) /\
    exists o, process_single_file e p nt (uncompressing a) fs' (named x ext_bro) = (fs', o) /\ (o = Failed IoError \/ o = Panicked).
Proof.
  intros He Hx Ho Ha Hu Hf Ap Hin Hi Hd Hb T.
  destruct (together_keeps pieces fs (on_track_and fs) calls (move_progress pieces fs) (foreign_progress fs) Ap _ _ _ _ T) as [F _]; [|auto|].
  { clear. induction calls as [|c calls IH]; cbn [map]; constructor; [|exact IH]. split; [cbn [on_track]; auto|]. intros out b _ _. left. split; [now exists c|reflexivity]. }
  assert (Eq : compressing a = a) by (now apply compressing_same).
  assert (Out : output_of a (named x old) = named x ext_bro) by (unfold output_of; rewrite Hu; now apply set_ext_named).
  assert (Cb : compress_data e p data (a_compressor a) (a_error a) (a_level a) = Ok bytes /\ plan_of e p nt (Atsc a (named x old)) fs = (write_whole (named x ext_bro) bytes, Done)).
  { cbn [plan_of]. assert (O := ops_compressing e p nt a fs (named x old) data Hi). rewrite Eq in O. rewrite O. unfold ops_compress_to.
    destruct (C64_operations e p nt a fs (named x old)) as [R1 R2]. rewrite O, Hd in R1, R2. unfold ops_compress_to in R1, R2. cbn [fst snd] in R1, R2.
    destruct (compress_data e p data (a_compressor a) (a_error a) (a_level a)) as [q|]; [|discriminate R1]. cbn [fst] in R2. rewrite set_ext_named in * by assumption.
    specialize (R2 (named x ext_bro)). rewrite (run_whole _ _ _ _), put_same, Hb in R2. assert (q = bytes) by congruence. subst q. auto. }
  destruct Cb as [Cb Pl].
  assert (G : exists ph, on_track_and fs fs' (Atsc a (named x old)) ph).
  { clear - F Hin. induction F as [|c ph l l' H F IH]; [destruct Hin|]. destruct Hin as [->|Hin]; [now exists ph|now apply IH]. }
  destruct G as [ph [_ G]]. cbn [outputs_of] in G. rewrite Out in G. specialize (G _ _ eq_refl Pl).
  destruct G as [[_ G]|[[_ G]|[(k & Hk & _ & G)|[_ G]]]]; [now left|now left| |right; now left].
  destruct (Nat.eq_dec k (length bytes)) as [->|Nk]; [right; left; now rewrite firstn_all in G|]. right. right. exists k. split; [lia|]. split; [exact G|].
  apply (torn_bytes_refused e p nt a fs' _ data bytes k He Ha Hf Cb); [lia|exact G].
Qed.

(** ** Two compressions into the same file *)
Inductive stage := Before | Planned | Created | Written.
Definition at_stage (c : call) (out : name) (b : list Z) (s : stage) : phase :=
  match s with Before => Ready c | Planned => Busy (write_whole out b) Done | Created => Busy [WriteAt out 0 b] Done | Written => Busy [] Done end.
Definition mixed (b1 b2 : list Z) (s1 s2 : stage) (o : option (list Z)) : Prop :=
  match s1, s2 with
  | Created, (Before | Planned | Created) | (Before | Planned), Created => o = Some []
  | Written, (Before | Planned) => o = Some b1
  | (Before | Planned), Written => o = Some b2
  | Written, Created => o = Some [] \/ o = Some b1
  | Created, Written => o = Some [] \/ o = Some b2
  | Written, Written => o = Some b1 \/ o = Some b2 \/ o = Some (b1 ++ skipn (length b1) b2) \/ o = Some (b2 ++ skipn (length b2) b1)
  | _, _ => True
  end.
Lemma write_at_front c b : write_at c 0 b = b ++ skipn (length b) c.
Proof. destruct b as [|x b]; [reflexivity|]. unfold write_at. cbn [firstn Nat.sub repeat app]. reflexivity. Qed.
Lemma advance c out b s fs fs1 ph1 : plan_of e p nt c fs = (write_whole out b, Done) -> move e p nt false fs (at_stage c out b s) fs1 ph1 ->
  match s with
  | Before => ph1 = at_stage c out b Planned /\ fs1 = fs
  | Planned => ph1 = at_stage c out b Created /\ fs1 = put fs out []
  | Created => ph1 = at_stage c out b Written /\ fs1 = put fs out (b ++ skipn (length b) (content fs out))
  | Written => False
  end.
Proof.
  intros P M. destruct s; cbn [at_stage write_whole] in *; inversion M; subst; try discriminate.
  - rewrite P. auto.
  - auto.
  - cbn [do_op]. rewrite write_at_front. auto.
Qed.
Theorem C87_same_output a1 n1 a2 n2 fs fs' o1 o2 out final1 final2 b1 b2 : a_uncompress a1 = false -> a_uncompress a2 = false ->
  output_of a1 n1 = out -> output_of a2 n2 = out -> n1 <> out -> n2 <> out ->
  process_single_file e p nt a1 fs n1 = (final1, Done) -> final1 out = Some b1 -> process_single_file e p nt a2 fs n2 = (final2, Done) -> final2 out = Some b2 ->
  together e p nt false fs [Ready (Atsc a1 n1); Ready (Atsc a2 n2)] fs' [Busy [] o1; Busy [] o2] ->
  o1 = Done /\ o2 = Done /\ only_changes out fs fs' /\
  exists b, fs' out = Some b /\ (b = b1 \/ b = b2 \/ b = b1 ++ skipn (length b1) b2 \/ b = b2 ++ skipn (length b2) b1) /\
    forall out1 out2, Forall is_byte b1 -> Forall is_byte b2 -> decompress_data e p b1 = Ok out1 -> decompress_data e p b2 = Ok out2 -> decompress_data e p b = Ok out1 \/ decompress_data e p b = Ok out2.
Proof.
  intros U1 U2 O1 O2 N1 N2 P1 B1 P2 B2 T.
  assert (Pl : forall a n final b, a_uncompress a = false -> output_of a n = out -> process_single_file e p nt a fs n = (final, Done) -> final out = Some b -> plan_of e p nt (Atsc a n) fs = (write_whole out b, Done)).
  { clear. intros a n final b U O P B. destruct (C64_operations e p nt a fs n) as [R1 R2]. rewrite P in R1, R2. cbn [fst snd plan_of] in *.
    assert (Sh : exists q, ops_single_file e p nt a fs n = (write_whole out q, Done)).
    { unfold output_of in O. rewrite U in O. unfold ops_single_file in *. rewrite U in *.
      assert (C : forall data, snd (ops_compress_to e p a n data) = Done -> exists q, ops_compress_to e p a n data = (write_whole out q, Done)).
      { intros data. unfold ops_compress_to. rewrite O. destruct (compress_data _ _ _ _ _ _) as [q|]; [intros _; now exists q|discriminate]. }
      destruct (a_csv a).
      - match goal with |- context [match ?c with Ok _ => _ | Panic _ => _ end] => destruct c as [[l|er]|] end; [now apply C|discriminate R1|discriminate R1].
      - destruct (from_file (fs n)) as [[data| |]|]; [now apply C|discriminate R1|discriminate R1|discriminate R1]. }
    destruct Sh as [q Sh]. rewrite Sh in *. cbn [fst] in R2. specialize (R2 out). rewrite (run_whole _ _ _ _), put_same, B in R2. congruence. }
  assert (Q1 := Pl _ _ _ _ U1 O1 P1 B1). assert (Q2 := Pl _ _ _ _ U2 O2 P2 B2). clear Pl P1 P2 B1 B2 final1 final2.
  assert (Q1' : forall g, (forall m, m <> out -> g m = fs m) -> plan_of e p nt (Atsc a1 n1) g = (write_whole out b1, Done)).
  { intros g G. rewrite <- Q1. apply plan_local. intros m [<-|[]]. now apply G. }
  assert (Q2' : forall g, (forall m, m <> out -> g m = fs m) -> plan_of e p nt (Atsc a2 n2) g = (write_whole out b2, Done)).
  { intros g G. rewrite <- Q2. apply plan_local. intros m [<-|[]]. now apply G. }
  set (c1 := Atsc a1 n1) in *. set (c2 := Atsc a2 n2) in *. clearbody c1 c2.
  assert (K : forall g phs g' phs', together e p nt false g phs g' phs' -> forall s1 s2, phs = [at_stage c1 out b1 s1; at_stage c2 out b2 s2] -> mixed b1 b2 s1 s2 (g out) -> (forall m, m <> out -> g m = fs m) ->
    exists s1' s2', phs' = [at_stage c1 out b1 s1'; at_stage c2 out b2 s2'] /\ mixed b1 b2 s1' s2' (g' out) /\ (forall m, m <> out -> g' m = fs m)).
  { intros g phs g' phs' Tg. induction Tg as [g phs|g before ph after g1 ph1 g' phs' M Tg IH]; intros s1 s2 E X Y; [exists s1, s2; auto|].
    assert (Y1 : forall v m, m <> out -> put g out v m = fs m) by (intros v m Hm; rewrite put_other by exact Hm; now apply Y).
    assert (Cg : forall v, g out = Some v -> content g out = v) by (intros v; apply content_at).
    destruct before as [|ph0 before]; cbn [app] in *.
    - assert (ph = at_stage c1 out b1 s1 /\ after = [at_stage c2 out b2 s2]) as [-> ->] by (split; congruence). assert (A := advance _ _ _ _ _ _ _ (Q1' g Y) M).
      destruct s1; [| | |destruct A]; destruct A as [-> ->]; eapply IH; try reflexivity; try exact Y; try apply Y1; destruct s2; cbn [mixed] in *; try exact I; try exact X; rewrite ?put_same; auto.
      + now rewrite (Cg _ X), skipn_nil, app_nil_r.
      + now rewrite (Cg _ X), skipn_nil, app_nil_r.
      + right. now rewrite (Cg _ X), skipn_nil, app_nil_r.
      + destruct X as [X|X]; rewrite (Cg _ X); [left; now rewrite skipn_nil, app_nil_r|]. right. right. left. reflexivity.
    - destruct before as [|ph00 before]; cbn [app] in *; [|exfalso; assert (Z0 := f_equal (@length phase) E); cbn [length] in Z0; rewrite app_length in Z0; cbn [length] in Z0; lia].
      assert (ph0 = at_stage c1 out b1 s1 /\ ph = at_stage c2 out b2 s2 /\ after = []) as (-> & -> & ->) by (repeat split; congruence). assert (A := advance _ _ _ _ _ _ _ (Q2' g Y) M).
      destruct s2; [| | |destruct A]; destruct A as [-> ->]; eapply IH; try reflexivity; try exact Y; try apply Y1; destruct s1; cbn [mixed] in *; try exact I; try exact X; rewrite ?put_same; auto.
      + now rewrite (Cg _ X), skipn_nil, app_nil_r.
      + now rewrite (Cg _ X), skipn_nil, app_nil_r.
      + right. now rewrite (Cg _ X), skipn_nil, app_nil_r.
      + destruct X as [X|X]; rewrite (Cg _ X); [right; left; now rewrite skipn_nil, app_nil_r|]. right. right. right. reflexivity. }
  destruct (K _ _ _ _ T Before Before eq_refl I (fun m _ => eq_refl)) as (s1 & s2 & E & X & Y). clear K T.
  assert (E1 : Busy [] o1 = at_stage c1 out b1 s1) by congruence. assert (E2 : Busy [] o2 = at_stage c2 out b2 s2) by congruence. destruct s1; try discriminate E1. destruct s2; try discriminate E2.
  assert (o1 = Done) by (cbn [at_stage] in E1; congruence). assert (o2 = Done) by (cbn [at_stage] in E2; congruence). split; [assumption|]. split; [assumption|]. split; [exact Y|].
  assert (Fs : forall l k, Forall is_byte l -> Forall is_byte (skipn k l)) by (intros l k Hl; rewrite Forall_forall in *; intros z Hz; apply Hl; rewrite <- (firstn_skipn k l); apply in_or_app; now right).
  cbn [mixed] in X. destruct X as [X|[X|[X|X]]]; rewrite X; eexists; (split; [reflexivity|]); (split; [tauto|]); intros out1 out2 F1 F2 D1 D2.
  - now left.
  - now right.
  - left. apply C67_trailing_ignored; auto.
  - right. apply C67_trailing_ignored; auto.
Qed.
End Calls.
Print Assumptions C87_independent.
Print Assumptions C87_no_waiting.
Print Assumptions C87_meanwhile.
Print Assumptions C87_same_output.

(** ** Uncompressing into the same file is not safe *)
From Coq Require Import String.
Open Scope string_scope.
Open Scope Z_scope.
Open Scope list_scope.
Definition u_args : atsc_args := {| a_compressor := Auto; a_error := 3; a_level := 0; a_uncompress := true; a_csv := false; a_no_header := false; a_fields := [] |}.
(** Two compressed series that uncompress to the same name: two samples 7 in x.bro, eight samples 9 in x.old. *)
Definition two_series : files := fun n => if text_eqb n (txt "x.bro") then Some (constant_stream 2 7) else if text_eqb n (txt "x.old") then Some (constant_stream 8 9) else None.
Definition wbro_bytes (k : nat) (z : Z) : list Z := match wb_to_bytes (wb_from_slice (repeat (int_as_f64 z) k)) with Ok b => b | Panic _ => [] end.
Definition bits_of (f : option (list Z)) : option (list Z) := match from_file f with Ok (WbSamples l) => Some (map to_bits l) | _ => None end.

Lemma plan_back e p nt n k z b : two_series n = Some (constant_stream k z) -> 0 <= z < 256 -> Z.of_nat k < 2 ^ 64 -> bro_read (constant_stream k z) = RBro (constant_stream k z) ->
  wb_to_bytes (wb_from_slice (repeat (int_as_f64 z) k)) = Ok b -> plan_of e p nt (Atsc u_args n) two_series = (write_wbro (set_extension n ext_wbro) b, Done).
Proof.
  intros H Hz Hk Hr Hb. cbn [plan_of]. unfold ops_single_file. cbn [u_args a_uncompress]. rewrite H, Hr, constant_stream_reads by assumption. unfold ops_wbro. now rewrite Hb.
Qed.
Lemma plan_short e p nt : plan_of e p nt (Atsc u_args (txt "x.bro")) two_series = (write_wbro (txt "x.wbro") (wbro_bytes 2 7), Done).
Proof. apply (plan_back e p nt (txt "x.bro") 2 7); [reflexivity|lia|lia|vm_compute; reflexivity|vm_compute; reflexivity]. Qed.
Lemma plan_long e p nt : plan_of e p nt (Atsc u_args (txt "x.old")) two_series = (write_wbro (txt "x.wbro") (wbro_bytes 8 9), Done).
Proof. apply (plan_back e p nt (txt "x.old") 8 9); [reflexivity|lia|lia|vm_compute; reflexivity|vm_compute; reflexivity]. Qed.

(** Both calls end well, but the file, which every reader takes for complete, is neither series: it begins with the samples of the one, ends with
    those of the other, and has three samples in between that are in neither. *)
Theorem C87_same_wbro_refuted e p nt : exists fs',
  together e p nt false two_series [Ready (Atsc u_args (txt "x.bro")); Ready (Atsc u_args (txt "x.old"))] fs' [Busy [] Done; Busy [] Done] /\
  (exists g1, process_single_file e p nt u_args two_series (txt "x.bro") = (g1, Done) /\ bits_of (g1 (txt "x.wbro")) = Some (repeat (to_bits (int_as_f64 7)) 2)) /\
  (exists g2, process_single_file e p nt u_args two_series (txt "x.old") = (g2, Done) /\ bits_of (g2 (txt "x.wbro")) = Some (repeat (to_bits (int_as_f64 9)) 8)) /\
  exists x y z, bits_of (fs' (txt "x.wbro")) = Some (repeat (to_bits (int_as_f64 7)) 2 ++ [x; y; z] ++ repeat (to_bits (int_as_f64 9)) 3) /\
    forall v, In v [x; y; z] -> v <> to_bits (int_as_f64 7) /\ v <> to_bits (int_as_f64 9).
Proof.
  assert (A : forall n k z g, (plan_of e p nt (Atsc u_args n) two_series = (write_wbro (txt "x.wbro") (wbro_bytes k z), Done)) -> g = run_ops (write_wbro (txt "x.wbro") (wbro_bytes k z)) two_series ->
    exists g1, process_single_file e p nt u_args two_series n = (g1, Done) /\ bits_of (g1 (txt "x.wbro")) = bits_of (g (txt "x.wbro"))).
  { intros n k z g P ->. destruct (C64_operations e p nt u_args two_series n) as [R1 R2]. cbn [plan_of] in P. rewrite P in R1, R2. cbn [fst snd] in R1, R2.
    destruct (process_single_file e p nt u_args two_series n) as [g1 o1]. cbn [fst snd] in *. exists g1. split; [now rewrite <- R1|]. now rewrite (R2 (txt "x.wbro")). }
  eexists. split; [|split; [|split]].
  - apply (one_moves _ _ _ _ _ [] _ [_]) with (1 := looks _ _ _ _ _ _). cbn [app]. rewrite plan_short. apply (one_moves _ _ _ _ _ [_] _ []) with (1 := looks _ _ _ _ _ _). cbn [app]. rewrite plan_long. cbn [fst snd write_wbro].
    eapply (one_moves _ _ _ _ _ [] _ [_]); [apply acts|]. cbn [app].
    eapply (one_moves _ _ _ _ _ [_] _ []); [apply acts|]. cbn [app]. eapply (one_moves _ _ _ _ _ [_] _ []); [apply acts|]. cbn [app]. eapply (one_moves _ _ _ _ _ [_] _ []); [apply acts|]. cbn [app].
    eapply (one_moves _ _ _ _ _ [] _ [_]); [apply acts|]. cbn [app]. eapply (one_moves _ _ _ _ _ [] _ [_]); [apply acts|]. cbn [app]. apply rest_now.
  - destruct (A _ 2%nat 7 _ (plan_short e p nt) eq_refl) as (g1 & G & B). exists g1. split; [exact G|]. rewrite B. vm_compute. reflexivity.
  - destruct (A _ 8%nat 9 _ (plan_long e p nt) eq_refl) as (g1 & G & B). exists g1. split; [exact G|]. rewrite B. vm_compute. reflexivity.
  - do 3 eexists. split; [vm_compute; reflexivity|]. intros v Hv. vm_compute in Hv. destruct Hv as [<-|[<-|[<-|[]]]]; vm_compute; split; discriminate.
Qed.
Print Assumptions C87_same_wbro_refuted.

(** The hypotheses are met. Three calls that are apart: x.wbro is compressed, y.bro is uncompressed, and csv-compressor compresses z.csv. *)
Definition z_args : csvc_args := {| c_input := txt "z.csv"; c_output := None; c_compressor := Noop; c_error := 0; c_level := 0; c_uncompress := false; c_no_compression := false; c_output_wavbrro := false; c_output_vsri := true |}.
Definition wbro_of (l : list Z) : option (list Z) := match to_file_with_data (Wrote 1000) (Wrote 1000) (map int_as_f64 l) with Ok f => Some f | Panic _ => None end.
Definition four_files : files := fun n =>
  if text_eqb n (txt "x.wbro") then wbro_of [3; 1; 4] else if text_eqb n (txt "x.old") then wbro_of [5; 5; 5; 9; 2; 6]
  else if text_eqb n (txt "y.bro") then Some (constant_stream 2 7) else if text_eqb n (txt "z.csv") then csv_file (txt "x.csv") else None.
Definition three_calls : list call := [Atsc rle_args (txt "x.wbro"); Atsc u_args (txt "y.bro"); Csvc z_args].
Lemma apart_by c d : forallb (fun m => forallb (fun k => negb (text_eqb m k)) (inputs_of d ++ outputs_of d)) (outputs_of c) = true ->
  forallb (fun m => forallb (fun k => negb (text_eqb m k)) (inputs_of c)) (outputs_of d) = true -> apart c d.
Proof.
  assert (R : forall m, text_eqb m m = true) by (intros m; now apply text_eqb_spec).
  assert (N : forall m l, forallb (fun k => negb (text_eqb m k)) l = true -> ~ In m l) by (intros m l H X; rewrite forallb_forall in H; specialize (H m X); now rewrite R in H).
  intros H1 H2. rewrite forallb_forall in H1, H2. split.
  - intros m Hm. specialize (N _ _ (H1 m Hm)). split; intros X; apply N; apply in_or_app; tauto.
  - intros m Hm. apply (N _ _ (H2 m Hm)).
Qed.
Example C87_applies : ForallOrdPairs apart three_calls /\
  (exists fs' ends, together id_env Dev toy_numbers true four_files (map Ready three_calls) fs' (map (Busy []) ends) /\ ends = [Done; Done; Done] /\
     bits_of (fs' (txt "y.wbro")) = Some (repeat (to_bits (int_as_f64 7)) 2)).
Proof.
  assert (Ap : ForallOrdPairs apart three_calls).
  { unfold three_calls. repeat apply FOP_cons; try apply FOP_nil; repeat apply Forall_cons; try apply Forall_nil; apply apart_by; vm_compute; reflexivity. }
  split; [exact Ap|]. destruct (C87_no_waiting id_env Dev toy_numbers true four_files (map Ready three_calls)) as (fs' & ends & T & _). exists fs', ends. split; [exact T|].
  destruct (C87_independent id_env Dev toy_numbers true three_calls four_files fs' ends Ap T) as (F & O & _). split.
  - unfold three_calls in F. inversion F as [|? o1 ? r1 F1 G1]; subst. inversion G1 as [|? o2 ? r2 F2 G2]; subst. inversion G2 as [|? o3 ? r3 F3 G3]; subst. inversion G3; subst. vm_compute. reflexivity.
  - rewrite (O (Atsc u_args (txt "y.bro")) (txt "y.wbro")); [vm_compute; reflexivity|right; now left|now left].
Qed.
(** A moment of such a run in which the output of the compression is five bytes long. *)
Lemma samples_by_bits f l : bits_of f = Some (map to_bits l) -> from_file f = Ok (WbSamples l).
Proof.
  unfold bits_of. destruct (from_file f) as [[l'| |]|]; try discriminate. intros H. assert (E : map to_bits l' = map to_bits l) by congruence. do 2 f_equal.
  assert (X : (do x <- Ok l'; Ok (map to_bits x)) = Ok (map to_bits l)) by (cbn [bind]; now rewrite E). apply same_bits in X. congruence.
Qed.
Definition rle_bytes (l : list Z) : list Z := match compress_data id_env Dev (map int_as_f64 l) RLE 0 0 with Ok b => b | Panic _ => [] end.
Lemma plan_rle n out l : from_file (four_files n) = Ok (WbSamples (map int_as_f64 l)) -> set_extension n ext_bro = out -> rle_bytes l <> [] -> plan_of id_env Dev toy_numbers (Atsc rle_args n) four_files = (write_whole out (rle_bytes l), Done).
Proof.
  intros H <- N. unfold rle_bytes in *. cbn [plan_of]. unfold ops_single_file. cbn [rle_args a_uncompress a_csv]. rewrite H. unfold ops_compress_to. cbn [a_compressor a_error a_level].
  destruct (compress_data _ _ _ _ _ _); [reflexivity|congruence].
Qed.
Lemma done_rle n out b : plan_of id_env Dev toy_numbers (Atsc rle_args n) four_files = (write_whole out b, Done) ->
  exists final, process_single_file id_env Dev toy_numbers rle_args four_files n = (final, Done) /\ final out = Some b.
Proof.
  intros P. destruct (C64_operations id_env Dev toy_numbers rle_args four_files n) as [R1 R2]. cbn [plan_of] in P. rewrite P in R1, R2. cbn [fst snd] in R1, R2.
  destruct (process_single_file id_env Dev toy_numbers rle_args four_files n) as [g o]. cbn [fst snd] in *. exists g. split; [now rewrite <- R1|]. rewrite <- (R2 out), (run_whole _ _ _ _). apply put_same.
Qed.
Lemma plan_new : plan_of id_env Dev toy_numbers (Atsc rle_args (txt "x.wbro")) four_files = (write_whole (txt "x.bro") (rle_bytes [3; 1; 4]), Done).
Proof. apply plan_rle; [apply samples_by_bits; vm_compute; reflexivity|reflexivity|]. vm_compute. discriminate. Qed.
Lemma plan_old : plan_of id_env Dev toy_numbers (Atsc rle_args (txt "x.old")) four_files = (write_whole (txt "x.bro") (rle_bytes [5; 5; 5; 9; 2; 6]), Done).
Proof. apply plan_rle; [apply samples_by_bits; vm_compute; reflexivity|reflexivity|]. vm_compute. discriminate. Qed.

Example C87_meanwhile_applies : env_ok id_env /\ accepted_args rle_args /\ input_samples toy_numbers rle_args (four_files (txt "x.wbro")) (map int_as_f64 [3; 1; 4]) /\ fits_counter Dev (map int_as_f64 [3; 1; 4]) /\
  In (Atsc rle_args (txt "x.wbro")) three_calls /\
  (exists final bytes, process_single_file id_env Dev toy_numbers rle_args four_files (txt "x.wbro") = (final, Done) /\ final (txt "x.bro") = Some bytes /\ (5 < List.length bytes)%nat /\
    exists fs' phs, together id_env Dev toy_numbers true four_files (map Ready three_calls) fs' phs /\ fs' (txt "x.bro") = Some (firstn 5 bytes)).
Proof.
  split; [exact id_env_ok|]. split; [unfold accepted_args; cbn; lia|]. split; [left; split; [reflexivity|]; apply samples_by_bits; vm_compute; reflexivity|].
  split; [apply fits_small; cbn; lia|]. split; [now left|]. destruct (done_rle _ _ _ plan_new) as (final & D & B). exists final, (rle_bytes [3; 1; 4]).
  split; [exact D|]. split; [exact B|]. split; [vm_compute; lia|]. unfold three_calls. cbn [map]. do 2 eexists. split.
  - apply (one_moves _ _ _ _ _ [] _ [_; _]) with (1 := looks _ _ _ _ _ _). cbn [app]. rewrite plan_new. cbn [fst snd write_whole].
    eapply (one_moves _ _ _ _ _ [] _ [_; _]); [apply acts|]. cbn [app]. eapply (one_moves _ _ _ _ _ [] _ [_; _]); [apply (acts_in_part _ _ _ _ _ _ _ 5); reflexivity|]. apply rest_now.
  - cbn [do_op]. rewrite put_same, content_put. vm_compute. reflexivity.
Qed.
(** Two series compressed into the same x.bro; the two outputs differ, also in length. *)
Example C87_same_applies : a_uncompress rle_args = false /\ output_of rle_args (txt "x.wbro") = txt "x.bro" /\ output_of rle_args (txt "x.old") = txt "x.bro" /\ txt "x.wbro" <> txt "x.bro" /\ txt "x.old" <> txt "x.bro" /\
  exists final1 b1 final2 b2, process_single_file id_env Dev toy_numbers rle_args four_files (txt "x.wbro") = (final1, Done) /\ final1 (txt "x.bro") = Some b1 /\
    process_single_file id_env Dev toy_numbers rle_args four_files (txt "x.old") = (final2, Done) /\ final2 (txt "x.bro") = Some b2 /\ (List.length b1 < List.length b2)%nat /\
    exists fs' o1 o2, together id_env Dev toy_numbers false four_files [Ready (Atsc rle_args (txt "x.wbro")); Ready (Atsc rle_args (txt "x.old"))] fs' [Busy [] o1; Busy [] o2] /\ fs' (txt "x.bro") = Some (b1 ++ skipn (List.length b1) b2).
Proof.
  split; [reflexivity|]. split; [reflexivity|]. split; [reflexivity|]. split; [discriminate|]. split; [discriminate|].
  destruct (done_rle _ _ _ plan_new) as (g1 & D1 & B1). destruct (done_rle _ _ _ plan_old) as (g2 & D2 & B2). exists g1, (rle_bytes [3; 1; 4]), g2, (rle_bytes [5; 5; 5; 9; 2; 6]).
  split; [exact D1|]. split; [exact B1|]. split; [exact D2|]. split; [exact B2|]. split; [vm_compute; lia|]. do 3 eexists. split.
  - apply (one_moves _ _ _ _ _ [] _ [_]) with (1 := looks _ _ _ _ _ _). cbn [app]. rewrite plan_new. apply (one_moves _ _ _ _ _ [_] _ []) with (1 := looks _ _ _ _ _ _). cbn [app]. rewrite plan_old. cbn [fst snd write_whole].
    eapply (one_moves _ _ _ _ _ [] _ [_]); [apply acts|]. cbn [app]. eapply (one_moves _ _ _ _ _ [_] _ []); [apply acts|]. cbn [app].
    eapply (one_moves _ _ _ _ _ [_] _ []); [apply acts|]. cbn [app]. eapply (one_moves _ _ _ _ _ [] _ [_]); [apply acts|]. cbn [app]. apply rest_now.
  - cbn [do_op]. rewrite !put_same, !content_put. vm_compute. reflexivity.
Qed.
