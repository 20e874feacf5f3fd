(** C91: calls at the same time, directory calls among them. *)
From Coq Require Import List ZArith Bool Lia.
From Verif Require Import Base Model_Float Model_Bincode BincodeFacts Spec Spec_Wire Model_Vsri Model_Wavbrro Model_Csv Model_Stream Model_Cli Model_Disk Model_Args Model_Command Model_Parallel Model_ParallelDir
  CsvFacts Props_Stream Props_Cli Props_Fft Props_Pipeline Props_Csv Props_Crash Props_Csvc Props_Refusal Props_Damage Props_Parallel.
Import ListNotations.
Open Scope Z_scope.

(** The files a call reads and writes; calls that do not get into each other's way. (A directory call may read what it wrote itself.) *)
Definition reads (t : tool) : list name := match t with Once c => inputs_of c | Walk _ l => l end.
Definition writes (t : tool) : list name := match t with Once c => outputs_of c | Walk a l => map (output_of a) l end.
Definition out_of_the_way (s t : tool) : Prop :=
  (forall m, In m (writes s) -> ~ In m (reads t) /\ ~ In m (writes t)) /\ (forall m, In m (writes t) -> ~ In m (reads s)).

Definition agree (F : name -> Prop) (fs fs' : files) : Prop := forall m, F m -> fs m = fs' m.
Definition same_end (F : name -> Prop) (r r' : files * outcome) : Prop := snd r = snd r' /\ agree F (fst r) (fst r').
Lemma same_end_trans (F : name -> Prop) r s t : same_end F r s -> same_end F s t -> same_end F r t.
Proof. intros [A B] [C D]. split; [congruence|]. intros m Hm. now rewrite (B m Hm), (D m Hm). Qed.
Lemma same_end_refl F r : same_end F r r.
Proof. split; [reflexivity|]. intros m _. reflexivity. Qed.
Lemma same_end_sub (F G : name -> Prop) r s : (forall m, G m -> F m) -> same_end F r s -> same_end G r s.
Proof. intros H [A B]. split; [exact A|]. intros m Hm. apply B. now apply H. Qed.

Section Tools.
Variable e : env.
Variable p : profile.
Variable nt : number_text.

Lemma alone_local (F : name -> Prop) c fs fs' : (forall m, In m (inputs_of c) -> F m) -> agree F fs fs' -> same_end F (alone e p nt c fs) (alone e p nt c fs').
Proof.
  intros I A. destruct (plan_alone e p nt c fs) as [P1 P2]. destruct (plan_alone e p nt c fs') as [Q1 Q2].
  assert (L : plan_of e p nt c fs = plan_of e p nt c fs') by (apply plan_local; intros m Hm; apply A; now apply I). rewrite L in P1, P2. split; [congruence|].
  intros m Hm. rewrite <- (P2 m), <- (Q2 m). apply run_local. now apply A.
Qed.
Lemma run_elsewhere ops : forall fs m, ~ In m (map target ops) -> run_ops ops fs m = fs m.
Proof.
  induction ops as [|o ops IH]; intros fs m H; [reflexivity|]. cbn [run_ops fold_left]. fold (run_ops ops (do_op fs o)). cbn [map In] in H.
  rewrite IH by tauto. apply do_op_other. intros ->. tauto.
Qed.
Lemma alone_elsewhere c fs m : ~ In m (outputs_of c) -> fst (alone e p nt c fs) m = fs m.
Proof.
  intros N. destruct (plan_alone e p nt c fs) as [_ P]. rewrite <- (P m). apply run_elsewhere. intros X. now apply plan_targets in X.
Qed.

Definition pds := process_directory e p nt.
Definition psf := process_single_file e p nt.
(** main.rs:55-65 after the first process_single_file on [n]. *)
Definition after_first (a : atsc_args) (n : name) (again : bool) (rest : list name) (r : files * outcome) : files * outcome :=
  match snd r with
  | Done => pds a (fst r) rest
  | Panicked => (fst r, Panicked)
  | Failed er => if again then (fst r, Failed er) else
      match snd (psf a (fst r) n) with Done => pds a (fst (psf a (fst r) n)) rest | o2 => (fst (psf a (fst r) n), o2) end
  end.
Lemma pds_cons a fs n rest : pds a fs (n :: rest) = match fs n with None => pds a fs rest | Some _ => after_first a n false rest (psf a fs n) end.
Proof.
  unfold pds, psf, after_first. cbn [process_directory]. destruct (fs n); [|reflexivity]. destruct (process_single_file e p nt a fs n) as [fs1 o1]. cbn [fst snd].
  destruct o1; [reflexivity| |reflexivity]. unfold psf. destruct (process_single_file e p nt a fs1 n) as [fs2 o2]. cbn [fst snd]. destruct o2; reflexivity.
Qed.
Section Local.
Variable F : name -> Prop.
Lemma psf_local a n fs fs' : F n -> agree F fs fs' -> same_end F (psf a fs n) (psf a fs' n).
Proof. intros I A. apply (alone_local F (Atsc a n)); [|exact A]. intros m [<-|[]]. exact I. Qed.
Lemma after_local a n again rest r r' : F n -> (forall fs fs', agree F fs fs' -> same_end F (pds a fs rest) (pds a fs' rest)) -> same_end F r r' ->
  same_end F (after_first a n again rest r) (after_first a n again rest r').
Proof.
  intros I H [R1 R2]. unfold after_first. rewrite <- R1. destruct (snd r); [now apply H| |split; [reflexivity|exact R2]].
  destruct again; [split; [reflexivity|exact R2]|]. destruct (psf_local a n _ _ I R2) as [S1 S2]. rewrite <- S1. destruct (snd (psf a (fst r) n)); [now apply H| |]; (split; [reflexivity|exact S2]).
Qed.
Lemma pds_local a rest : (forall m, In m rest -> F m) -> forall fs fs', agree F fs fs' -> same_end F (pds a fs rest) (pds a fs' rest).
Proof.
  induction rest as [|n rest IH]; intros I fs fs' A; [split; [reflexivity|exact A]|]. assert (In_n : F n) by (apply I; now left).
  assert (IH' : forall g g', agree F g g' -> same_end F (pds a g rest) (pds a g' rest)) by (apply IH; intros m Hm; apply I; now right).
  rewrite !pds_cons. rewrite <- (A n In_n). destruct (fs n); [|now apply IH']. apply after_local; [exact In_n|exact IH'|]. now apply psf_local.
Qed.
End Local.

(** What a stage comes to if nobody else acts. *)
Definition finish_phase (fs : files) (ph : phase) : files * outcome :=
  match ph with Ready c => alone e p nt c fs | Busy ops o => (run_ops ops fs, o) end.
Definition finish (fs : files) (st : place) : files * outcome :=
  match st with
  | One ph => finish_phase fs ph
  | Next a rest => pds a fs rest
  | Doing a n again rest ph => after_first a n again rest (finish_phase fs ph)
  | Ended o => (fs, o)
  end.
Definition anywhere (m : name) : Prop := True.
Lemma move_finish pieces fs ph fs1 ph1 : move e p nt pieces fs ph fs1 ph1 -> same_end anywhere (finish_phase fs1 ph1) (finish_phase fs ph).
Proof.
  intros M. destruct M as [d fs|op ops o fs|n off b k ops o fs _]; cbn [finish_phase].
  - destruct (plan_alone e p nt d fs) as [P1 P2]. split; [exact P1|]. intros m _. apply P2.
  - apply same_end_refl.
  - split; [reflexivity|]. intros m _. cbn [fst run_ops fold_left]. apply run_local.
    destruct (list_eq_dec Z.eq_dec m n) as [->|N]; cbn [do_op]; [|now rewrite !put_other by exact N].
    rewrite !put_same, content_put. now rewrite write_at_split, firstn_skipn.
Qed.
Lemma step_finish pieces fs st fs1 st1 : step e p nt pieces fs st fs1 st1 -> same_end anywhere (finish fs1 st1) (finish fs st).
Proof.
  intros S. destruct S; cbn [finish].
  - now apply (move_finish pieces).
  - apply same_end_refl.
  - rewrite pds_cons, H. apply same_end_refl.
  - rewrite pds_cons. destruct (fs n); [|congruence]. apply same_end_refl.
  - apply after_local; [exact I| |now apply (move_finish pieces)]. intros g g'. apply pds_local. intros; exact I.
  - apply same_end_refl.
  - apply same_end_refl.
  - cbn [finish_phase alone]. unfold after_first at 2. cbn [snd fst run_ops fold_left]. unfold after_first. unfold psf. destruct (snd (process_single_file e p nt a fs n)) eqn:E; rewrite ?E; apply same_end_refl.
  - apply same_end_refl.
Qed.

(** The stage belongs to the call: everything it reads or writes is the call's. *)
Definition phase_of (c : call) (ph : phase) : Prop := match ph with Ready d => d = c | Busy ops _ => forall m, In m (map target ops) -> In m (outputs_of c) end.
Definition belongs (t : tool) (st : place) : Prop :=
  match t, st with
  | Once c, One ph => phase_of c ph
  | Walk a l, Next b rest => b = a /\ incl rest l
  | Walk a l, Doing b n _ rest ph => b = a /\ In n l /\ incl rest l /\ phase_of (Atsc a n) ph
  | Walk _ _, Ended _ => True
  | _, _ => False
  end.
Lemma move_phase pieces fs c ph fs1 ph1 : move e p nt pieces fs ph fs1 ph1 -> phase_of c ph -> phase_of c ph1 /\ forall m, ~ In m (outputs_of c) -> fs1 m = fs m.
Proof.
  intros M T. destruct M as [d fs|op ops o fs|n off b k ops o fs _]; cbn [phase_of] in *.
  - subst d. split; [|auto]. intros m. apply plan_targets.
  - split; [intros m Hm; apply T; now right|]. intros m Hm. apply do_op_other. intros ->. apply Hm, T. now left.
  - split; [exact T|]. intros m Hm. apply do_op_other. cbn [target]. intros ->. apply Hm, T. now left.
Qed.
Lemma step_belongs pieces fs t st fs1 st1 : step e p nt pieces fs st fs1 st1 -> belongs t st -> belongs t st1 /\ forall m, ~ In m (writes t) -> fs1 m = fs m.
Proof.
  intros S B. destruct t as [c|a0 l].
  - destruct S; cbn [belongs] in *; try contradiction. now apply (move_phase pieces fs c ph fs1 ph1).
  - destruct S; cbn [belongs] in *; try contradiction.
    + auto.
    + destruct B as [-> B]. split; [split; [reflexivity|]; intros m Hm; apply B; now right|auto].
    + destruct B as [-> B]. split; [|auto]. split; [reflexivity|]. split; [apply B; now left|]. split; [intros m Hm; apply B; now right|reflexivity].
    + destruct B as (-> & B1 & B2 & B3). destruct (move_phase _ _ _ _ _ _ H B3) as [M1 M2]. split; [tauto|]. intros m Hm. apply M2. cbn [outputs_of]. intros [<-|[]]. apply Hm. cbn [writes]. now apply in_map.
    + destruct B as (-> & _ & B & _). auto.
    + auto.
    + destruct B as (-> & B1 & B2 & _). split; [|auto]. split; [reflexivity|]. split; [exact B1|]. split; [exact B2|reflexivity].
    + auto.
Qed.
Lemma finish_local (F : name -> Prop) t st fs fs' : (forall m, In m (reads t) -> F m) -> belongs t st -> agree F fs fs' -> same_end F (finish fs st) (finish fs' st).
Proof.
  intros I B A.
  assert (Ph : forall c ph, (forall m, In m (inputs_of c) -> F m) -> phase_of c ph -> same_end F (finish_phase fs ph) (finish_phase fs' ph)).
  { intros c [d|ops o] Ic Pc; cbn [phase_of finish_phase] in *; [subst d; now apply alone_local|]. split; [reflexivity|]. intros m Hm. apply run_local. now apply A. }
  destruct t as [c|a0 l]; destruct st; cbn [belongs] in B; try contradiction; cbn [finish reads] in *.
  - now apply (Ph c).
  - destruct B as [-> B]. apply pds_local; [intros m Hm; apply I; now apply B|exact A].
  - destruct B as (-> & B1 & B2 & B3). apply after_local; [now apply I| |].
    + intros g g'. apply pds_local. intros m Hm. apply I. now apply B2.
    + apply (Ph (Atsc a0 n)); [|exact B3]. intros m [<-|[]]. now apply I.
  - split; [reflexivity|exact A].
Qed.

(** ** The invariant *)
Definition own (t : tool) (m : name) : Prop := In m (reads t) \/ In m (writes t).
Definition on_course (fs0 fs : files) (t : tool) (st : place) : Prop := belongs t st /\ same_end (own t) (finish fs st) (by_itself e p nt t fs0).
Lemma course_own pieces fs0 fs t st fs1 st1 : step e p nt pieces fs st fs1 st1 -> on_course fs0 fs t st -> on_course fs0 fs1 t st1 /\ forall m, ~ In m (writes t) -> fs1 m = fs m.
Proof.
  intros S [B C]. destruct (step_belongs _ _ _ _ _ _ S B) as [B1 B2]. split; [|exact B2]. split; [exact B1|]. apply (same_end_trans _ _ (finish fs st)); [|exact C].
  apply (same_end_sub anywhere); [intros; exact I|]. now apply (step_finish pieces).
Qed.
Lemma course_foreign fs0 fs fs1 s t st : (forall m, ~ In m (writes s) -> fs1 m = fs m) -> out_of_the_way s t -> on_course fs0 fs t st -> on_course fs0 fs1 t st.
Proof.
  intros F [A _] [B C]. split; [exact B|]. apply (same_end_trans _ _ (finish fs st)); [|exact C]. apply (finish_local (own t) t); [now left|exact B|].
  intros m Hm. apply F. intros X. destruct (A m X) as [A1 A2]. destruct Hm; contradiction.
Qed.
Lemma way_sym s t : out_of_the_way s t -> out_of_the_way t s.
Proof. intros [A B]. split; [intros m Hm; split; [now apply B|]; intros X; now destruct (A m X)|]. intros m Hm. apply (A m Hm). Qed.
Lemma way_at cb c ca : ForallOrdPairs out_of_the_way (cb ++ c :: ca) -> Forall (out_of_the_way c) cb /\ Forall (out_of_the_way c) ca.
Proof.
  induction cb as [|b cb IH]; cbn [app]; intros H; inversion H as [|? ? H1 H2]; subst.
  - split; [constructor|exact H1].
  - destruct (IH H2) as [I1 I2]. split; [|exact I2]. constructor; [|exact I1]. apply way_sym. rewrite Forall_forall in H1. apply H1. apply in_or_app. right. now left.
Qed.
Lemma side_keeps pieces fs0 tools : ForallOrdPairs out_of_the_way tools -> forall fs sts fs' sts', side_by_side e p nt pieces fs sts fs' sts' ->
  Forall2 (on_course fs0 fs) tools sts -> (forall m, (forall t, In t tools -> ~ In m (writes t)) -> fs m = fs0 m) ->
  Forall2 (on_course fs0 fs') tools sts' /\ (forall m, (forall t, In t tools -> ~ In m (writes t)) -> fs' m = fs0 m).
Proof.
  intros Ap fs sts fs' sts' T. induction T as [fs sts|fs before st after fs1 st1 fs' sts' M T IH]; intros F U; [auto|].
  apply Forall2_app_inv_r in F. destruct F as (cb & cr & F1 & F2 & ->). inversion F2 as [|c ? ca ? F3 F4]; subst. destruct (way_at _ _ _ Ap) as [A1 A2].
  destruct (course_own _ _ _ _ _ _ _ M F3) as [O1 O2]. apply IH.
  - apply Forall2_app.
    + clear - F1 A1 O2. revert A1. induction F1 as [|d q l l' Hd F1 IHF]; intros A1; [constructor|]. inversion A1; subst. constructor; [now apply (course_foreign fs0 fs fs1 c)|now apply IHF].
    + constructor; [exact O1|]. clear - F4 A2 O2. revert A2. induction F4 as [|d q l l' Hd F4 IHF]; intros A2; [constructor|]. inversion A2; subst. constructor; [now apply (course_foreign fs0 fs fs1 c)|now apply IHF].
  - intros m Hm. rewrite <- (U m Hm). apply O2. apply Hm. apply in_or_app. right. now left.
Qed.

(** Any number of calls of the two tools, on files or on directories, that are out of each other's way, in any interleaving, the writes in pieces or
    not: each call ends as it would have by itself, each of its outputs is what the call by itself would have made it, and nothing else changes. *)
Theorem C91_independent pieces tools fs fs' sts ends : ForallOrdPairs out_of_the_way tools ->
  side_by_side e p nt pieces fs (map start tools) fs' sts -> Forall2 ends_with sts ends ->
  Forall2 (fun t o => o = snd (by_itself e p nt t fs)) tools ends /\
  (forall t m, In t tools -> In m (writes t) -> fs' m = fst (by_itself e p nt t fs) m) /\
  (forall m, (forall t, In t tools -> ~ In m (writes t)) -> fs' m = fs m).
Proof.
  intros Ap T E. destruct (side_keeps pieces fs tools Ap _ _ _ _ T) as [F U]; [|auto|].
  { clear. induction tools as [|t tools IH]; cbn [map]; constructor; [|exact IH]. split; [|destruct t; apply same_end_refl]. destruct t as [c|a l]; cbn [start belongs phase_of]; [reflexivity|]. split; [reflexivity|apply incl_refl]. }
  assert (Z : Forall2 (fun t o => o = snd (by_itself e p nt t fs) /\ forall m, In m (writes t) -> fs' m = fst (by_itself e p nt t fs) m) tools ends).
  { clear - F E. revert ends E. induction F as [|t st tools sts [_ [F1 F2]] F IH]; intros ends E; inversion E as [|? o ? ends' E1 E2]; subst; constructor; [|now apply IH].
    assert (X : finish fs' st = (fs', o)) by (destruct E1 as [->| ->]; reflexivity). rewrite X in F1, F2. split; [exact F1|]. intros m Hm. apply F2. now right. }
  split; [|split; [|exact U]].
  - clear - Z. induction Z as [|t o tools ends [Z1 _] Z IH]; constructor; assumption.
  - clear - Z. induction Z as [|t o tools ends [_ Z2] Z IH]; intros d m Hd Hm; [destruct Hd|]. destruct Hd as [->|Hd]; [now apply Z2|now apply IH].
Qed.

(** No call waits for another one: from every point of an interleaving the rest can be run to the end. *)
Lemma one_side pieces fs st fs1 st1 : step e p nt pieces fs st fs1 st1 -> forall before after fs' sts',
  side_by_side e p nt pieces fs1 (before ++ st1 :: after) fs' sts' -> side_by_side e p nt pieces fs (before ++ st :: after) fs' sts'.
Proof. intros S before after fs' sts' H. eapply one_steps; [exact S|exact H]. Qed.
(** [st] can be brought to an end while the others rest. *)
Definition can_end pieces (fs : files) (st : place) : Prop := exists fs1 st1 o, ends_with st1 o /\
  forall before after fs' sts', side_by_side e p nt pieces fs1 (before ++ st1 :: after) fs' sts' -> side_by_side e p nt pieces fs (before ++ st :: after) fs' sts'.
Lemma can_step pieces fs st fs1 st1 : step e p nt pieces fs st fs1 st1 -> can_end pieces fs1 st1 -> can_end pieces fs st.
Proof. intros S (fs2 & st2 & o & E & H). exists fs2, st2, o. split; [exact E|]. intros. eapply one_side; [exact S|]. now apply H. Qed.
Lemma ended_end pieces fs st o : ends_with st o -> can_end pieces fs st.
Proof. intros H. exists fs, st, o. auto. Qed.
Lemma all_end pieces fs st : can_end pieces fs st.
Proof.
  assert (D : forall a n again rest o, (forall fs, can_end pieces fs (Doing a n again rest (Busy [] o))) -> forall ops fs, can_end pieces fs (Doing a n again rest (Busy ops o))).
  { intros a n again rest o H. induction ops as [|op ops IH]; intros g; [apply H|]. eapply can_step; [apply works, acts|]. apply IH. }
  assert (R : forall a n again rest, (forall o fs, can_end pieces fs (Doing a n again rest (Busy [] o))) -> forall ph fs, can_end pieces fs (Doing a n again rest ph)).
  { intros a n again rest H [c|ops o] g; [|now apply D]. eapply can_step; [apply works, looks|]. now apply D. }
  assert (N : forall a rest fs, can_end pieces fs (Next a rest)).
  { intros a rest. induction rest as [|n rest IH]; intros g; [eapply can_step; [apply no_more|]; apply (ended_end _ _ _ Done); now left|].
    destruct (g n) eqn:G; [|eapply can_step; [now apply skips|apply IH]]. eapply can_step; [apply takes; congruence|]. apply R. intros o h. destruct o as [|er|].
    - eapply can_step; [apply goes_on|apply IH].
    - eapply can_step; [apply tries_again|]. apply R. intros o2 h2. destruct o2 as [|er2|].
      + eapply can_step; [apply goes_on|apply IH].
      + eapply can_step; [apply gives_up|]. apply (ended_end _ _ _ (Failed er2)). now left.
      + eapply can_step; [apply panics|]. apply (ended_end _ _ _ Panicked). now left.
    - eapply can_step; [apply panics|]. apply (ended_end _ _ _ Panicked). now left. }
  destruct st as [ph|a rest|a n again rest ph|o].
  - assert (B : forall ops o g, can_end pieces g (One (Busy ops o))).
    { induction ops as [|op ops IH]; intros o g; [apply (ended_end _ _ _ o); now right|]. eapply can_step; [apply single, acts|apply IH]. }
    destruct ph as [c|ops o]; [|apply B]. eapply can_step; [apply single, looks|apply B].
  - apply N.
  - assert (T : forall o g, can_end pieces g (Doing a n true rest (Busy [] o))).
    { intros [|er|] g; [eapply can_step; [apply goes_on|apply N]|eapply can_step; [apply gives_up|]|eapply can_step; [apply panics|]].
      - apply (ended_end _ _ _ (Failed er)). now left.
      - apply (ended_end _ _ _ Panicked). now left. }
    apply R. intros o g. destruct again; [apply T|]. destruct o as [|er|]; [eapply can_step; [apply goes_on|apply N]|eapply can_step; [apply tries_again|]; now apply R|eapply can_step; [apply panics|]; apply (ended_end _ _ _ Panicked); now left].
  - apply (ended_end _ _ _ o). now left.
Qed.
Theorem C91_no_waiting pieces fs sts : exists fs' sts' ends, side_by_side e p nt pieces fs sts fs' sts' /\ Forall2 ends_with sts' ends /\ length ends = length sts.
Proof.
  assert (All : forall todo finished ends g, Forall2 ends_with finished ends -> exists fs' sts' ends', side_by_side e p nt pieces g (finished ++ todo) fs' sts' /\ Forall2 ends_with sts' ends' /\ length ends' = (length finished + length todo)%nat).
  { induction todo as [|st todo IH]; intros finished ends g E.
    - exists g, finished, ends. rewrite app_nil_r. split; [apply at_rest|]. split; [exact E|]. cbn [length]. assert (L : length finished = length ends) by (clear - E; induction E; cbn [length]; congruence). lia.
    - destruct (all_end pieces g st) as (fs1 & st1 & o & E1 & H). destruct (IH (finished ++ [st1]) (ends ++ [o]) fs1) as (fs' & sts' & ends' & H1 & H2 & H3).
      { apply Forall2_app; [exact E|]. constructor; [exact E1|constructor]. }
      exists fs', sts', ends'. split; [apply H; now rewrite <- app_assoc in H1|]. split; [exact H2|]. rewrite app_length in H3. cbn [length] in *. lia. }
  destruct (All sts [] [] fs) as (fs' & sts' & ends & H); [constructor|]. exists fs', sts', ends. exact H.
Qed.

(** A directory divided between calls. *)
Lemma pds_app a l1 l2 : forall fs, pds a fs (l1 ++ l2) = match snd (pds a fs l1) with Done => pds a (fst (pds a fs l1)) l2 | o => (fst (pds a fs l1), o) end.
Proof.
  induction l1 as [|n l1 IH]; intros fs; [reflexivity|]. cbn [app]. rewrite !pds_cons. destruct (fs n); [|apply IH]. unfold after_first.
  destruct (snd (psf a fs n)); [apply IH| |reflexivity]. destruct (snd (psf a (fst (psf a fs n)) n)); [apply IH|reflexivity|reflexivity].
Qed.
Lemma pds_elsewhere a rest : forall fs m, ~ In m (map (output_of a) rest) -> fst (pds a fs rest) m = fs m.
Proof.
  assert (P : forall fs n m, m <> output_of a n -> fst (psf a fs n) m = fs m) by (intros fs n m H; apply (alone_elsewhere (Atsc a n)); intros [<-|[]]; congruence).
  induction rest as [|n rest IH]; intros fs m H; [reflexivity|]. cbn [map In] in H. rewrite pds_cons. destruct (fs n); [|apply IH; tauto]. unfold after_first.
  destruct (snd (psf a fs n)).
  - rewrite IH by tauto. apply P. intuition congruence.
  - destruct (snd (psf a (fst (psf a fs n)) n)); cbn [fst]; [rewrite IH by tauto| |]; (rewrite P by (intuition congruence); apply P; intuition congruence).
  - cbn [fst]. apply P. intuition congruence.
Qed.
(** If the call on the whole directory goes through, calls on its parts, at the same time, leave the same files. *)
Theorem C91_divided pieces a parts fs fs' sts ends final : ForallOrdPairs out_of_the_way (map (Walk a) parts) ->
  process_directory e p nt a fs (concat parts) = (final, Done) ->
  side_by_side e p nt pieces fs (map start (map (Walk a) parts)) fs' sts -> Forall2 ends_with sts ends ->
  Forall (eq Done) ends /\ forall m, fs' m = final m.
Proof.
  intros Ap W T E. destruct (C91_independent _ _ _ _ _ _ Ap T E) as (I1 & I2 & I3). fold pds in *.
  assert (K : forall parts g, ForallOrdPairs out_of_the_way (map (Walk a) parts) -> (forall l, In l parts -> agree (own (Walk a l)) g fs) -> pds a g (concat parts) = (final, Done) ->
    Forall (fun l => snd (pds a fs l) = Done /\ agree (own (Walk a l)) final (fst (pds a fs l))) parts /\ (forall m, (forall l, In l parts -> ~ In m (map (output_of a) l)) -> final m = g m)).
  { clear. induction parts as [|l parts IH]; intros g Ap A W; cbn [concat] in W.
    - split; [constructor|]. intros m _. assert (g = final) by (unfold pds in W; cbn [process_directory] in W; congruence). now subst.
    - cbn [map] in Ap. inversion Ap as [|? ? Ap1 Ap2]; subst. assert (W2 := W). rewrite pds_app in W2. destruct (snd (pds a g l)) eqn:D; try (apply (f_equal snd) in W2; discriminate W2).
      assert (L : same_end (own (Walk a l)) (pds a g l) (pds a fs l)) by (apply pds_local; [intros m Hm; now left|]; apply A; now left).
      set (h := fst (pds a g l)) in *. destruct (IH h Ap2) as [IH1 IH2]; [|exact W2|].
      + intros l' Hl' m Hm. unfold h. rewrite pds_elsewhere; [apply (A l'); [now right|exact Hm]|]. intros X. rewrite Forall_forall in Ap1. destruct (Ap1 (Walk a l') (in_map _ _ _ Hl')) as [Q _]. destruct (Q m X). destruct Hm; contradiction.
      + split; [constructor; [|exact IH1]|].
        * destruct L as [L1 L2]. split; [congruence|]. intros m Hm. rewrite <- (L2 m Hm). fold h. apply IH2. intros l' Hl' X. rewrite Forall_forall in Ap1. destruct (Ap1 (Walk a l') (in_map _ _ _ Hl')) as [Q1 Q2].
          destruct Hm as [Hm|Hm]; [now apply (Q2 m X)|]. now destruct (Q1 m Hm).
        * intros m Hm. rewrite IH2; [|intros l' Hl'; apply Hm; now right]. apply pds_elsewhere. apply Hm. now left. }
  destruct (K parts fs Ap ltac:(intros l _ m _; reflexivity) W) as [K1 K2]. split.
  - clear - I1 K1. revert ends I1. induction K1 as [|l parts [K _] K1 IH]; intros ends I1; inversion I1; subst; constructor; [|now apply IH]. cbn [by_itself]. symmetry. exact K.
  - intros m. destruct (in_dec (list_eq_dec Z.eq_dec) m (concat (map (map (output_of a)) parts))) as [H|H].
    + apply in_concat in H. destruct H as (o & H1 & H2). apply in_map_iff in H1. destruct H1 as (l & <- & Hl). rewrite (I2 (Walk a l) m (in_map _ _ _ Hl) H2). rewrite Forall_forall in K1. destruct (K1 l Hl) as [_ K3]. cbn [by_itself]. symmetry. apply K3. now right.
    + assert (N : forall l, In l parts -> ~ In m (map (output_of a) l)) by (intros l Hl X; apply H, in_concat; exists (map (output_of a) l); split; [now apply in_map|exact X]).
      rewrite K2 by exact N. apply I3. intros t Ht. apply in_map_iff in Ht. destruct Ht as (l & <- & Hl). now apply N.
Qed.
End Tools.
Print Assumptions C91_independent.
Print Assumptions C91_no_waiting.
Print Assumptions C91_divided.

(** Instances. A directory being compressed, one being uncompressed (one of its files is no stream) and a call of csv-compressor on a file of the
    second one. *)
From Coq Require Import String.
Local Open Scope string_scope.
Definition six_files : files := fun n => if text_eqb n (txt "v.wbro") then wbro_of [2; 7] else four_files n.
Definition tools : list tool := [Walk rle_args [txt "x.wbro"; txt "gone"; txt "v.wbro"]; Walk u_args [txt "y.bro"; txt "z.csv"]; Once (Csvc z_args)].
Lemma way_by s t : forallb (fun m => forallb (fun k => negb (text_eqb m k)) (reads t ++ writes t)) (writes s) = true ->
  forallb (fun m => forallb (fun k => negb (text_eqb m k)) (reads s)) (writes t) = true -> out_of_the_way s t.
Proof.
  assert (R : forall m, text_eqb m m = true) by (intros m; now apply text_eqb_spec).
  assert (N : forall m l, forallb (fun k => negb (text_eqb m k)) l = true -> ~ In m l) by (intros m l H X; rewrite forallb_forall in H; specialize (H m X); now rewrite R in H).
  intros H1 H2. rewrite forallb_forall in H1, H2. split.
  - intros m Hm. specialize (N _ _ (H1 m Hm)). split; intros X; apply N; apply in_or_app; tauto.
  - intros m Hm. apply (N _ _ (H2 m Hm)).
Qed.
Example C91_applies : ForallOrdPairs out_of_the_way tools /\
  exists fs' sts ends, side_by_side id_env Dev toy_numbers true six_files (map start tools) fs' sts /\ Forall2 ends_with sts ends /\ ends = [Done; Done; Done] /\
    bits_of (fs' (txt "y.wbro")) = Some (repeat (to_bits (int_as_f64 7)) 2) /\ fs' (txt "v.bro") <> None /\ fs' (txt "x.bro") <> None /\ fs' (txt "z.bro") <> None.
Proof.
  assert (Ap : ForallOrdPairs out_of_the_way tools).
  { unfold tools. repeat apply FOP_cons; try apply FOP_nil; repeat apply Forall_cons; try apply Forall_nil; apply way_by; vm_compute; reflexivity. }
  split; [exact Ap|]. destruct (C91_no_waiting id_env Dev toy_numbers true six_files (map start tools)) as (fs' & sts & ends & T & E & _). exists fs', sts, ends. split; [exact T|]. split; [exact E|].
  destruct (C91_independent id_env Dev toy_numbers true tools six_files fs' sts ends Ap T E) as (F & O & _). split.
  - unfold tools in F. inversion F as [|? o1 ? r1 F1 G1]; subst. inversion G1 as [|? o2 ? r2 F2 G2]; subst. inversion G2 as [|? o3 ? r3 F3 G3]; subst. inversion G3; subst. vm_compute. reflexivity.
  - split; [|split; [|split]].
    + rewrite (O (Walk u_args [txt "y.bro"; txt "z.csv"]) (txt "y.wbro")); [vm_compute; reflexivity|right; now left|now left].
    + rewrite (O (Walk rle_args [txt "x.wbro"; txt "gone"; txt "v.wbro"]) (txt "v.bro")); [vm_compute; discriminate|now left|right; right; now left].
    + rewrite (O (Walk rle_args [txt "x.wbro"; txt "gone"; txt "v.wbro"]) (txt "x.bro")); [vm_compute; discriminate|now left|now left].
    + rewrite (O (Once (Csvc z_args)) (txt "z.bro")); [vm_compute; discriminate|right; right; now left|vm_compute; tauto].
Qed.
Example C91_divided_applies : ForallOrdPairs out_of_the_way (map (Walk rle_args) [[txt "x.wbro"]; [txt "v.wbro"; txt "gone"]]) /\
  exists final, process_directory id_env Dev toy_numbers rle_args six_files (List.concat [[txt "x.wbro"]; [txt "v.wbro"; txt "gone"]]) = (final, Done) /\ final (txt "v.bro") <> None /\ final (txt "x.bro") <> None.
Proof.
  split; [cbn [map]; repeat apply FOP_cons; try apply FOP_nil; repeat apply Forall_cons; try apply Forall_nil; apply way_by; vm_compute; reflexivity|].
  assert (D : snd (process_directory id_env Dev toy_numbers rle_args six_files [txt "x.wbro"; txt "v.wbro"; txt "gone"]) = Done) by (vm_compute; reflexivity).
  assert (V : fst (process_directory id_env Dev toy_numbers rle_args six_files [txt "x.wbro"; txt "v.wbro"; txt "gone"]) (txt "v.bro") <> None) by (vm_compute; discriminate).
  assert (X : fst (process_directory id_env Dev toy_numbers rle_args six_files [txt "x.wbro"; txt "v.wbro"; txt "gone"]) (txt "x.bro") <> None) by (vm_compute; discriminate).
  cbn [List.concat app]. destruct (process_directory _ _ _ _ _ _) as [final o]. cbn [fst snd] in *. exists final. subst o. auto.
Qed.
