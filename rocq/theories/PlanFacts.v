(** Facts about cleaning, chunk planning and execution. *)
From Coq Require Import List ZArith Bool Lia.
From Coq Require Import ZifyBool.
From Verif Require Import Base Model_Float Model_Utils Model_Polynomial Model_Stream Spec UtilsFacts FloatFacts.
Import ListNotations.
Open Scope Z_scope.

Definition zsum (l : list Z) : Z := fold_right Z.add 0 l.

(** A well-shaped list of chunk sizes. *)
Fixpoint good_chunks (l : list Z) : Prop :=
  match l with
  | [] => True
  | c :: l' => 1 <= c <= MAX_FRAME_SIZE /\ (power_of_two c \/ (l' = [] /\ c <= MIN_FRAME_SIZE)) /\ good_chunks l'
  end.

Lemma next_chunk_spec len : 1 <= len ->
  let '(c, r) := next_chunk len in
  1 <= c <= MAX_FRAME_SIZE /\ 0 <= r < len /\ c + r = len /\ (power_of_two c \/ (r = 0 /\ c <= MIN_FRAME_SIZE)).
Proof.
  intros Hl. unfold next_chunk, MAX_FRAME_SIZE, MIN_FRAME_SIZE.
  destruct (131072 <=? len) eqn:E1.
  - repeat split; try lia. left. exists 17. split; [lia|reflexivity].
  - destruct (len <=? 512) eqn:E2.
    + repeat split; lia.
    + rewrite prev_power_of_two_pos by lia.
      destruct (Z.log2_spec len ltac:(lia)) as [H1 H2]. pose proof (Z.log2_nonneg len) as H3.
      assert (1 <= 2 ^ Z.log2 len) by (pose proof (Z.pow_pos_nonneg 2 (Z.log2 len)); lia).
      repeat split; try lia. left. exists (Z.log2 len). split; [lia|reflexivity].
Qed.

Lemma chunks_loop_spec fuel : forall len, 0 <= len <= Z.of_nat fuel ->
  exists l, chunks_loop fuel len = Some l /\ zsum l = len /\ good_chunks l /\ (len = 0 <-> l = []).
Proof.
  induction fuel as [|fuel IH]; intros len Hl; cbn [chunks_loop].
  - assert (len <=? 0 = true) as -> by lia. exists []. cbn. repeat split; try lia; auto.
  - destruct (len <=? 0) eqn:E.
    + exists []. cbn. repeat split; try lia; auto.
    + pose proof (next_chunk_spec len ltac:(lia)) as H. destruct (next_chunk len) as [c r].
      destruct H as (Hc & Hr & Hs & Hp). destruct (IH r ltac:(lia)) as (l & -> & Hz & Hg & He).
      exists (c :: l). split; [reflexivity|]. cbn [zsum fold_right good_chunks]. fold (zsum l).
      split; [lia|]. split.
      * split; [exact Hc|]. split; [|exact Hg]. destruct Hp as [Hp|[Hr0 Hc2]]; [now left|right].
        split; [apply He; exact Hr0|exact Hc2].
      * split; intros; [lia|discriminate].
Qed.

Lemma get_chunks_sizes_spec n :
  exists l, get_chunks_sizes n = Ok l /\ zsum l = Z.of_nat n /\ good_chunks l.
Proof.
  unfold get_chunks_sizes. destruct (chunks_loop_spec n (Z.of_nat n) ltac:(lia)) as (l & -> & H1 & H2 & _). eauto.
Qed.

Lemma good_chunks_pos l : good_chunks l -> Forall (fun c => 1 <= c <= MAX_FRAME_SIZE) l.
Proof. induction l as [|c l IH]; cbn; intros H; constructor; [apply H|apply IH, H]. Qed.

Lemma good_chunks_split l pre c post : good_chunks l -> l = pre ++ c :: post ->
  power_of_two c \/ (post = [] /\ c <= MIN_FRAME_SIZE).
Proof.
  revert l. induction pre as [|a pre IH]; intros l Hg ->.
  - apply Hg.
  - cbn [app good_chunks] in Hg. apply (IH (pre ++ c :: post)); [apply Hg|reflexivity].
Qed.

(** Cutting a list into consecutive pieces. *)
Fixpoint cut {A} (l : list A) (sizes : list Z) : list (list A) :=
  match sizes with
  | [] => []
  | s :: sizes' => firstn (Z.to_nat s) l :: cut (skipn (Z.to_nat s) l) sizes'
  end.

Lemma zsum_nonneg l : Forall (fun c => 1 <= c) l -> 0 <= zsum l.
Proof. induction 1; cbn; [lia|]. fold (zsum l). lia. Qed.

Lemma cut_concat {A} (l : list A) sizes : Forall (fun c => 1 <= c) sizes ->
  zsum sizes = Z.of_nat (length l) ->
  concat (cut l sizes) = l /\ map (fun c => Z.of_nat (length c)) (cut l sizes) = sizes.
Proof.
  intros Hp. revert l. induction Hp as [|s sizes Hs Hp IH]; intros l Hz.
  - cbn in *. destruct l; [split; reflexivity|cbn in Hz; lia].
  - cbn [zsum fold_right] in Hz. fold (zsum sizes) in Hz. pose proof (zsum_nonneg _ Hp).
    cbn [cut concat map].
    destruct (IH (skipn (Z.to_nat s) l)) as [IH1 IH2].
    { rewrite skipn_length. lia. }
    rewrite IH1, IH2. rewrite firstn_skipn. split; [reflexivity|].
    f_equal. rewrite firstn_length. lia.
Qed.

Lemma skipn_skipn' {A} a b (l : list A) : skipn a (skipn b l) = skipn (b + a) l.
Proof.
  revert l. induction b as [|b IH]; intros l; [reflexivity|]. destruct l as [|x l]; cbn; [now destruct a|apply IH].
Qed.

Lemma slice_ok {A} (l : list A) s size : 0 <= s -> 0 <= size -> s + size <= Z.of_nat (length l) ->
  slice l s size = Ok (firstn (Z.to_nat size) (skipn (Z.to_nat s) l)).
Proof. intros. unfold slice. assert (Z.of_nat (length l) <? s + size = false) as -> by lia. reflexivity. Qed.

Lemma assign_compressor_ok data chunks s : 0 <= s -> Forall (fun c => 1 <= c) chunks ->
  s + zsum chunks = Z.of_nat (length data) ->
  exists cs, assign_compressor data chunks s = Ok cs /\ length cs = length chunks.
Proof.
  intros Hs Hp. revert s Hs. induction Hp as [|c chunks Hc Hp IH]; intros s Hs Hz; cbn [assign_compressor].
  - exists []. split; reflexivity.
  - cbn [zsum fold_right] in Hz. fold (zsum chunks) in Hz. pose proof (zsum_nonneg _ Hp).
    rewrite slice_ok by lia. cbn [bind].
    destruct (IH (s + c) ltac:(lia) ltac:(lia)) as (cs & -> & Hl). cbn [bind].
    exists (FFT :: cs). split; [reflexivity|cbn; lia].
Qed.

Lemma index_repeat {A} (x : A) n i : 0 <= i < Z.of_nat n -> index (repeat x n) i = Ok x.
Proof.
  intros Hi. unfold index.
  rewrite (nth_error_repeat x) by lia. reflexivity.
Qed.

Lemma execution_loop_ok data c n chunks : forall i s,
  0 <= i -> i + Z.of_nat (length chunks) <= Z.of_nat n ->
  0 <= s -> Forall (fun c => 1 <= c) chunks -> s + zsum chunks = Z.of_nat (length data) ->
  execution_loop data (repeat c n) chunks i s =
  Ok (map (fun d => (c, d)) (cut (skipn (Z.to_nat s) data) chunks)).
Proof.
  induction chunks as [|sz chunks IH]; intros i s Hi Hn Hs Hp Hz; cbn [execution_loop cut map]; [reflexivity|].
  inversion Hp; subst. cbn [zsum fold_right] in Hz. fold (zsum chunks) in Hz. pose proof (zsum_nonneg _ H2).
  cbn [length] in Hn. rewrite index_repeat by lia. cbn [bind].
  rewrite slice_ok by lia. cbn [bind].
  rewrite IH by (assumption || lia). cbn [bind].
  rewrite skipn_skipn'. replace (Z.to_nat s + Z.to_nat sz)%nat with (Z.to_nat (s + sz)) by lia. reflexivity.
Qed.

(** The plan for any series and compressor choice. *)
Lemma plan_spec data c :
  exists pl, make_plan data = Ok pl /\ pn_data pl = clean_data data /\
    get_chunks_sizes (length (clean_data data)) = Ok (pn_chunks pl) /\
    zsum (pn_chunks pl) = Z.of_nat (length (clean_data data)) /\ good_chunks (pn_chunks pl) /\
    length (pn_compressors pl) = length (pn_chunks pl) /\
    get_execution (set_compressor pl c) = Ok (map (fun d => (c, d)) (cut (clean_data data) (pn_chunks pl))).
Proof.
  unfold make_plan.
  destruct (get_chunks_sizes_spec (length (clean_data data))) as (chunks & Hc & Hz & Hg). rewrite Hc. cbn [bind].
  assert (Hp : Forall (fun c => 1 <= c) chunks).
  { eapply Forall_impl; [|apply good_chunks_pos, Hg]. cbn. intros; lia. }
  destruct (assign_compressor_ok (clean_data data) chunks 0 ltac:(lia) Hp ltac:(lia)) as (cs & Hcs & Hl).
  rewrite Hcs. cbn [bind]. eexists. split; [reflexivity|]. cbn [pn_data pn_chunks pn_compressors].
  repeat split; try assumption.
  unfold get_execution, set_compressor. cbn [pn_data pn_chunks pn_compressors].
  rewrite Hl. rewrite execution_loop_ok; [reflexivity|lia|lia|lia|exact Hp|lia].
Qed.

(** Cleaning. *)
Lemma clean_data_spec data : subsequence_of finite data (clean_data data).
Proof.
  unfold clean_data. induction data as [|x l IH]; cbn [filter]; [constructor|].
  rewrite <- fis_finite_class. destruct (fis_finite x) eqn:E; constructor; try assumption.
  unfold finite. congruence.
Qed.
Lemma clean_data_finite data : Forall finite (clean_data data).
Proof.
  pose proof (clean_data_spec data) as H. induction H; [constructor|constructor; assumption|assumption].
Qed.
Lemma clean_data_id data : Forall finite data -> clean_data data = data.
Proof.
  unfold clean_data. induction 1 as [|x l Hx Hl IH]; [reflexivity|]. cbn [filter].
  rewrite <- fis_finite_class. unfold finite in Hx. rewrite Hx, IH. reflexivity.
Qed.
Lemma clean_data_length data : (length (clean_data data) <= length data)%nat.
Proof. unfold clean_data. induction data as [|x l IH]; cbn; [lia|]. destruct (negb _); cbn; lia. Qed.
Lemma clean_data_in data x : In x (clean_data data) -> In x data /\ finite x.
Proof.
  unfold clean_data. intros H. apply filter_In in H. destruct H as [H1 H2]. split; [exact H1|].
  rewrite <- fis_finite_class in H2. exact H2.
Qed.
