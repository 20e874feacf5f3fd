(** C34: the index file. *)
From Coq Require Import List ZArith Bool Lia ZifyBool.
From Verif Require Import Base Model_Vsri Spec_Vsri VsriFacts TextFacts Props_Vsri.
Import ListNotations.
Open Scope Z_scope.

Definition i32_segment (s : segment) : Prop := in_s 32 (sg_m s) /\ in_s 32 (sg_x s) /\ in_s 32 (sg_y s) /\ in_s 32 (sg_n s).
(** Every index value the Rust type can hold. *)
Definition i32_index (v : vsri) : Prop := in_s 32 (vs_min v) /\ in_s 32 (vs_max v) /\ Forall i32_segment (vs_segs v).

Definition seg_text (s : segment) : list Z :=
  show_int (sg_m s) ++ ch_comma :: show_int (sg_x s) ++ ch_comma :: show_int (sg_y s) ++ ch_comma :: show_int (sg_n s).
Lemma show_segment_text s : show_segment s = seg_text s ++ [ch_nl].
Proof. unfold show_segment, seg_text. cbn [app]. repeat (rewrite <- ?app_assoc; cbn [app]). reflexivity. Qed.

Lemma word_no_comma w : Forall word w -> ~ In ch_comma w.
Proof. intros H Hi. rewrite Forall_forall in H. specialize (H _ Hi). unfold word, digit, ch_comma in H. lia. Qed.
Lemma show_word z : in_s 32 z -> Forall word (show_int z).
Proof. intros H. apply show_int_word. now apply i32_small. Qed.
Lemma seg_text_line s : i32_segment s -> Forall line_char (seg_text s).
Proof.
  intros (H1 & H2 & H3 & H4). unfold seg_text. assert (C : line_char ch_comma) by (unfold line_char, ch_comma; lia).
  repeat (apply Forall_app; split; [apply word_line; now apply show_word|]; apply Forall_cons; [exact C|]). apply word_line. now apply show_word.
Qed.
Lemma seg_text_nonempty s : i32_segment s -> seg_text s <> [].
Proof. intros _ H. unfold seg_text in H. apply app_eq_nil in H. destruct H as [_ H]. discriminate H. Qed.
Lemma load_seg_text s : i32_segment s -> load_segment (seg_text s) = Ok s.
Proof.
  intros (H1 & H2 & H3 & H4). unfold load_segment, seg_text. rewrite !split_some by (apply word_no_comma; now apply show_word). rewrite split_none by (apply word_no_comma; now apply show_word).
  cbn [map_res]. rewrite !parse_unwrap_show by assumption. cbn [bind]. now destruct s.
Qed.

Lemma lines_segs segs tail : Forall i32_segment segs -> lines (concat (map show_segment segs) ++ tail) = map seg_text segs ++ lines tail.
Proof.
  induction 1 as [|s l Hs Hl IH]; [reflexivity|]. cbn [map concat]. rewrite show_segment_text, <- !app_assoc. cbn [app]. rewrite lines_cons by now apply seg_text_line. now rewrite IH.
Qed.
Lemma load_segs segs : Forall i32_segment segs -> map_res load_segment (map seg_text segs) = Ok segs.
Proof. induction 1 as [|s l Hs Hl IH]; [reflexivity|]. cbn [map map_res]. rewrite load_seg_text by exact Hs. cbn [bind]. now rewrite IH. Qed.

Lemma load_full mn mx segs tail : in_s 32 mn -> in_s 32 mx -> Forall i32_segment segs ->
  load (show_int mn ++ [ch_nl] ++ show_int mx ++ [ch_nl] ++ concat (map show_segment segs) ++ tail)
  = do r <- map_res load_segment (map seg_text segs ++ lines tail); Ok (Vsri mn mx r).
Proof.
  intros H1 H2 H3. unfold load. cbn [app]. rewrite lines_cons by (apply word_line; now apply show_word). rewrite lines_cons by (apply word_line; now apply show_word).
  rewrite lines_segs by exact H3. rewrite !parse_unwrap_show by assumption. reflexivity.
Qed.

(** Writing any index and loading the file gives it back. *)
Theorem C34_round_trip : forall v, i32_index v -> load (flush_bytes v) = Ok v.
Proof.
  intros v (H1 & H2 & H3). unfold flush_bytes. rewrite <- (app_nil_r (concat _)). rewrite load_full by assumption. change (lines []) with (@nil (list Z)). rewrite app_nil_r, load_segs by exact H3.
  now destruct v.
Qed.
Print Assumptions C34_round_trip.
Example C34_example : i32_index (Vsri (-2147483648) 2147483647 [Seg 15 0 55745 166; Seg (-1) 2147483647 (-2147483648) 0]).
Proof. unfold i32_index, i32_segment, in_s. cbn. repeat split; try lia. repeat constructor; cbn; lia. Qed.

(** The index built from a day of points is such an index, so flushing and loading it is transparent. *)
Theorem C34_day_index_round_trip : forall p ys v, day_points ys -> index_of p ys v -> load (flush_bytes v) = Ok v.
Proof.
  intros p ys v Hd Hv. apply C34_round_trip. destruct (VsriLookup.index_facts p ys v Hd Hv) as (segs & -> & _ & H2 & _). unfold i32_index, summary, in_s. cbn [vs_min vs_max vs_segs].
  change (2 ^ (32 - 1)) with 2147483648.
  assert (B : -2147483648 <= hd 0 ys < 2147483648 /\ -2147483648 <= last ys 0 < 2147483648).
  { destruct Hd as [_ Hd]. rewrite Forall_forall in Hd. destruct ys as [|a l]; [cbn; lia|]. split; [specialize (Hd a (or_introl eq_refl)); cbn; lia|].
    specialize (Hd _ (in_last (a :: l) ltac:(discriminate))). lia. }
  split; [apply B|]. split; [apply B|]. eapply Forall_impl; [|exact H2]. intros s Hs. assert (M := seg_ok_mx s Hs). unfold seg_ok in Hs. unfold i32_segment, in_s.
  change (2 ^ (32 - 1)) with 2147483648. lia.
Qed.
Print Assumptions C34_day_index_round_trip.

(** Torn files, first half: whatever number of whole segments were written before a crash, the file loads without complaint
    as the index with the later segments missing. *)
Theorem C34_torn_file_accepted : forall mn mx a b, i32_index (Vsri mn mx (a ++ b)) ->
  exists k, (k <= length (flush_bytes (Vsri mn mx (a ++ b))))%nat /\
    load (firstn k (flush_bytes (Vsri mn mx (a ++ b)))) = Ok (Vsri mn mx a).
Proof.
  intros mn mx a b (H1 & H2 & H3). cbn [vs_min vs_max vs_segs] in *. exists (length (flush_bytes (Vsri mn mx a))).
  assert (E : flush_bytes (Vsri mn mx (a ++ b)) = flush_bytes (Vsri mn mx a) ++ concat (map show_segment b)).
  { unfold flush_bytes. cbn [vs_min vs_max vs_segs]. rewrite map_app, concat_app. rewrite !app_assoc. reflexivity. }
  rewrite E, app_length. split; [lia|]. rewrite firstn_app, Nat.sub_diag, firstn_all. cbn [firstn]. rewrite app_nil_r. apply C34_round_trip.
  apply Forall_app in H3. split; [exact H1|split; [exact H2|apply H3]].
Qed.
Print Assumptions C34_torn_file_accepted.
(** So a crash can turn an index of six samples into one of three, with the old maximum: its own last point is then not
    found and the count is wrong. *)
Theorem C34_torn_index_refuted :
  let v := Vsri 0 110 [Seg 10 0 0 3; Seg 5 3 100 3] in
  index_of Dev [0; 10; 20; 100; 105; 110] v /\
  exists k, load (firstn k (flush_bytes v)) = Ok (Vsri 0 110 [Seg 10 0 0 3]) /\ get_sample_count Dev (Vsri 0 110 [Seg 10 0 0 3]) = Ok 3.
Proof. split; [eexists; vm_compute; reflexivity|]. exists 15%nat. split; reflexivity. Qed.
Print Assumptions C34_torn_index_refuted.
(** A cut inside a number is not noticed either: 166 samples become 16. *)
Theorem C34_torn_number_refuted :
  let v := Vsri 55745 59435 [Seg 15 0 55745 166] in load (firstn 25 (flush_bytes v)) = Ok (Vsri 55745 59435 [Seg 15 0 55745 16]).
Proof. vm_compute. reflexivity. Qed.
Print Assumptions C34_torn_number_refuted.
(** An empty file loads as an empty index. *)
Theorem C34_empty_file_accepted : load [] = Ok vsri_new.
Proof. reflexivity. Qed.
Print Assumptions C34_empty_file_accepted.

(** Torn files, second half: a file short of more than the final line feed is never taken for the complete index. *)
Lemma firstn_cases {A} k (a b : list A) : (exists r, firstn k (a ++ b) = firstn k a /\ a = firstn k a ++ r /\ r <> []) \/
  (exists j, firstn k (a ++ b) = a ++ firstn j b /\ k = (length a + j)%nat).
Proof.
  destruct (Nat.lt_ge_cases k (length a)) as [H|H].
  - left. exists (skipn k a). rewrite firstn_app. replace (k - length a)%nat with 0%nat by lia. cbn [firstn]. rewrite app_nil_r. split; [reflexivity|].
    split; [symmetry; apply firstn_skipn|]. intros E. apply (f_equal (@length A)) in E. rewrite skipn_length in E. cbn in E. lia.
  - right. exists (k - length a)%nat. rewrite firstn_app, firstn_all2 by lia. split; [reflexivity|lia].
Qed.

Lemma forall_prefix {A} (P : A -> Prop) k l : Forall P l -> Forall P (firstn k l).
Proof. intros H. rewrite <- (firstn_skipn k l) in H. apply Forall_app in H. apply H. Qed.

Lemma split_count sep l : length (split_on sep l) = S (length (filter (fun c => c =? sep) l)).
Proof.
  induction l as [|c l IH]; [reflexivity|]. cbn [split_on filter]. destruct (c =? sep); [cbn; now rewrite IH|]. destruct (split_on sep l) eqn:E; [now apply split_nonempty in E|]. cbn in *. lia.
Qed.
Lemma map_res_length {A B} (f : A -> res B) l r : map_res f l = Ok r -> length r = length l.
Proof.
  revert r. induction l as [|a l IH]; intros r H; cbn [map_res] in H; [apply ok_inj in H; now subst|]. destruct (f a); [|discriminate H]. cbn [bind] in H. destruct (map_res f l) as [q|]; [|discriminate H].
  cbn [bind] in H. apply ok_inj in H. subst r. cbn [length]. f_equal. now apply IH.
Qed.
Lemma filter_none sep w : ~ In sep w -> filter (fun c => c =? sep) w = [].
Proof. induction w as [|c w IH]; intros H; [reflexivity|]. cbn [filter]. destruct (c =? sep) eqn:E; [exfalso; apply H; left; lia|]. apply IH. intros Hi. apply H. now right. Qed.

Lemma load_segment_commas line s : load_segment line = Ok s -> length (filter (fun c => c =? ch_comma) line) = 3%nat.
Proof.
  unfold load_segment. intros H. destruct (map_res parse_unwrap (split_on ch_comma line)) as [vals|] eqn:E; [|discriminate H]. cbn [bind] in H.
  assert (L := map_res_length _ _ _ E). rewrite split_count in L. destruct vals as [|? [|? [|? [|? [|? ?]]]]]; try discriminate H. cbn in L. lia.
Qed.

Lemma torn_segment s k : i32_segment s -> (k < length (seg_text s))%nat -> load_segment (firstn k (seg_text s)) <> Ok s.
Proof.
  intros Hs Hk H. assert (C := load_segment_commas _ _ H). destruct Hs as (H1 & H2 & H3 & H4).
  assert (W : forall z, in_s 32 z -> filter (fun c => c =? ch_comma) (show_int z) = []) by (intros z Hz; apply filter_none, word_no_comma, show_word, Hz).
  assert (Wp : forall z j, in_s 32 z -> filter (fun c => c =? ch_comma) (firstn j (show_int z)) = []) by (intros z j Hz; apply filter_none, word_no_comma, forall_prefix, show_word, Hz).
  unfold seg_text in *.
  (* peel the first three numbers *)
  destruct (firstn_cases k (show_int (sg_m s)) (ch_comma :: show_int (sg_x s) ++ ch_comma :: show_int (sg_y s) ++ ch_comma :: show_int (sg_n s))) as [(r & E & _)|(j & E & Ek)];
    rewrite E in *; [rewrite Wp in C by assumption; discriminate C|]. clear E.
  destruct j as [|j]; [cbn [firstn] in C; rewrite app_nil_r, W in C by assumption; discriminate C|]. cbn [firstn] in *.
  destruct (firstn_cases j (show_int (sg_x s)) (ch_comma :: show_int (sg_y s) ++ ch_comma :: show_int (sg_n s))) as [(r & E & _)|(j2 & E & Ek2)]; rewrite E in *.
  { rewrite filter_app, W in C by assumption. cbn [filter ch_comma Z.eqb Pos.eqb app length] in C. rewrite Wp in C by assumption. discriminate C. }
  clear E. destruct j2 as [|j2].
  { cbn [firstn] in C. rewrite app_nil_r, filter_app, W in C by assumption. cbn [filter ch_comma Z.eqb Pos.eqb app length] in C. rewrite W in C by assumption. discriminate C. }
  cbn [firstn] in *.
  destruct (firstn_cases j2 (show_int (sg_y s)) (ch_comma :: show_int (sg_n s))) as [(r & E & _)|(j3 & E & Ek3)]; rewrite E in *.
  { rewrite filter_app, W in C by assumption. cbn [filter ch_comma Z.eqb Pos.eqb app length] in C. rewrite filter_app, W in C by assumption. cbn [filter ch_comma Z.eqb Pos.eqb app length] in C. rewrite Wp in C by assumption. discriminate C. }
  clear E. destruct j3 as [|j3].
  { cbn [firstn] in C. rewrite app_nil_r, filter_app, W in C by assumption. cbn [filter ch_comma Z.eqb Pos.eqb app length] in C. rewrite filter_app, W in C by assumption. cbn [filter ch_comma Z.eqb Pos.eqb app length] in C. rewrite W in C by assumption. discriminate C. }
  cbn [firstn] in *. clear C. rewrite !app_length in Hk. cbn [length] in Hk. rewrite !app_length in Hk. cbn [length] in Hk. rewrite !app_length in Hk. cbn [length] in Hk.
  assert (N : ~ In ch_comma (firstn j3 (show_int (sg_n s)))) by (apply word_no_comma, forall_prefix, show_word, H4).
  unfold load_segment in H. rewrite !split_some in H by (apply word_no_comma; now apply show_word). rewrite split_none in H by exact N.
  cbn [map_res] in H. rewrite !parse_unwrap_show in H by assumption. cbn [bind] in H. unfold parse_unwrap in H. rewrite trim_word in H by (apply forall_prefix, show_word, H4).
  destruct (parse_i32 (firstn j3 (show_int (sg_n s)))) as [q|] eqn:Eq; [|discriminate H]. cbn [bind] in H. apply ok_inj in H.
  assert (Hq : q = sg_n s) by (rewrite <- H; reflexivity). subst q.
  apply (show_prefix (sg_n s) (firstn j3 (show_int (sg_n s))) (skipn j3 (show_int (sg_n s)))); auto; [symmetry; apply firstn_skipn|].
  intros E. apply (f_equal (@length Z)) in E. rewrite skipn_length in E. cbn in E. lia.
Qed.

Lemma torn_segments segs : Forall i32_segment segs -> segs <> [] -> forall k, (S k < length (concat (map show_segment segs)))%nat ->
  exists a tail, firstn k (concat (map show_segment segs)) = concat (map show_segment a) ++ tail /\ Forall i32_segment a /\ Forall line_char tail /\
    map_res load_segment (map seg_text a ++ lines tail) <> Ok segs.
Proof.
  induction 1 as [|s l Hs Hl IH]; intros Hne k Hk; [congruence|]. cbn [map concat] in *. rewrite show_segment_text in *.
  destruct (firstn_cases k (seg_text s ++ [ch_nl]) (concat (map show_segment l))) as [(r & E & E2 & Hr)|(j & E & Ek)]; rewrite E in *.
  - (* cut in this line *)
    exists [], (firstn k (seg_text s ++ [ch_nl])).
    assert (Lk : (k <= length (seg_text s))%nat).
    { apply (f_equal (@length Z)) in E2. rewrite !app_length, firstn_length, app_length in E2. cbn [length] in E2. destruct r; [congruence|]. cbn [length] in E2. lia. }
    assert (Ef : firstn k (seg_text s ++ [ch_nl]) = firstn k (seg_text s)) by (rewrite firstn_app; replace (k - length (seg_text s))%nat with 0%nat by lia; cbn; now rewrite app_nil_r).
    rewrite Ef. assert (Lc : Forall line_char (firstn k (seg_text s))) by (apply forall_prefix; now apply seg_text_line).
    split; [reflexivity|]. split; [constructor|]. split; [exact Lc|]. cbn [map app]. rewrite lines_tail by exact Lc. intros H.
    destruct (firstn k (seg_text s)) as [|c t] eqn:Et; [cbn in H; apply ok_inj in H; congruence|]. rewrite <- Et in H.
    assert (L := map_res_length _ _ _ H). cbn [length] in L. destruct l as [|s2 l]; [|cbn in L; lia]. cbn [map_res] in H.
    destruct (load_segment (firstn k (seg_text s))) as [s'|] eqn:El; [|discriminate H]. cbn [bind] in H. apply ok_inj in H. assert (s' = s) by congruence. subst s'.
    apply (torn_segment s k Hs); [|exact El]. rewrite app_length in Hk. cbn in Hk. rewrite app_length in Hk. cbn in Hk. lia.
  - destruct l as [|s2 l].
    { exfalso. cbn [map concat] in Hk. rewrite app_nil_r, app_length in Hk. rewrite app_length in Ek. cbn [length] in *. lia. }
    destruct (IH ltac:(discriminate) j) as (a & tail & I1 & I2 & I3 & I4); [rewrite app_length in Hk; lia|].
    exists (s :: a), tail. split; [rewrite I1; cbn [map concat]; rewrite show_segment_text, <- !app_assoc; reflexivity|]. split; [now constructor|]. split; [exact I3|].
    cbn [map app map_res]. rewrite load_seg_text by exact Hs. cbn [bind]. intros H. apply I4.
    destruct (map_res load_segment (map seg_text a ++ lines tail)) as [q|]; [|discriminate H]. cbn [bind] in H. apply ok_inj in H. congruence.
Qed.

Theorem C34_torn_file_never_complete : forall v k, i32_index v -> vs_segs v <> [] -> (S k < length (flush_bytes v))%nat ->
  load (firstn k (flush_bytes v)) <> Ok v.
Proof.
  intros [mn mx segs] k (H1 & H2 & H3) Hne Hk. cbn [vs_min vs_max vs_segs] in *. unfold flush_bytes in *. cbn [vs_min vs_max vs_segs] in *.
  assert (Short : forall l, Forall line_char l -> forall w, in_s 32 w -> load l <> Ok (Vsri mn mx segs) /\ load (show_int w ++ ch_nl :: l) <> Ok (Vsri mn mx segs)).
  { intros l Hl w Hw. split; unfold load; [|rewrite lines_cons by (apply word_line; now apply show_word)]; rewrite lines_tail by exact Hl.
    - destruct l as [|c t]; [intros H; apply ok_inj in H; congruence|]. destruct (parse_unwrap (c :: t)); [|discriminate]. cbn [bind]. intros H; apply ok_inj in H; congruence.
    - destruct l as [|c t]; destruct (parse_unwrap (show_int w)); try discriminate; cbn [bind]; [intros H; apply ok_inj in H; congruence|].
      destruct (parse_unwrap (c :: t)); [|discriminate]. cbn [bind map_res]. intros H; apply ok_inj in H; congruence. }
  assert (L1 : Forall line_char (show_int mn)) by (apply word_line; now apply show_word). assert (L2 : Forall line_char (show_int mx)) by (apply word_line; now apply show_word).
  cbn [app] in *. destruct (firstn_cases k (show_int mn) (ch_nl :: show_int mx ++ ch_nl :: concat (map show_segment segs))) as [(r & E & _)|(j & E & Ek)]; rewrite E in *.
  { exact (proj1 (Short _ (forall_prefix _ k _ L1) mn H1)). }
  destruct j as [|j]; [cbn [firstn]; rewrite app_nil_r; exact (proj1 (Short _ L1 mn H1))|]. cbn [firstn].
  destruct (firstn_cases j (show_int mx) (ch_nl :: concat (map show_segment segs))) as [(r & E2 & _)|(j2 & E2 & Ek2)]; rewrite E2 in *.
  { exact (proj2 (Short _ (forall_prefix _ j _ L2) mn H1)). }
  destruct j2 as [|j2]; [cbn [firstn]; rewrite app_nil_r; exact (proj2 (Short _ L2 mn H1))|]. cbn [firstn].
  rewrite app_length in Hk. cbn [length] in Hk. rewrite app_length in Hk. cbn [length] in Hk.
  destruct (torn_segments segs H3 Hne j2 ltac:(lia)) as (a & tail & T1 & T2 & T3 & T4). rewrite T1. intros H. apply T4.
  assert (F := load_full mn mx a tail H1 H2 T2). cbn [app] in F. rewrite F in H.
  destruct (map_res load_segment (map seg_text a ++ lines tail)) as [q|]; [|discriminate H]. cbn [bind] in H. apply ok_inj in H. congruence.
Qed.
Print Assumptions C34_torn_file_never_complete.
(** (For an index without segments even that fails: its first line alone may load as the whole.) *)
Example C34_no_segment_torn : load (firstn 2 (flush_bytes (Vsri 5 0 []))) = Ok (Vsri 5 0 []).
Proof. reflexivity. Qed.

(** Looking a time up in the file of a day index is looking it up in the index; a missing file answers nothing. *)
Theorem C34_location : forall p ys v y, day_points ys -> index_of p ys v -> ys <> [] ->
  get_sample_location p (Some (flush_bytes v)) y = (if (hd 0 ys <=? y) && (y <=? last ys 0) then get_sample p v y else Ok None) /\
  get_sample_location p None y = Ok None.
Proof.
  intros p ys v y Hd Hv Hne. split; [|reflexivity]. unfold get_sample_location. rewrite (C34_day_index_round_trip p ys v Hd Hv). cbn [bind].
  destruct (VsriLookup.index_facts p ys v Hd Hv) as (segs & -> & _). reflexivity.
Qed.
Print Assumptions C34_location.
