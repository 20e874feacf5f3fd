(** C36-C38: the WavBrro container and its files. *)
From Coq Require Import List ZArith Bool Lia ZifyBool.
From Verif Require Import Base Model_Float Model_Bincode BincodeFacts Model_Wavbrro.
Import ListNotations.
Open Scope Z_scope.

(** Every chunk but the last holds exactly 2048 samples, and the last between 1 and 2048. *)
Definition well_chunked (cs : list (list f64)) : Prop :=
  cs = [] \/ exists l c, cs = l ++ [c] /\ Forall (fun d => Z.of_nat (length d) = 2048) l /\ 1 <= Z.of_nat (length c) <= 2048.

Lemma chunk_size_val : Z.of_nat wb_chunk_size = 2048.
Proof. unfold wb_chunk_size. rewrite Z2Nat.id; lia. Qed.

Lemma well_chunked_cons d cs : Z.of_nat (length d) = 2048 -> well_chunked cs -> well_chunked (d :: cs).
Proof.
  intros Hd [->|(l & c & -> & H1 & H2)]; right.
  - exists [], d. split; [reflexivity|]. split; [constructor|lia].
  - exists (d :: l), c. split; [reflexivity|]. split; [now constructor|exact H2].
Qed.

Lemma slice_chunks_spec fuel : forall data, (length data <= fuel)%nat ->
  well_chunked (slice_chunks fuel wb_chunk_size data) /\ concat (slice_chunks fuel wb_chunk_size data) = data.
Proof.
  assert (CS := chunk_size_val). induction fuel as [|k IH]; intros data Hl; [destruct data; [|cbn in Hl; lia]; split; [now left|reflexivity]|].
  destruct data as [|x r] eqn:E; [split; [now left|reflexivity]|]. rewrite <- E in *. assert (Hne : (1 <= length data)%nat) by (rewrite E; cbn; lia).
  assert (Eq : slice_chunks (S k) wb_chunk_size data = firstn wb_chunk_size data :: slice_chunks k wb_chunk_size (skipn wb_chunk_size data)) by (rewrite E; reflexivity).
  rewrite Eq. destruct (IH (skipn wb_chunk_size data)) as [I1 I2]; [rewrite skipn_length; lia|].
  split; [|cbn [concat]; rewrite I2; apply firstn_skipn].
  destruct (Nat.le_gt_cases wb_chunk_size (length data)) as [L|L].
  - apply well_chunked_cons; [rewrite firstn_length; lia|exact I1].
  - rewrite (skipn_all2 data) by lia. rewrite (firstn_all2 data) by lia. right. exists [], data. split; [destruct k; reflexivity|]. split; [constructor|lia].
Qed.

Lemma well_chunked_unique a : forall b, well_chunked a -> well_chunked b -> concat a = concat b -> a = b.
Proof.
  assert (Inv : forall d cs, well_chunked (d :: cs) -> 1 <= Z.of_nat (length d) <= 2048 /\ (cs = [] \/ Z.of_nat (length d) = 2048) /\ well_chunked cs).
  { intros d cs [H|(l & c & H & F & Hc)]; [discriminate|]. destruct l as [|l0 l]; cbn in H; injection H as -> ->.
    - split; [exact Hc|]. split; [now left|now left].
    - inversion F; subst. split; [lia|]. split; [now right|]. right. exists l, c. auto. }
  assert (Ne : forall cs, well_chunked cs -> concat cs = [] -> cs = []).
  { intros cs H E. destruct cs as [|d cs]; [reflexivity|]. destruct (Inv _ _ H) as [L _]. destruct d; [cbn in L; lia|discriminate E]. }
  induction a as [|d a IH]; intros b Ha Hb E.
  - symmetry. apply Ne; auto.
  - destruct b as [|e b]; [apply Ne in E; auto; discriminate|]. destruct (Inv _ _ Ha) as (A1 & A2 & A3). destruct (Inv _ _ Hb) as (B1 & B2 & B3). cbn [concat] in E.
    assert (L : length d = length e).
    { apply (f_equal (@length f64)) in E. rewrite !app_length in E.
      destruct A2 as [->|A2], B2 as [->|B2]; cbn [concat length] in E; lia. }
    assert (d = e) as ->.
    { apply (f_equal (firstn (length d))) in E. rewrite firstn_app, Nat.sub_diag, firstn_all in E. cbn [firstn] in E. rewrite app_nil_r in E.
      rewrite L, firstn_app, Nat.sub_diag, firstn_all in E. cbn [firstn] in E. now rewrite app_nil_r in E. }
    f_equal. apply IH; auto. now apply app_inv_head in E.
Qed.

Lemma wb_add_spec p w x : well_chunked (wb_chunks w) -> 0 <= wb_count w -> wb_count w + 1 < 2 ^ 32 ->
  exists cs, wb_add p w x = Ok (WB (wb_count w + 1) (wb_bitdepth w) cs) /\ well_chunked cs /\ concat cs = wb_samples w ++ [x].
Proof.
  intros Hw H0 H1. assert (CS := chunk_size_val). unfold wb_add.
  assert (A : arith_u p 32 (wb_count w + 1) = Ok (wb_count w + 1)) by (unfold arith_u, in_ub; replace (_ && _) with true by lia; reflexivity).
  rewrite A. cbn [bind]. unfold wb_full, wb_samples. destruct Hw as [E|(l & c & E & F & Hc)]; rewrite E.
  - cbn [rev app removelast concat]. exists [[x]]. split; [reflexivity|]. split; [|reflexivity]. right. exists [], [x]. split; [reflexivity|]. split; [constructor|cbn; lia].
  - rewrite rev_unit. destruct (wb_chunk_size <=? length c)%nat eqn:Ef.
    + rewrite rev_unit, removelast_last. eexists. split; [reflexivity|]. cbn [app]. split.
      * right. exists (l ++ [c]), [x]. split; [reflexivity|]. split; [apply Forall_app; split; [exact F|constructor; [lia|constructor]]|cbn; lia].
      * rewrite !concat_app. cbn [concat]. now rewrite !app_nil_r.
    + rewrite rev_unit, removelast_last. eexists. split; [reflexivity|]. split.
      * right. exists l, (c ++ [x]). split; [reflexivity|]. split; [exact F|rewrite app_length; cbn [length]; lia].
      * rewrite !concat_app. cbn [concat]. now rewrite !app_nil_r, app_assoc.
Qed.

(** Adding the samples of a list one by one. *)
Fixpoint add_all (p : profile) (w : wavbrro) (data : list f64) : res wavbrro :=
  match data with
  | [] => Ok w
  | x :: r => do w' <- wb_add p w x; add_all p w' r
  end.

Lemma add_all_spec p data : forall w, well_chunked (wb_chunks w) -> 0 <= wb_count w -> wb_count w + Z.of_nat (length data) < 2 ^ 32 ->
  exists cs, add_all p w data = Ok (WB (wb_count w + Z.of_nat (length data)) (wb_bitdepth w) cs) /\ well_chunked cs /\ concat cs = wb_samples w ++ data.
Proof.
  induction data as [|x r IH]; intros w Hw H0 H1; cbn [add_all].
  - exists (wb_chunks w). split; [|split; [exact Hw|unfold wb_samples; now rewrite app_nil_r]]. cbn [length Z.of_nat]. rewrite Z.add_0_r. now destruct w.
  - cbn [length] in H1. destruct (wb_add_spec p w x Hw H0) as (cs & E & W & C); [lia|]. rewrite E. cbn [bind].
    destruct (IH (WB (wb_count w + 1) (wb_bitdepth w) cs) W) as (cs' & E' & W' & C'); [cbn [wb_count]; lia|cbn [wb_count]; lia|]. cbn [wb_count wb_bitdepth] in E'.
    exists cs'. split; [rewrite E'; cbn [length]; do 2 f_equal; lia|]. split; [exact W'|].
    rewrite C'. unfold wb_samples at 1. cbn [wb_chunks]. rewrite C, <- app_assoc. reflexivity.
Qed.

(** C36: fewer than 2^32 samples added one by one to a new object are read back in order, in either build; the count is their
    number; the chunks are full except the last, and none is empty; [from_slice] gives the same object. *)
Theorem C36_accumulates : forall p data,
  Z.of_nat (length data) < 2 ^ 32 ->
  exists w, add_all p wb_new data = Ok w /\
    wb_samples w = data /\ wb_count w = Z.of_nat (length data) /\ well_chunked (wb_chunks w) /\ wb_from_slice data = w.
Proof.
  intros p data H. destruct (add_all_spec p data wb_new) as (cs & E & W & C); [now left|cbn; lia|cbn [wb_new wb_count]; lia|].
  cbn [wb_new wb_count wb_bitdepth wb_samples wb_chunks concat app] in *. rewrite Z.add_0_l in E.
  eexists. split; [exact E|]. unfold wb_samples. cbn [wb_chunks wb_count]. split; [exact C|]. split; [reflexivity|]. split; [exact W|].
  unfold wb_from_slice, wrap_u. rewrite Z.mod_small by lia. destruct (slice_chunks_spec (length data) data (le_n _)) as [W' C'].
  f_equal. apply well_chunked_unique; [exact W'|exact W|]. rewrite C'. symmetry. exact C.
Qed.
Print Assumptions C36_accumulates.

(** Beyond, the count of the slice constructor silently wraps, whereas adding stops (dev) at the 2^32-th sample. *)
Theorem C36_count_wraps : forall data, Z.of_nat (length data) = 2 ^ 32 + 5 -> wb_count (wb_from_slice data) = 5 /\ wb_samples (wb_from_slice data) = data.
Proof.
  intros data H. split; [unfold wb_from_slice; cbn [wb_count]; rewrite H; reflexivity|].
  unfold wb_from_slice, wb_samples. cbn [wb_chunks]. apply slice_chunks_spec. lia.
Qed.
Print Assumptions C36_count_wraps.

Theorem C36_add_overflow_dev : forall w x, wb_count w = 2 ^ 32 - 1 -> wb_add Dev w x = Panic POverflow.
Proof. intros w x H. unfold wb_add. rewrite H. reflexivity. Qed.
Print Assumptions C36_add_overflow_dev.

(** * Serialization *)
Lemma chunk_bytes_length c : Z.of_nat (length (chunk_bytes c)) = 8 * Z.of_nat (length c).
Proof. induction c as [|x c IH]; [reflexivity|]. unfold chunk_bytes. cbn [flat_map]. rewrite app_length. unfold enc_f64 at 1. rewrite le_bytes_length. fold (chunk_bytes c). cbn [length]. lia. Qed.
Lemma chunks_bytes_length cs : Z.of_nat (length (flat_map chunk_bytes cs)) = 8 * total_samples cs.
Proof.
  unfold total_samples. induction cs as [|c cs IH]; [reflexivity|]. cbn [flat_map concat]. rewrite !app_length, !Nat2Z.inj_add, chunk_bytes_length. lia.
Qed.
Lemma take_f64s_bytes c : forall rest, take_f64s (length c) (chunk_bytes c ++ rest) = c.
Proof.
  induction c as [|x c IH]; intros rest; [reflexivity|]. unfold chunk_bytes. cbn [flat_map length take_f64s].
  assert (L : length (enc_f64 x) = 8%nat) by apply le_bytes_length. rewrite <- app_assoc.
  replace (firstn 8 (enc_f64 x ++ flat_map enc_f64 c ++ rest)) with (enc_f64 x) by (rewrite <- L, firstn_app, Nat.sub_diag, firstn_all; cbn [firstn]; now rewrite app_nil_r).
  replace (skipn 8 (enc_f64 x ++ flat_map enc_f64 c ++ rest)) with (flat_map enc_f64 c ++ rest) by (rewrite <- L, skipn_app, Nat.sub_diag, skipn_all; reflexivity).
  fold (chunk_bytes c). rewrite IH. f_equal. unfold enc_f64. rewrite le_val_le_bytes; [apply from_bits_to_bits|]. change (256 ^ Z.of_nat 8) with (2 ^ 64). apply to_bits_range.
Qed.

Lemma vec_table_ok cs : forall at_ target, Forall (fun c => 1 <= Z.of_nat (length c) < 2 ^ 32) cs ->
  8 * total_samples cs <= at_ - target <= 2 ^ 31 -> exists t, vec_table at_ cs target = Ok t /\ Z.of_nat (length t) = 8 * Z.of_nat (length cs).
Proof.
  unfold total_samples. induction cs as [|c cs IH]; intros at_ target F H; [exists []; split; reflexivity|].
  inversion F as [|? ? Hc F']; subst. cbn [vec_table concat] in *. rewrite app_length, Nat2Z.inj_add in H.
  unfold rel_ptr, in_sb. change (32 - 1) with 31. replace (_ && _) with true by lia. cbn [bind].
  destruct (IH (at_ + 8) (target + 8 * Z.of_nat (length c)) F') as (t & E & L); [lia|]. rewrite E. cbn [bind]. eexists. split; [reflexivity|].
  rewrite !app_length. unfold le_i32. rewrite !le_bytes_length. cbn [length]. lia.
Qed.

Lemma slice_app A n (B C : list Z) : length B = n -> slice (length A) n (A ++ B ++ C) = B.
Proof. intros <-. unfold slice. rewrite skipn_app, Nat.sub_diag, skipn_all. cbn [app skipn]. rewrite firstn_app, Nat.sub_diag, firstn_all. cbn [firstn]. apply app_nil_r. Qed.

Lemma read_u32_app A B C z : 0 <= z < 2 ^ 32 -> B = le_bytes 4 z -> read_u32 (A ++ B ++ C) (Z.of_nat (length A)) = Ok z.
Proof.
  intros Hz ->. unfold read_u32, in_bounds. rewrite !app_length, le_bytes_length. replace (_ && _) with true by lia.
  rewrite Nat2Z.id, slice_app by apply le_bytes_length. now rewrite le_val_le_bytes.
Qed.

Lemma read_vec_app A C d n : - 2 ^ 31 <= d < 2 ^ 31 -> 0 <= n < 2 ^ 32 ->
  read_vec (A ++ le_i32 d ++ le_i32 n ++ C) (Z.of_nat (length A)) = Ok (Z.of_nat (length A) + d, n).
Proof.
  intros Hd Hn. unfold read_vec. rewrite (read_u32_app A (le_i32 d) (le_i32 n ++ C) (wrap_u 32 d)); [|unfold wrap_u; apply Z.mod_pos_bound; lia|reflexivity]. cbn [bind].
  replace (A ++ le_i32 d ++ le_i32 n ++ C) with ((A ++ le_i32 d) ++ le_i32 n ++ C) by (now rewrite <- app_assoc).
  replace (Z.of_nat (length A) + 4) with (Z.of_nat (length (A ++ le_i32 d))) by (rewrite app_length; unfold le_i32; rewrite le_bytes_length; lia).
  rewrite (read_u32_app _ (le_i32 n) C n Hn); [|unfold le_i32, wrap_u; now rewrite Z.mod_small]. cbn [bind]. do 3 f_equal.
  unfold wrap_s, wrap_u. change (32 - 1) with 31.
  destruct (Z.le_gt_cases 0 d).
  - rewrite (Z.mod_small d) by lia. rewrite Z.mod_small by lia. lia.
  - replace (d mod 2 ^ 32) with (d + 2 ^ 32) by (apply Z.mod_unique with (q := -1); lia).
    replace (d + 2 ^ 32 + 2 ^ 31) with (d + 2 ^ 31 + 1 * 2 ^ 32) by lia. rewrite Z.mod_add by lia. rewrite Z.mod_small by lia. lia.
Qed.

Lemma read_chunks_ok cs : forall bytes A t B D0 D1, bytes = A ++ t ++ B -> bytes = D0 ++ flat_map chunk_bytes cs ++ D1 ->
  vec_table (Z.of_nat (length A)) cs (Z.of_nat (length D0)) = Ok t -> Z.of_nat (length D0) mod 8 = 0 ->
  Forall (fun c => 1 <= Z.of_nat (length c) < 2 ^ 32) cs ->
  read_chunks bytes (length cs) (Z.of_nat (length A)) = Ok cs.
Proof.
  induction cs as [|c cs IH]; intros bytes A t B D0 D1 EA ED ET HM F; [reflexivity|].
  inversion F as [|? ? Hc F']; subst c cs. rename x into c. rename l into cs. cbn [vec_table] in ET. unfold rel_ptr in ET.
  destruct (in_sb 32 (Z.of_nat (length D0) - Z.of_nat (length A))) eqn:Eb; [|discriminate ET]. cbn [bind] in ET.
  destruct (vec_table (Z.of_nat (length A) + 8) cs (Z.of_nat (length D0) + 8 * Z.of_nat (length c))) as [t'|] eqn:Et; [|discriminate ET]. cbn [bind] in ET.
  apply ok_inj in ET. subst t.
  unfold in_sb in Eb. change (32 - 1) with 31 in Eb.
  cbn [read_chunks length]. rewrite EA at 1. rewrite <- !app_assoc. rewrite read_vec_app by lia. cbn [bind].
  assert (LD := chunk_bytes_length c). assert (RF : read_f64s bytes (Z.of_nat (length A) + (Z.of_nat (length D0) - Z.of_nat (length A))) (Z.of_nat (length c)) = Ok c).
  { replace (Z.of_nat (length A) + _) with (Z.of_nat (length D0)) by lia. unfold read_f64s, in_bounds. rewrite ED. cbn [flat_map]. rewrite !app_length.
    replace ((0 <=? Z.of_nat (length D0)) && _ && _) with true by lia. rewrite !Nat2Z.id. rewrite skipn_app, Nat.sub_diag, skipn_all. cbn [app skipn].
    rewrite <- app_assoc. now rewrite take_f64s_bytes. }
  rewrite RF. cbn [bind].
  set (A' := A ++ le_i32 (Z.of_nat (length D0) - Z.of_nat (length A)) ++ le_i32 (Z.of_nat (length c))).
  assert (LA : Z.of_nat (length A) + 8 = Z.of_nat (length A')) by (unfold A', le_i32; rewrite !app_length, !le_bytes_length; lia).
  rewrite LA. rewrite (IH bytes A' t' B (D0 ++ chunk_bytes c) D1); [reflexivity| | | | |exact F'].
  - rewrite EA. unfold A'. now rewrite <- !app_assoc.
  - rewrite ED. cbn [flat_map]. now rewrite <- !app_assoc.
  - rewrite <- LA. rewrite app_length, Nat2Z.inj_add, LD. exact Et.
  - rewrite app_length, Nat2Z.inj_add, LD. rewrite Z.add_mod, HM, (Z.mul_comm 8), Z.mod_mul by lia. reflexivity.
Qed.

Lemma well_chunked_sizes cs : well_chunked cs -> Forall (fun c => 1 <= Z.of_nat (length c) < 2 ^ 32) cs.
Proof.
  intros [->|(l & c & -> & F & H)]; [constructor|]. apply Forall_app. split; [|constructor; [lia|constructor]].
  eapply Forall_impl; [|exact F]. cbn beta. intros; lia.
Qed.
Lemma sizes_count cs : Forall (fun c => 1 <= Z.of_nat (length c) < 2 ^ 32) cs -> Z.of_nat (length cs) <= total_samples cs.
Proof. unfold total_samples. induction 1 as [|c cs H F IH]; [cbn; lia|]. cbn [concat length]. rewrite app_length. lia. Qed.

Lemma bytes_round w : Forall (fun c => 1 <= Z.of_nat (length c) < 2 ^ 32) (wb_chunks w) -> total_samples (wb_chunks w) <= 2 ^ 28 -> 0 <= wb_count w < 2 ^ 32 ->
  exists b, wb_to_bytes w = Ok b /\ wb_from_bytes b = Ok w /\
   Z.of_nat (length b) = 8 * total_samples (wb_chunks w) + 8 * Z.of_nat (length (wb_chunks w)) + 16.
Proof.
  intros F HN HC. set (cs := wb_chunks w) in *. assert (Hn := sizes_count cs F). assert (HT : 0 <= total_samples cs) by (unfold total_samples; lia).
  unfold wb_to_bytes. fold cs.
  destruct (vec_table_ok cs (8 * total_samples cs) 0 F) as (t & Et & Lt); [lia|]. rewrite Et. cbn [bind].
  unfold rel_ptr at 1, in_sb. change (32 - 1) with 31. replace (_ && _) with true by lia. cbn [bind].
  set (D := flat_map chunk_bytes cs). assert (LD : Z.of_nat (length D) = 8 * total_samples cs) by apply chunks_bytes_length.
  set (n := Z.of_nat (length cs)) in *. set (d := 8 * total_samples cs - (8 * total_samples cs + 8 * n)).
  set (tail := le_bytes 4 (wb_count w) ++ [wb_bitdepth w; 0; 0; 0]).
  eexists. split; [reflexivity|].
  set (bytes := D ++ t ++ le_i32 d ++ le_i32 n ++ tail).
  assert (LB : Z.of_nat (length bytes) = 8 * total_samples cs + 8 * n + 16).
  { unfold bytes, tail, le_i32. rewrite !app_length, !le_bytes_length. cbn [length]. lia. }
  split; [|exact LB]. unfold wb_from_bytes. rewrite LB.
  replace (8 * total_samples cs + 8 * n + 16 - 16) with (Z.of_nat (length (D ++ t))) by (rewrite app_length; lia).
  assert (LDt : Z.of_nat (length (D ++ t)) = 8 * total_samples cs + 8 * n) by (rewrite app_length; lia).
  assert (M4 : Z.of_nat (length (D ++ t)) mod 4 = 0) by (rewrite LDt; replace (8 * total_samples cs + 8 * n) with ((2 * total_samples cs + 2 * n) * 4) by lia; apply Z.mod_mul; lia).
  replace ((0 <=? _) && _) with true by lia.
  replace bytes with ((D ++ t) ++ le_i32 d ++ le_i32 n ++ tail) by (unfold bytes; now rewrite <- app_assoc).
  rewrite read_vec_app by (unfold d; lia). cbn [bind].
  replace (Z.of_nat (length (D ++ t)) + d) with (Z.of_nat (length D)) by (unfold d; lia).
  replace ((D ++ t) ++ le_i32 d ++ le_i32 n ++ tail) with bytes by (unfold bytes; now rewrite <- app_assoc).
  assert (M4' : Z.of_nat (length D) mod 4 = 0) by (rewrite LD; replace (8 * total_samples cs) with ((2 * total_samples cs) * 4) by lia; apply Z.mod_mul; lia).
  unfold in_bounds. replace ((0 <=? _) && _ && _) with true by lia.
  unfold n at 1. rewrite Nat2Z.id.
  rewrite (read_chunks_ok cs bytes D t (le_i32 d ++ le_i32 n ++ tail) [] (t ++ le_i32 d ++ le_i32 n ++ tail)); [|reflexivity|reflexivity| |reflexivity|exact F].
  2:{ cbn [length Z.of_nat]. rewrite LD. exact Et. }
  cbn [bind].
  assert (E8 : bytes = (D ++ t ++ le_i32 d ++ le_i32 n) ++ le_bytes 4 (wb_count w) ++ [wb_bitdepth w; 0; 0; 0]) by (unfold bytes, tail; now rewrite <- !app_assoc).
  replace (Z.of_nat (length (D ++ t)) + 8) with (Z.of_nat (length (D ++ t ++ le_i32 d ++ le_i32 n))) by (unfold le_i32; rewrite !app_length, !le_bytes_length; lia).
  rewrite E8 at 1. rewrite (read_u32_app _ _ _ (wb_count w) HC eq_refl). cbn [bind].
  assert (E12 : bytes = (D ++ t ++ le_i32 d ++ le_i32 n ++ le_bytes 4 (wb_count w)) ++ [wb_bitdepth w; 0; 0; 0]) by (unfold bytes, tail; now rewrite <- !app_assoc).
  replace (Z.to_nat (Z.of_nat (length (D ++ t)) + 12)) with (length (D ++ t ++ le_i32 d ++ le_i32 n ++ le_bytes 4 (wb_count w))) by (unfold le_i32; rewrite !app_length, !le_bytes_length; lia).
  rewrite E12, app_nth2, Nat.sub_diag by lia. cbn [nth]. unfold cs. destruct w; reflexivity.
Qed.

(** The operating system wrote everything it was given. *)
Definition complete (w : write_answer) (data : list Z) : Prop := exists n, w = Wrote n /\ (length data <= n)%nat.

Lemma write_complete w1 w2 content : complete w1 wbro_header -> complete w2 content -> write_wavbrro_file w1 w2 content = Ok (wbro_header ++ content).
Proof.
  intros (n1 & -> & H1) (n2 & -> & H2). unfold write_wavbrro_file. rewrite !firstn_all2 by assumption.
  change (write_at [] 0 wbro_header) with wbro_header. unfold write_at. destruct content as [|b r]; [now rewrite app_nil_r|].
  rewrite firstn_all, Nat.sub_diag. cbn [repeat app]. rewrite skipn_all2 by lia. now rewrite app_nil_r.
Qed.

Lemma read_back content : from_file (Some (wbro_header ++ content)) = (do w <- wb_from_bytes content; Ok (WbSamples (wb_samples w))).
Proof.
  unfold from_file, is_wavbrro_file. rewrite app_length. change (length wbro_header) with 12%nat.
  replace (12 + length content <? 12)%nat with false by lia. reflexivity.
Qed.

(** C37: up to 2^28 samples (2 GiB), a series written with complete writes is read back bit for bit ([f64] equality here is
    equality of representations, NaN payloads included), whether written from a slice or from an object. *)
Theorem C37_round_trip : forall w1 w2 data,
  Z.of_nat (length data) <= 2 ^ 28 ->
  exists content, wb_to_bytes (wb_from_slice data) = Ok content /\
    (complete w1 wbro_header -> complete w2 content ->
     exists file, to_file_with_data w1 w2 data = Ok file /\ file = wbro_header ++ content /\ from_file (Some file) = Ok (WbSamples data)).
Proof.
  intros w1 w2 data H. destruct (slice_chunks_spec (length data) data (le_n _)) as [W C].
  destruct (bytes_round (wb_from_slice data)) as (b & E & R & _).
  - now apply well_chunked_sizes.
  - unfold total_samples. unfold wb_from_slice. cbn [wb_chunks]. rewrite C. lia.
  - unfold wb_from_slice, wrap_u. cbn [wb_count]. apply Z.mod_pos_bound. lia.
  - exists b. split; [exact E|]. intros H1 H2. unfold to_file_with_data. rewrite E. cbn [bind]. rewrite write_complete by assumption.
    eexists. split; [reflexivity|]. split; [reflexivity|]. rewrite read_back, R. cbn [bind]. unfold wb_samples, wb_from_slice. cbn [wb_chunks]. now rewrite C.
Qed.
Print Assumptions C37_round_trip.

(** The same for an object built by adding the samples one by one. *)
Theorem C37_round_trip_object : forall p w1 w2 data w,
  Z.of_nat (length data) <= 2 ^ 28 -> add_all p wb_new data = Ok w ->
  exists content, wb_to_bytes w = Ok content /\ wb_to_bytes (wb_from_slice data) = Ok content /\
    (complete w1 wbro_header -> complete w2 content ->
     exists file, to_file w1 w2 w = Ok file /\ file = wbro_header ++ content /\ from_file (Some file) = Ok (WbSamples data)).
Proof.
  intros p w1 w2 data w H E. destruct (C36_accumulates p data) as (w' & E' & _ & _ & _ & S'); [lia|].
  assert (w' = w) as -> by (rewrite E in E'; now apply ok_inj in E').
  destruct (C37_round_trip w1 w2 data H) as (content & EC & R). exists content. split; [rewrite <- S'; exact EC|]. split; [exact EC|].
  intros C1 C2. destruct (R C1 C2) as (file & E1 & E2 & E3). exists file. split; [|split; assumption].
  unfold to_file. unfold to_file_with_data in E1. rewrite S' in E1. exact E1.
Qed.
Print Assumptions C37_round_trip_object.

(** Beyond 2^28 samples the relative pointer of the first chunk does not fit 32 bits: serialization panics before any file is touched. *)
Theorem C37_too_large_panics : forall w1 w2 data, 2 ^ 28 < Z.of_nat (length data) -> to_file_with_data w1 w2 data = Panic PUnwrap.
Proof.
  intros w1 w2 data H. unfold to_file_with_data, wb_to_bytes. destruct (slice_chunks_spec (length data) data (le_n _)) as [W C].
  unfold wb_from_slice at 1 2 3. cbn [wb_chunks]. unfold total_samples. rewrite C. destruct (slice_chunks (length data) wb_chunk_size data) as [|c cs] eqn:E.
  - cbn in C. subst data. cbn in H. lia.
  - cbn [vec_table]. unfold rel_ptr at 1, in_sb. change (32 - 1) with 31. replace (_ && _) with false by lia. reflexivity.
Qed.
Print Assumptions C37_too_large_panics.

(** A file lacking one of the two WBRO marks (bytes 0-3, 8-11) is refused with the format error; fewer than 12 bytes, or no file, give an I/O error. *)
Lemma list_eqb_spec a : forall b, list_eqb a b = true <-> a = b.
Proof.
  induction a as [|x a IH]; intros [|y b]; cbn [list_eqb]; try (split; [discriminate|discriminate]); [tauto|].
  rewrite andb_true_iff, Z.eqb_eq, IH. split; [intros [-> ->]; reflexivity|intros H; injection H; auto].
Qed.
Theorem C37_refuses : forall f,
  ((length f < 12)%nat -> from_file (Some f) = Ok WbIoError) /\
  ((12 <= length f)%nat -> (firstn 4 f <> [87; 66; 82; 79] \/ firstn 4 (skipn 8 f) <> [87; 66; 82; 79]) -> from_file (Some f) = Ok WbFormatError) /\
  from_file None = Ok WbIoError.
Proof.
  intros f. split; [|split; [|reflexivity]].
  - intros H. unfold from_file, is_wavbrro_file. replace (length f <? 12)%nat with true by lia. reflexivity.
  - intros H N. unfold from_file, is_wavbrro_file. replace (length f <? 12)%nat with false by lia.
    replace (_ && _) with false; [reflexivity|]. symmetry. apply not_true_iff_false. rewrite andb_true_iff, !list_eqb_spec. unfold slice, wbro_mark. cbn [skipn]. tauto.
Qed.
Print Assumptions C37_refuses.

(** A file cut inside its content never silently gives fewer samples as long as fewer than 16 bytes of content are left; the header alone panics. *)
Theorem C37_short_content_panics : forall content, (length content < 16)%nat -> from_file (Some (wbro_header ++ content)) = Panic PUnwrap.
Proof. intros content H. rewrite read_back. unfold wb_from_bytes. replace ((0 <=? _) && _) with false by lia. reflexivity. Qed.
Print Assumptions C37_short_content_panics.

(** The bytes the shipped test expects for one sample 1.0. *)
Example wb_bytes_example : wb_to_bytes (wb_from_slice [from_bits 4607182418800017408]) =
  Ok [0;0;0;0;0;0;240;63; 248;255;255;255; 1;0;0;0; 248;255;255;255; 1;0;0;0; 1;0;0;0; 5;0;0;0].
Proof. vm_compute. reflexivity. Qed.

(** * C38: positioned writes *)
(** Complete writes give header plus content; an error of either write panics. *)
Theorem C38_complete : forall w1 w2 content, complete w1 wbro_header -> complete w2 content ->
  write_wavbrro_file w1 w2 content = Ok ([87;66;82;79;48;48;48;48;87;66;82;79] ++ content).
Proof. intros. now apply write_complete. Qed.
Print Assumptions C38_complete.

Theorem C38_error_panics : forall w content, write_wavbrro_file WriteError w content = Panic PUnwrap /\ (forall n, write_wavbrro_file (Wrote n) WriteError content = Panic PUnwrap).
Proof. split; reflexivity. Qed.
Print Assumptions C38_error_panics.

(** Whatever prefix of the content the operating system takes, the call succeeds and leaves the file cut at that point. *)
Theorem C38_short_write_accepted : forall w1 n content, complete w1 wbro_header -> (n <= length content)%nat ->
  write_wavbrro_file w1 (Wrote n) content = Ok (wbro_header ++ firstn n content).
Proof.
  intros w1 n content H1 H2. assert (L : length (firstn n content) = n) by (rewrite firstn_length; lia).
  rewrite <- (write_complete w1 (Wrote n) (firstn n content)); [|exact H1|exists n; split; [reflexivity|lia]].
  unfold write_wavbrro_file. destruct w1; [|reflexivity]. do 2 f_equal. symmetry. apply firstn_all2. lia.
Qed.
Print Assumptions C38_short_write_accepted.

(** Witness: the write of a one-sample file is cut after 8 bytes; the caller sees success; reading the file panics. *)
Theorem C38_short_write_loses_refuted : exists data file, to_file_with_data (Wrote 12) (Wrote 8) data = Ok file /\ from_file (Some file) = Panic PUnwrap /\
  from_file (Some file) <> Ok (WbSamples data).
Proof.
  exists [from_bits 4607182418800017408]. destruct (to_file_with_data (Wrote 12) (Wrote 8) [from_bits 4607182418800017408]) as [f|] eqn:E; [|vm_compute in E; discriminate E].
  exists f. split; [reflexivity|]. assert (P : from_file (Some f) = Panic PUnwrap).
  { assert (f = wbro_header ++ [0;0;0;0;0;0;240;63]) as -> by (symmetry; vm_compute in E; apply ok_inj in E; exact E). vm_compute. reflexivity. }
  split; [exact P|]. rewrite P. intros D. discriminate D.
Qed.
Print Assumptions C38_short_write_loses_refuted.

(** The files of other tools cut at any point: a short header leaves zeros in the gap, so the marks are missing and the file is refused. *)
Theorem C38_short_header_refused : forall n content, (n < 12)%nat -> (0 < length content)%nat ->
  exists file, write_wavbrro_file (Wrote n) (Wrote (length content)) content = Ok file /\ from_file (Some file) = Ok WbFormatError.
Proof.
  intros n content Hn Hc. unfold write_wavbrro_file. rewrite (firstn_all content). eexists. split; [reflexivity|].
  destruct content as [|b r]; [cbn in Hc; lia|]. apply C37_refuses.
  - change (length wbro_header) with 12%nat. unfold write_at. destruct n as [|n]; [cbn [firstn wbro_header]|].
    + cbn. lia.
    + do 11 (destruct n as [|n]; [cbn; lia|]). lia.
  - right. change (length wbro_header) with 12%nat. do 12 (destruct n as [|n]; [cbn; discriminate|]). lia.
Qed.
Print Assumptions C38_short_header_refused.

(** A cut file can even be accepted when read: two samples 0.0 whose write is cut after 16 bytes come back, without any error, as no samples at all
    (the sixteen zero bytes left are a root with an empty chunk table). *)
Theorem C38_short_write_reads_empty_refuted : exists data file,
  data <> [] /\ to_file_with_data (Wrote 12) (Wrote 16) data = Ok file /\ from_file (Some file) = Ok (WbSamples []).
Proof.
  exists [from_bits 0; from_bits 0], (wbro_header ++ repeat 0 16). split; [intros D; discriminate D|]. split; vm_compute; reflexivity.
Qed.
Print Assumptions C38_short_write_reads_empty_refuted.
