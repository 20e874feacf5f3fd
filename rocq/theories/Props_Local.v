(** C69: compression is local. What a sample reads back as depends only on the samples of its own block (at most 131072 of them), a series of whole
    blocks can be extended without touching the part already there, and a frame is decoded without looking at the others. *)
From Coq Require Import List ZArith Bool Lia.
From Verif Require Import Base Model_Float Model_Bincode BincodeFacts Spec FloatFacts Model_Utils UtilsFacts Model_Stats StatsFacts Model_Compressors CompressorFacts Model_Polynomial Model_Fft Model_Stream
  StreamFacts PlanFacts PipelineFacts Props_Poly Props_Plan Props_Lossless Props_Fft Props_Stream Props_Pipeline Props_Cycles.
Import ListNotations.
Open Scope Z_scope.

(** What a chunk of the command line reads back as. *)
Definition reads_back (e : env) (p : profile) (c : compressor) (err level : Z) (d : list f64) : list f64 :=
  match frame_of e p (call_for c err level d) with
  | Ok f => match frame_decompress e p f with Ok o => o | Panic _ => [] end
  | Panic _ => []
  end.

Lemma local_runs e p data c err level :
  env_ok e -> 0 <= err < 256 -> 0 <= level <= 6 -> fits_counter p data ->
  exists sizes s, get_chunks_sizes (length (clean_data data)) = Ok sizes /\
    compress_data e p data c err level = Ok (stream_to_bytes s) /\ stream_from_bytes (stream_to_bytes s) = Ok s /\
    decompress_data e p (stream_to_bytes s) = Ok (concat (map (reads_back e p c err level) (cut (clean_data data) sizes))) /\
    Forall (fun d => length (reads_back e p c err level d) = length d) (cut (clean_data data) sizes) /\
    Forall2 (fun d f => frame_of e p (call_for c err level d) = Ok f) (cut (clean_data data) sizes) (s_frames s).
Proof.
  intros He Hr Hl Hf. destruct (compress_data_calls e p data c err level) as (sizes & Hs & E).
  destruct (cut_facts _ _ Hs) as (Hc1 & Hc2 & Hc3). assert (Hcnt := counter_ok p data sizes Hf Hs).
  destruct (library_runs e p (map (call_for c err level) (cut (clean_data data) sizes)) He
    (proper_calls c err level _ Hr Hl Hc2) ltac:(rewrite map_length, Hc3; exact Hcnt)) as (s & outs & H1 & H2 & H3 & H4).
  exists sizes, s. split; [exact Hs|]. split; [rewrite E, H1; reflexivity|]. split; [exact H2|].
  assert (G : outs = map (reads_back e p c err level) (cut (clean_data data) sizes) /\ Forall (fun d => length (reads_back e p c err level d) = length d) (cut (clean_data data) sizes)).
  { clear - H4. remember (map (call_for c err level) (cut (clean_data data) sizes)) as calls. revert Heqcalls. generalize (cut (clean_data data) sizes) as ds.
    induction H4 as [|a o l outs (f & F1 & F2 & F3) _ IH]; intros ds E.
    - destruct ds; [split; [reflexivity|constructor]|discriminate E].
    - destruct ds as [|d ds]; [discriminate E|]. cbn [map] in E. assert (a = call_for c err level d) as -> by congruence.
      rewrite chunk_of_call in F3. assert (o = reads_back e p c err level d) as -> by (unfold reads_back; rewrite F1, F2; reflexivity).
      destruct (IH ds ltac:(congruence)) as [I1 I2]. split; [cbn [map]; now f_equal|now constructor]. }
  destruct G as [G1 G2]. subst outs. unfold decompress_data. rewrite H2. cbn [bind]. split; [exact H3|]. split; [exact G2|].
  destruct (C04_frame_counter e p _ s H1) as (HF & _). clear - HF. remember (map (call_for c err level) (cut (clean_data data) sizes)) as calls. revert Heqcalls. generalize (cut (clean_data data) sizes) as ds.
  induction HF as [|a f l fs Hf _ IH]; intros ds E; destruct ds as [|d ds]; try discriminate E; [constructor|]. cbn [map] in E. constructor; [congruence|apply IH; congruence].
Qed.

Lemma loop_unique f : forall f' len l l', chunks_loop f len = Some l -> chunks_loop f' len = Some l' -> l = l'.
Proof.
  induction f as [|f IH]; intros f' len l l' H H'; destruct f' as [|f']; cbn [chunks_loop] in H, H'; destruct (len <=? 0) eqn:E; try congruence.
  destruct (next_chunk len) as [s r]. destruct (chunks_loop f r) as [m|] eqn:A; [|discriminate H]. destruct (chunks_loop f' r) as [m'|] eqn:B; [|discriminate H'].
  assert (m = m') by (eapply IH; eassumption). congruence.
Qed.
Lemma loop_blocks k : forall n l, 0 <= n -> (exists f, chunks_loop f n = Some l) -> exists f, chunks_loop f (131072 * Z.of_nat k + n) = Some (repeat 131072 k ++ l).
Proof.
  induction k as [|k IH]; intros n l Hn H; [exact H|]. destruct (IH n l Hn H) as [f Hf]. exists (S f). cbn [chunks_loop].
  assert (131072 * Z.of_nat (S k) + n <=? 0 = false) as -> by lia. unfold next_chunk. change MAX_FRAME_SIZE with 131072.
  assert (131072 <=? 131072 * Z.of_nat (S k) + n = true) as -> by lia.
  replace (131072 * Z.of_nat (S k) + n - 131072) with (131072 * Z.of_nat k + n) by lia. rewrite Hf. reflexivity.
Qed.
Lemma sizes_blocks a b k sa sb sab : Z.of_nat a = 131072 * Z.of_nat k -> get_chunks_sizes a = Ok sa -> get_chunks_sizes b = Ok sb -> get_chunks_sizes (a + b) = Ok sab -> sab = sa ++ sb.
Proof.
  unfold get_chunks_sizes. intros Ha Ga Gb Gab. destruct (chunks_loop a _) as [la|] eqn:A; [|discriminate Ga]. destruct (chunks_loop b _) as [lb|] eqn:B; [|discriminate Gb].
  destruct (chunks_loop (a + b) _) as [lab|] eqn:AB; [|discriminate Gab]. apply ok_inj in Ga, Gb, Gab. subst la lb lab.
  destruct (loop_blocks k 0 [] ltac:(lia) ltac:(exists 0%nat; reflexivity)) as [f1 F1]. rewrite Z.add_0_r, <- Ha in F1.
  destruct (loop_blocks k (Z.of_nat b) sb ltac:(lia) ltac:(eexists; exact B)) as [f2 F2]. rewrite <- Ha, <- Nat2Z.inj_add in F2.
  rewrite (loop_unique _ _ _ _ _ A F1), (loop_unique _ _ _ _ _ AB F2), app_nil_r. reflexivity.
Qed.
Lemma cut_app {A} (l1 l2 : list A) s1 s2 : Forall (fun c => 0 <= c) s1 -> zsum s1 = Z.of_nat (length l1) -> cut (l1 ++ l2) (s1 ++ s2) = cut l1 s1 ++ cut l2 s2.
Proof.
  revert l1. induction s1 as [|s s1 IH]; intros l1 H Z1.
  - cbn in Z1. destruct l1; [reflexivity|cbn in Z1; lia].
  - inversion H as [|? ? Hs H']; subst. cbn [zsum fold_right] in Z1. fold (zsum s1) in Z1. cbn [app cut].
    assert (P : 0 <= zsum s1) by (clear - H'; induction H' as [|c l Hc _ IH]; cbn [zsum fold_right]; [lia|fold (zsum l); lia]).
    rewrite firstn_app, skipn_app. replace (Z.to_nat s - length l1)%nat with 0%nat by lia. cbn [firstn skipn]. rewrite app_nil_r. f_equal.
    apply IH; [exact H'|]. rewrite skipn_length. lia.
Qed.
Lemma clean_app s t : clean_data (s ++ t) = clean_data s ++ clean_data t.
Proof. unfold clean_data. apply filter_app. Qed.
Lemma sizes_facts n sizes : get_chunks_sizes n = Ok sizes -> zsum sizes = Z.of_nat n /\ Forall (fun c => 1 <= c <= 131072) sizes.
Proof.
  intros H. destruct (get_chunks_sizes_spec n) as (sz & H1 & H2 & H3). rewrite H in H1. apply ok_inj in H1. subst sz. split; [exact H2|exact (good_chunks_pos _ H3)].
Qed.

(** *** Appending *)
(** A series whose finite samples fill whole blocks of 131072, and any continuation: the continued series is compressed to the frames of the first
    part followed by the frames of the second, and reads back as the one followed by the other. *)
Theorem C69_appending : forall e p data more c err level k,
  env_ok e -> 0 <= err < 256 -> 0 <= level <= 6 -> fits_counter p (data ++ more) ->
  Z.of_nat (length (finite_samples data)) = 131072 * Z.of_nat k ->
  exists s1 s2 s12 out1 out2,
    compress_data e p data c err level = Ok (stream_to_bytes s1) /\ decompress_data e p (stream_to_bytes s1) = Ok out1 /\
    compress_data e p more c err level = Ok (stream_to_bytes s2) /\ decompress_data e p (stream_to_bytes s2) = Ok out2 /\
    compress_data e p (data ++ more) c err level = Ok (stream_to_bytes s12) /\ decompress_data e p (stream_to_bytes s12) = Ok (out1 ++ out2) /\
    stream_from_bytes (stream_to_bytes s12) = Ok s12 /\ s_frames s12 = s_frames s1 ++ s_frames s2.
Proof.
  intros e p data more c err level k He Hr Hl Hf Hk. rewrite <- clean_is in Hk.
  assert (F : fits_counter p data /\ fits_counter p more).
  { unfold fits_counter in *. rewrite <- !clean_is in *. rewrite clean_app, !app_length in Hf. destruct Hf as [H|[-> H]]; split; [left|left|right|right]; try lia; (split; [reflexivity|lia]). }
  destruct F as [F1 F2].
  destruct (local_runs e p data c err level He Hr Hl F1) as (z1 & s1 & A1 & A2 & A3 & A4 & A5 & A6).
  destruct (local_runs e p more c err level He Hr Hl F2) as (z2 & s2 & B1 & B2 & B3 & B4 & B5 & B6).
  destruct (local_runs e p (data ++ more) c err level He Hr Hl Hf) as (z & s & D1 & D2 & D3 & D4 & D5 & D6).
  rewrite clean_app in D1, D4, D6. rewrite app_length in D1. assert (z = z1 ++ z2) as -> by exact (sizes_blocks _ _ k _ _ _ Hk A1 B1 D1).
  destruct (sizes_facts _ _ A1) as [Z1 P1].
  rewrite cut_app in D4, D6 by (first [exact Z1|eapply Forall_impl; [|exact P1]; cbn; lia]).
  rewrite map_app, concat_app in D4.
  exists s1, s2, s. eexists. eexists. split; [exact A2|]. split; [exact A4|]. split; [exact B2|]. split; [exact B4|]. split; [exact D2|]. split; [exact D4|]. split; [exact D3|].
  apply Forall2_app_inv_l in D6. destruct D6 as (f1 & f2 & G1 & G2 & ->).
  assert (U : forall (l : list (list f64)) a b, Forall2 (fun d f => frame_of e p (call_for c err level d) = Ok f) l a -> Forall2 (fun d f => frame_of e p (call_for c err level d) = Ok f) l b -> a = b).
  { clear. intros l a b H. revert b. induction H as [|d f l a Hd _ IH]; intros b G; inversion G as [|? f' ? b' G1 G2]; subst; [reflexivity|]. f_equal; [congruence|now apply IH]. }
  f_equal; eapply U; eassumption.
Qed.
Print Assumptions C69_appending.

(** *** Editing *)
(** The block of a sample: its bounds depend only on the number of finite samples and the position, not on the values, the compressor or the error. *)
Lemma block_of (sizes : list Z) : Forall (fun c => 1 <= c <= 131072) sizes -> forall i, Z.of_nat i < zsum sizes ->
  exists pre s post, sizes = pre ++ s :: post /\ zsum pre <= Z.of_nat i < zsum pre + s.
Proof.
  induction 1 as [|c l Hc Hl IH]; intros i Hi; cbn [zsum fold_right] in Hi; [lia|]. fold (zsum l) in Hi.
  destruct (Z_lt_dec (Z.of_nat i) c) as [L|L]; [exists [], c, l; cbn; split; [reflexivity|lia]|].
  destruct (IH (i - Z.to_nat c)%nat ltac:(lia)) as (pre & s & post & -> & B). exists (c :: pre), s, post. split; [reflexivity|]. cbn [zsum fold_right]. fold (zsum pre). lia.
Qed.
Lemma zsum_app a b : zsum (a ++ b) = zsum a + zsum b.
Proof. induction a as [|x a IH]; cbn [app zsum fold_right]; [reflexivity|]. fold (zsum (a ++ b)) (zsum a). lia. Qed.
Lemma nth_agree {A} (l m : list A) : length l = length m -> (forall j, (j < length l)%nat -> nth_error l j = nth_error m j) -> l = m.
Proof.
  revert m. induction l as [|x l IH]; intros m L H; destruct m as [|y m]; try discriminate L; [reflexivity|].
  assert (x = y) by (assert (G := H 0%nat ltac:(cbn; lia)); cbn in G; congruence). subst y. f_equal. apply IH; [cbn in L; lia|]. intros j Hj. exact (H (S j) ltac:(cbn; lia)).
Qed.
Lemma split_three {A} (l : list A) a b : (a + b <= length l)%nat -> exists x y z, l = x ++ y ++ z /\ length x = a /\ length y = b.
Proof.
  intros H. exists (firstn a l), (firstn b (skipn a l)), (skipn b (skipn a l)). rewrite !firstn_skipn. split; [reflexivity|]. rewrite !firstn_length, skipn_length. lia.
Qed.
Lemma nth_mid {A} (x y z : list A) j : (length x <= j < length x + length y)%nat -> nth_error (x ++ y ++ z) j = nth_error y (j - length x).
Proof. intros H. rewrite nth_error_app2 by lia. rewrite nth_error_app1 by lia. reflexivity. Qed.
Lemma nth_last {A} (x y z : list A) j : (length x + length y <= j)%nat -> nth_error (x ++ y ++ z) j = nth_error z (j - length x - length y).
Proof. intros H. rewrite nth_error_app2 by lia. rewrite nth_error_app2 by lia. reflexivity. Qed.

Lemma concat_lengths e p c err level ds : Forall (fun d => length (reads_back e p c err level d) = length d) ds -> length (concat (map (reads_back e p c err level) ds)) = length (concat ds).
Proof. induction 1 as [|d ds H _ IH]; [reflexivity|]. cbn [map concat]. rewrite !app_length. congruence. Qed.

(** The output of a run, split along one block. *)
Lemma run_at e p data c err level pre sz post :
  env_ok e -> 0 <= err < 256 -> 0 <= level <= 6 -> fits_counter p data ->
  get_chunks_sizes (length (clean_data data)) = Ok (pre ++ sz :: post) ->
  exists bytes x y z, compress_data e p data c err level = Ok bytes /\ clean_data data = x ++ y ++ z /\
    Z.of_nat (length x) = zsum pre /\ Z.of_nat (length y) = sz /\
    let f := fun l ss => concat (map (reads_back e p c err level) (cut l ss)) in
    decompress_data e p bytes = Ok (f x pre ++ reads_back e p c err level y ++ f z post) /\
    length (f x pre) = length x /\ length (reads_back e p c err level y) = length y /\ length (f z post) = length z.
Proof.
  intros He Hr Hl Hf Hs. destruct (local_runs e p data c err level He Hr Hl Hf) as (sizes & s & S1 & A2 & _ & A4 & A5 & _).
  rewrite Hs in S1. apply ok_inj in S1. subst sizes. destruct (sizes_facts _ _ Hs) as [Z1 P]. rewrite zsum_app in Z1. cbn [zsum fold_right] in Z1. fold (zsum post) in Z1.
  apply Forall_app in P. destruct P as [P1 P2]. inversion P2 as [|? ? P3 P4]; subst.
  assert (N : forall l, Forall (fun c => 1 <= c <= 131072) l -> 0 <= zsum l) by (intros l Q; apply zsum_nonneg; eapply Forall_impl; [|exact Q]; cbn; lia).
  assert (N1 := N _ P1). assert (N2 := N _ P4).
  destruct (split_three (clean_data data) (Z.to_nat (zsum pre)) (Z.to_nat sz) ltac:(lia)) as (x & y & z & E & L1 & L2).
  rewrite E in A4, A5. rewrite E in Z1. rewrite !app_length in Z1.
  assert (K : cut (x ++ y ++ z) (pre ++ sz :: post) = cut x pre ++ y :: cut z post).
  { rewrite cut_app; [|eapply Forall_impl; [|exact P1]; cbn; lia|lia]. cbn [cut]. rewrite <- L2, firstn_app, skipn_app, firstn_all, skipn_all, Nat.sub_diag. cbn [firstn skipn]. rewrite app_nil_r. reflexivity. }
  rewrite K in A4, A5. rewrite map_app in A4. cbn [map] in A4. rewrite concat_app in A4. cbn [concat] in A4.
  apply Forall_app in A5. destruct A5 as [Q1 Q2]. inversion Q2 as [|? ? Q3 Q4]; subst.
  exists (stream_to_bytes s), x, y, z. split; [exact A2|]. split; [exact E|]. split; [lia|]. split; [lia|]. cbv zeta. split; [exact A4|].
  split; [rewrite (concat_lengths _ _ _ _ _ _ Q1)|]. { destruct (cut_concat x pre ltac:(eapply Forall_impl; [|exact P1]; cbn; lia) ltac:(lia)) as [-> _]. reflexivity. }
  split; [exact Q3|]. rewrite (concat_lengths _ _ _ _ _ _ Q4). destruct (cut_concat z post ltac:(eapply Forall_impl; [|exact P4]; cbn; lia) ltac:(lia)) as [-> _]. reflexivity.
Qed.

Lemma part_agree {A} (x y z x' y' z' : list A) : length x = length x' -> length y = length y' -> length z = length z' ->
  ((forall j, (length x <= j < length x + length y)%nat -> nth_error (x ++ y ++ z) j = nth_error (x' ++ y' ++ z') j) -> y = y') /\
  ((forall j, (j < length x \/ length x + length y <= j)%nat -> nth_error (x ++ y ++ z) j = nth_error (x' ++ y' ++ z') j) -> x = x' /\ z = z').
Proof.
  intros L1 L2 L3. split.
  - intros H. apply nth_agree; [exact L2|]. intros j Hj. assert (G := H (length x + j)%nat ltac:(lia)). rewrite !nth_mid in G by lia.
    rewrite L1 in G at 2. replace (length x + j - length x)%nat with j in G by lia. rewrite <- L1 in G. replace (length x + j - length x)%nat with j in G by lia. exact G.
  - intros H. split.
    + apply nth_agree; [exact L1|]. intros j Hj. assert (G := H j ltac:(lia)). rewrite !nth_error_app1 in G by lia. exact G.
    + apply nth_agree; [exact L3|]. intros j Hj. assert (G := H (length x + length y + j)%nat ltac:(lia)). rewrite !nth_last in G by lia.
      rewrite <- L1, <- L2 in G. replace (length x + length y + j - length x - length y)%nat with j in G by lia. exact G.
Qed.

(** Two series with the same number of finite samples, and a position. Around the position there is a block of at most 131072 samples, the same for
    every such pair of series and every compressor and error, such that: if the finite samples agree in the block, so do the values read back;
    if they agree outside the block, so do the values read back. *)
Theorem C69_editing : forall n i, (i < n)%nat ->
  exists lo hi, (lo <= i < hi)%nat /\ (hi <= n)%nat /\ Z.of_nat hi - Z.of_nat lo <= 131072 /\
  forall e p c err level data data',
    env_ok e -> 0 <= err < 256 -> 0 <= level <= 6 -> fits_counter p data -> fits_counter p data' ->
    length (finite_samples data) = n -> length (finite_samples data') = n ->
    exists bytes bytes' out out',
      compress_data e p data c err level = Ok bytes /\ decompress_data e p bytes = Ok out /\
      compress_data e p data' c err level = Ok bytes' /\ decompress_data e p bytes' = Ok out' /\
      ((forall j, (lo <= j < hi)%nat -> nth_error (finite_samples data) j = nth_error (finite_samples data') j) ->
       (forall j, (lo <= j < hi)%nat -> nth_error out j = nth_error out' j)) /\
      ((forall j, (j < lo \/ hi <= j)%nat -> nth_error (finite_samples data) j = nth_error (finite_samples data') j) ->
       (forall j, (j < lo \/ hi <= j)%nat -> nth_error out j = nth_error out' j)).
Proof.
  intros n i Hi. destruct (get_chunks_sizes_spec n) as (sizes & Hs & Hz & Hg). assert (P := good_chunks_pos _ Hg).
  destruct (block_of sizes P i ltac:(lia)) as (pre & s & post & -> & B). rewrite zsum_app in Hz. cbn [zsum fold_right] in Hz. fold (zsum post) in Hz.
  apply Forall_app in P. destruct P as [P1 P2]. inversion P2 as [|? ? P3 P4]; subst. unfold MAX_FRAME_SIZE in *.
  assert (N : forall l, Forall (fun c => 1 <= c <= 131072) l -> 0 <= zsum l) by (intros l Q; apply zsum_nonneg; eapply Forall_impl; [|exact Q]; cbn; lia).
  assert (N1 := N _ P1). assert (N2 := N _ P4).
  exists (Z.to_nat (zsum pre)), (Z.to_nat (zsum pre) + Z.to_nat s)%nat. split; [lia|]. split; [lia|]. split; [lia|].
  intros e p c err level data data' He Hr Hl F F' L L'. rewrite <- !clean_is in *.
  destruct (run_at e p data c err level pre s post He Hr Hl F ltac:(rewrite L; exact Hs)) as (b & x & y & z & C & E & X1 & X2 & D & Y1 & Y2 & Y3).
  destruct (run_at e p data' c err level pre s post He Hr Hl F' ltac:(rewrite L'; exact Hs)) as (b' & x' & y' & z' & C' & E' & X1' & X2' & D' & Y1' & Y2' & Y3').
  exists b, b'. eexists. eexists. split; [exact C|]. split; [exact D|]. split; [exact C'|]. split; [exact D'|]. rewrite E, E' in *. rewrite !app_length in L, L'.
  destruct (part_agree x y z x' y' z' ltac:(lia) ltac:(lia) ltac:(lia)) as [Q1 Q2].
  assert (Ex : length x = Z.to_nat (zsum pre)) by lia. assert (Ey : length y = Z.to_nat s) by lia.
  rewrite Ex, Ey in Q1, Q2. split.
  - intros G j Hj. assert (y = y') as <- by exact (Q1 G). rewrite !nth_mid by lia. rewrite Y1, Y1'. f_equal. lia.
  - intros G j Hj. destruct (Q2 G) as [<- <-]. destruct Hj as [Hj|Hj]; [rewrite !nth_error_app1 by lia; reflexivity|].
    rewrite !nth_last by lia. f_equal. lia.
Qed.
Print Assumptions C69_editing.

(** *** Frames *)
(** Two streams that differ in one frame only, both of which decompress, read back the same before and after that frame's samples. *)
Theorem C69_frames_independent : forall e p s s' pre f f' post out out',
  s_frames s = pre ++ f :: post -> s_frames s' = pre ++ f' :: post ->
  stream_decompress e p s = Ok out -> stream_decompress e p s' = Ok out' ->
  exists before here here' after, out = before ++ here ++ after /\ out' = before ++ here' ++ after /\
    frame_decompress e p f = Ok here /\ frame_decompress e p f' = Ok here'.
Proof.
  intros e p s s' pre f f' post out out' E E' D D'. unfold stream_decompress in *. rewrite E in D. rewrite E' in D'. clear E E'.
  assert (M : forall a b, map_res (frame_decompress e p) (a ++ b) = do x <- map_res (frame_decompress e p) a; do y <- map_res (frame_decompress e p) b; Ok (x ++ y)).
  { clear. intros a b. induction a as [|g a IH]; cbn [app map_res].
    - destruct (map_res (frame_decompress e p) b); reflexivity.
    - rewrite IH. destruct (frame_decompress e p g); cbn [bind]; [|reflexivity]. destruct (map_res (frame_decompress e p) a); cbn [bind]; [|reflexivity].
      destruct (map_res (frame_decompress e p) b); reflexivity. }
  rewrite !M in D, D'. cbn [map_res] in D, D'. destruct (map_res (frame_decompress e p) pre) as [a|]; [|discriminate D]. cbn [bind] in D, D'.
  destruct (map_res (frame_decompress e p) post) as [b|]; cbn [bind] in D, D'; [|destruct (frame_decompress e p f); discriminate D].
  destruct (frame_decompress e p f) as [h|]; [|discriminate D]. destruct (frame_decompress e p f') as [h'|]; [|discriminate D']. cbn [bind] in D, D'.
  apply ok_inj in D, D'. subst out out'. exists (concat a), h, h', (concat b). rewrite !concat_app. cbn [concat]. auto.
Qed.
Print Assumptions C69_frames_independent.

(** The hypotheses of C69_appending: any series of 131072 finite samples; of C69_frames_independent: the streams of two edited series. *)
Example C69_example_whole_block : exists data, Z.of_nat (length (finite_samples data)) = 131072 * Z.of_nat 1 /\ fits_counter Dev (data ++ ints [1; 2]).
Proof.
  exists (repeat (int_as_f64 7) (Z.to_nat 131072)).
  assert (F : Forall finite (repeat (int_as_f64 7) (Z.to_nat 131072))) by (apply Forall_forall; intros x Hx; apply repeat_spec in Hx; subst x; reflexivity).
  split; [rewrite <- clean_is, (clean_data_id _ F), repeat_length; lia|]. apply fits_small. rewrite app_length, repeat_length. unfold ints. rewrite map_length. cbn [length]. lia.
Qed.

(** Whole blocks are needed: the same compressor with one sample appended to one sample changes what the first sample reads back as. *)
Theorem C69_appending_unaligned_refuted : forall e p, exists data more bytes bytes' out out',
  length data = 1%nat /\ Forall finite (data ++ more) /\
  compress_data e p data Constant 5 0 = Ok bytes /\ decompress_data e p bytes = Ok out /\
  compress_data e p (data ++ more) Constant 5 0 = Ok bytes' /\ decompress_data e p bytes' = Ok out' /\
  out = ints [5] /\ out' = ints [1; 1].
Proof.
  intros e p. exists (ints [5]), (ints [1]).
  assert (H : (do b <- compress_data e p (ints [5]) Constant 5 0; do b' <- compress_data e p (ints [5] ++ ints [1]) Constant 5 0; do o <- decompress_data e p b; do o' <- decompress_data e p b';
     Ok (map to_bits o, map to_bits o')) = Ok (map to_bits (ints [5]), map to_bits (ints [1; 1]))) by (destruct p; vm_compute; reflexivity).
  destruct (compress_data e p (ints [5]) Constant 5 0) as [b|]; [|discriminate H]. cbn [bind] in H.
  destruct (compress_data e p (ints [5] ++ ints [1]) Constant 5 0) as [b'|]; [|discriminate H]. cbn [bind] in H.
  destruct (decompress_data e p b) as [o|] eqn:D; [|discriminate H]. cbn [bind] in H. destruct (decompress_data e p b') as [o'|] eqn:D'; [|discriminate H]. cbn [bind] in H.
  assert (I : forall l m, map to_bits l = map to_bits m -> l = m).
  { clear. induction l as [|x l IH]; intros m Hm; destruct m as [|y m]; try discriminate Hm; [reflexivity|]. cbn [map] in Hm. f_equal; [apply to_bits_inj; congruence|apply IH; congruence]. }
  apply ok_inj in H. exists b, b', o, o'. split; [reflexivity|].
  split; [apply Forall_forall; intros y Hy; apply (proj1 (forallb_forall fis_finite (ints [5] ++ ints [1])) eq_refl y Hy)|].
  split; [reflexivity|]. split; [exact D|]. split; [reflexivity|]. split; [exact D'|]. split; apply I; congruence.
Qed.
Print Assumptions C69_appending_unaligned_refuted.
