(** C66: compressing and uncompressing again and again. *)
From Coq Require Import List ZArith Bool Lia Reals Lra.
From Flocq Require Import Core IEEE754.Binary.
From Verif Require Import Base Model_Float Model_Bincode BincodeFacts Spec FloatFacts Model_Utils UtilsFacts Model_Stats StatsFacts Model_Compressors CompressorFacts Model_Polynomial Model_Fft Model_Stream
  StreamFacts PlanFacts PipelineFacts Props_Poly Props_Plan Props_Lossless Props_Fft Props_Stream Props_Pipeline Spec_Metric AccuracyFacts Props_Accuracy Model_Wavbrro Props_Wavbrro Model_Vsri Model_Csv Model_Cli Props_Cli.
Import ListNotations.
Open Scope Z_scope.

(** [n] times: compress x.wbro to x.bro, uncompress x.bro to x.wbro; every call ends normally. *)
Inductive cycles (e : env) (p : profile) (nt : number_text) (a : atsc_args) (x : name) : nat -> files -> files -> Prop :=
| no_cycle fs : cycles e p nt a x 0 fs fs
| one_more n fs fs1 fs2 fs3 :
    process_single_file e p nt (compressing a) fs (named x ext_wbro) = (fs1, Done) ->
    process_single_file e p nt (uncompressing a) fs1 (named x ext_bro) = (fs2, Done) ->
    cycles e p nt a x n fs2 fs3 -> cycles e p nt a x (S n) fs fs3.

(** A class of series that compression and decompression do not leave. *)
Lemma cycles_keep e p nt a x (Q : list f64 -> Prop) : proper_stem x -> a_csv a = false ->
  (forall data, Q data -> exists bytes out, compress_data e p data (a_compressor a) (a_error a) (a_level a) = Ok bytes /\ bro_read bytes = RBro bytes /\
     decompress_data e p bytes = Ok out /\ Z.of_nat (length out) <= 2 ^ 28 /\ Q out) ->
  forall n fs data, from_file (fs (named x ext_wbro)) = Ok (WbSamples data) -> Q data ->
  exists fs' out, cycles e p nt a x n fs fs' /\ from_file (fs' (named x ext_wbro)) = Ok (WbSamples out) /\ Q out.
Proof.
  intros Hx Hc HQ. induction n as [|n IH]; intros fs data Hf Hd.
  - exists fs, data. split; [constructor|]. auto.
  - destruct (HQ data Hd) as (bytes & out & C & B & D & L & Qo).
    assert (S1 := compress_step e p nt a fs x ext_wbro data bytes Hx proper_wbro Hc Hf C).
    destruct (uncompress_step e p nt a (put fs (named x ext_bro) bytes) x ext_bro bytes out Hx proper_bro (put_same _ _ _) B D L) as (file & S2 & R2).
    destruct (IH (put (put fs (named x ext_bro) bytes) (named x ext_wbro) file) out ltac:(rewrite put_same; exact R2) Qo) as (fs' & out' & G1 & G2 & G3).
    exists fs', out'. split; [exact (one_more e p nt a x n fs _ _ fs' S1 S2 G1)|auto].
Qed.

Lemma same_finite s t : same_series s t -> Forall finite s /\ Forall finite t /\ length s = length t.
Proof. induction 1 as [|x y l m (F1 & F2 & _) _ (I1 & I2 & I3)]; [repeat constructor|]. split; [now constructor|]. split; [now constructor|]. cbn [length]. now rewrite I3. Qed.
Lemma same_trans s t u : same_series s t -> same_series t u -> same_series s u.
Proof. intros H. revert u. induction H as [|y z l m E _ IH]; intros u G; inversion G; subst; constructor; [eapply same_value_trans; eassumption|now apply IH]. Qed.
Lemma same_refl s : Forall finite s -> same_series s s.
Proof. induction 1 as [|y l Fy _ IH]; constructor; [|exact IH]. split; [exact Fy|]. split; [exact Fy|reflexivity]. Qed.

(** The first cycle drops the samples that are not finite; a class of series that it reaches and that later cycles do not leave. *)
Lemma cycles_settle e p nt a fs x data v (T : list f64 -> Prop) :
  env_ok e -> proper_stem x -> accepted_args a -> a_csv a = false ->
  from_file (fs (named x ext_wbro)) = Ok (WbSamples data) -> In v data -> finite v -> fits_counter p data -> Z.of_nat (length data) <= 2 ^ 28 ->
  (forall s, T s -> Forall finite s /\ length s = length (clean_data data)) ->
  (forall s bytes out, s = data \/ T s -> fits_counter p s -> compress_data e p s (a_compressor a) (a_error a) (a_level a) = Ok bytes -> decompress_data e p bytes = Ok out -> T out) ->
  forall n, exists fs' out, cycles e p nt a x (S n) fs fs' /\ from_file (fs' (named x ext_wbro)) = Ok (WbSamples out) /\ T out.
Proof.
  intros He Hx (Ha1 & Ha2) Hc Hf Hv Fv Hfit Hl T1 T2 n.
  assert (Iv : In v (clean_data data)) by (apply filter_In; split; [exact Hv|]; unfold finite in Fv; destruct v; try discriminate Fv; reflexivity).
  assert (Lc := clean_data_length data).
  assert (St : forall s, s = data \/ T s -> exists bytes out, compress_data e p s (a_compressor a) (a_error a) (a_level a) = Ok bytes /\ bro_read bytes = RBro bytes /\
     decompress_data e p bytes = Ok out /\ Z.of_nat (length out) <= 2 ^ 28 /\ T out).
  { intros s Hq.
    assert (G : fits_counter p s /\ exists w, In w s /\ finite w).
    { destruct Hq as [->|Hq]; [split; [exact Hfit|now exists v]|]. destruct (T1 s Hq) as [F L]. split.
      - unfold fits_counter in *. rewrite <- clean_is in *. rewrite (clean_data_id s F). destruct Hfit as [G|[-> G]]; [left; lia|right; split; [reflexivity|lia]].
      - destruct s as [|w s]; [cbn in L; destruct (clean_data data); [destruct Iv|discriminate L]|]. exists w. split; [now left|]. now inversion F. }
    destruct G as (G2 & w & G3 & G4).
    destruct (C13_pipeline_sample_count e p s (a_compressor a) (a_error a) (a_level a) He ltac:(lia) Ha2 G2) as (bytes & out & C & D & _).
    assert (Rd := C15_nonempty_series_readable e p s (a_compressor a) (a_error a) (a_level a) bytes w He ltac:(lia) Ha2 G2 G3 G4 C).
    assert (To := T2 s bytes out Hq G2 C D). destruct (T1 out To) as [_ L]. exists bytes, out. split; [exact C|]. split; [exact Rd|]. split; [exact D|]. split; [lia|exact To]. }
  destruct (St data (or_introl eq_refl)) as (bytes & out & C & B & D & L & Qo).
  assert (S1 := compress_step e p nt a fs x ext_wbro data bytes Hx proper_wbro Hc Hf C).
  destruct (uncompress_step e p nt a (put fs (named x ext_bro) bytes) x ext_bro bytes out Hx proper_bro (put_same _ _ _) B D L) as (file & S2 & R2).
  destruct (cycles_keep e p nt a x T Hx Hc (fun s Hq => St s (or_intror Hq)) n
    (put (put fs (named x ext_bro) bytes) (named x ext_wbro) file) out ltac:(rewrite put_same; exact R2) Qo) as (fs' & out' & G1 & G2 & G3).
  exists fs', out'. split; [exact (one_more e p nt a x n fs _ _ fs' S1 S2 G1)|]. split; [exact G2|exact G3].
Qed.

Lemma sub_clean s cl : subsequence_of finite s cl -> cl = clean_data s.
Proof.
  assert (X := clean_data_spec s). revert cl X. generalize (clean_data s) as c. induction s as [|y s IH]; intros c cl X H; inversion X; inversion H; subst; try contradiction; auto. f_equal. now apply IH.
Qed.

(** RLE: after any number of cycles x.wbro holds the finite samples of the original. *)
Theorem C66_rle_cycles : forall e p nt a fs x data v n,
  env_ok e -> proper_stem x -> accepted_args a -> a_csv a = false -> a_compressor a = RLE ->
  from_file (fs (named x ext_wbro)) = Ok (WbSamples data) -> In v data -> finite v ->
  Forall (fun x => finite x -> supported x) data ->
  fits_counter p data -> Z.of_nat (length data) <= 2 ^ 28 ->
  exists fs' out cleaned, cycles e p nt a x (S n) fs fs' /\ from_file (fs' (named x ext_wbro)) = Ok (WbSamples out) /\
    subsequence_of finite data cleaned /\ same_series out cleaned.
Proof.
  intros e p nt a fs x data v n He Hx Ha Hc Hr Hf Hv Fv Hs Hfit Hl. assert (Ha' := Ha). destruct Ha' as (Ha1 & Ha2).
  destruct (cycles_settle e p nt a fs x data v (fun s => same_series s (clean_data data)) He Hx Ha Hc Hf Hv Fv Hfit Hl) with (n := n) as (fs' & out & G1 & G2 & G3).
  - intros s H. destruct (same_finite _ _ H) as (F & _ & L). auto.
  - intros s bytes out Hq Hfs C D. rewrite Hr in C.
    assert (Sc : Forall supported (clean_data data)).
    { apply Forall_forall. intros y Hy. destruct (clean_data_in data y Hy) as [G1 G2]. rewrite Forall_forall in Hs. now apply Hs. }
    assert (G : Forall (fun x => finite x -> supported x) s /\ same_series (clean_data s) (clean_data data)).
    { destruct Hq as [->|Hq]; [split; [exact Hs|apply same_refl, clean_data_finite]|]. destruct (same_finite _ _ Hq) as (F1 & _). split.
      - clear - Hq Sc. induction Hq as [|y z l m (E1 & E2 & E3) _ IH]; [constructor|]. inversion Sc; subst. constructor; [|now apply IH]. intros _.
        destruct H1 as (S1 & S2 & S3). unfold supported. rewrite E3. auto.
      - now rewrite (clean_data_id s F1). }
    destruct G as (G1 & G5).
    destruct (C14_rle_lossless e p s (a_error a) (a_level a) He ltac:(lia) Ha2 Hfs G1) as (bytes' & out' & cl & C' & D' & Sub & Same).
    assert (bytes' = bytes) as -> by congruence. assert (out' = out) as -> by congruence. rewrite (sub_clean s cl Sub) in Same. exact (same_trans _ _ _ Same G5).
  - exists fs', out, (clean_data data). split; [exact G1|]. split; [exact G2|]. split; [apply clean_data_spec|exact G3].
Qed.
Print Assumptions C66_rle_cycles.

(** Noop: after any number of cycles x.wbro holds the finite samples of the original, each rounded once. *)
Lemma noop_result_int x y : noop_result x y -> exists z, is_int y z /\ - 2 ^ 63 <= z <= 2 ^ 63.
Proof.
  intros [(F & (B1 & B2) & z & N & I)|[(F & B & I)|[(F & B & I)|[(E & I)|[(E & I)|(E & I)]]]]].
  - exists z. split; [exact I|]. unfold nearest_away in N.
    assert (X : (Rabs (R64 x - IZR z) <= / 2)%R) by apply N. apply Rabs_le_inv in X.
    assert (IZR z < IZR (2 ^ 63 + 1))%R by (rewrite plus_IZR; lra). assert (IZR (- 2 ^ 63 - 1) < IZR z)%R by (rewrite minus_IZR; lra).
    apply lt_IZR in H, H0. lia.
  - exists (2 ^ 63). split; [exact I|lia].
  - exists (- 2 ^ 63). split; [exact I|lia].
  - exists (2 ^ 63). split; [exact I|lia].
  - exists (- 2 ^ 63). split; [exact I|lia].
  - exists 0. split; [exact I|lia].
Qed.
Lemma noop_twice x y w : noop_result x y -> noop_result y w -> noop_result x w.
Proof.
  intros H1 H2. destruct (noop_result_int x y H1) as (z & (Fy & Ry) & Bz).
  assert (I : is_int w z).
  { destruct H2 as [(F & (B1 & B2) & z' & N & I)|[(F & B & I)|[(F & B & I)|[(E & I)|[(E & I)|(E & I)]]]]].
    - assert (X : (Rabs (R64 y - IZR z') <= / 2)%R) by apply N. rewrite Ry, <- minus_IZR, <- abs_IZR in X.
      assert (Z.abs (z - z') < 1) by (apply lt_IZR; lra). assert (z' = z) as -> by lia. exact I.
    - rewrite Ry in B. apply le_IZR in B. assert (z = 2 ^ 63) as -> by lia. exact I.
    - rewrite Ry in B. apply lt_IZR in B. lia.
    - subst y. discriminate Fy.
    - subst y. discriminate Fy.
    - destruct y; try discriminate E; discriminate Fy. }
  assert (Sw : forall k, is_int y k -> is_int w k) by (intros k Hk; now rewrite <- (is_int_inj y z k (conj Fy Ry) Hk)).
  destruct H1 as [(F & B & z' & N & J)|[(F & B & J)|[(F & B & J)|[(E & J)|[(E & J)|(E & J)]]]]]; apply Sw in J; unfold noop_result; [left; eauto 6|tauto..].
Qed.
Theorem C66_noop_cycles : forall e p nt a fs x data v n,
  env_ok e -> proper_stem x -> accepted_args a -> a_csv a = false -> a_compressor a = Noop ->
  from_file (fs (named x ext_wbro)) = Ok (WbSamples data) -> In v data -> finite v ->
  fits_counter p data -> Z.of_nat (length data) <= 2 ^ 28 ->
  exists fs' out cleaned, cycles e p nt a x (S n) fs fs' /\ from_file (fs' (named x ext_wbro)) = Ok (WbSamples out) /\
    subsequence_of finite data cleaned /\ Forall2 noop_result cleaned out.
Proof.
  intros e p nt a fs x data v n He Hx Ha Hc Hr Hf Hv Fv Hfit Hl. assert (Ha' := Ha). destruct Ha' as (Ha1 & Ha2).
  destruct (cycles_settle e p nt a fs x data v (fun s => Forall2 noop_result (clean_data data) s) He Hx Ha Hc Hf Hv Fv Hfit Hl) with (n := n) as (fs' & out & G1 & G2 & G3).
  - intros s H. split; [|symmetry; apply (forall2_length _ _ _ H)]. induction H as [|y w l m N _ IH]; constructor; [|exact IH]. destruct (noop_result_int _ _ N) as (z & (F & _) & _). exact F.
  - intros s bytes out Hq Hfs C D. rewrite Hr in C.
    destruct (C14_noop_nearest e p s (a_error a) (a_level a) He ltac:(lia) Ha2 Hfs) as (bytes' & out' & cl & C' & D' & Sub & Near).
    assert (bytes' = bytes) as -> by congruence. assert (out' = out) as -> by congruence. rewrite (sub_clean s cl Sub) in Near.
    destruct Hq as [->|Hq]; [exact Near|]. rewrite clean_data_id in Near.
    + clear - Hq Near. revert out Near. induction Hq as [|y z l m E _ IH]; intros out Near; inversion Near; subst; constructor; [eapply noop_twice; eassumption|now apply IH].
    + clear - Hq. induction Hq as [|y w l m N _ IH]; constructor; [|exact IH]. destruct (noop_result_int _ _ N) as (z & (F & _) & _). exact F.
  - exists fs', out, (clean_data data). split; [exact G1|]. split; [exact G2|]. split; [apply clean_data_spec|exact G3].
Qed.
Print Assumptions C66_noop_cycles.

(** Constant: after any number of cycles every chunk of the plan holds its minimum throughout. *)
Definition minimum_of (chunk : list f64) (m : f64) : Prop := In m chunk /\ Forall (fun y => (R64 m <= R64 y)%R) chunk.
Definition collapsed (chunk out : list f64) : Prop := length out = length chunk /\ exists m, minimum_of chunk m /\ Forall (fun y => same_value y m) out.

Lemma pipeline_cut e p data c err level (R : list f64 -> list f64 -> Prop) sizes bytes out :
  env_ok e -> 0 <= err < 256 -> 0 <= level <= 6 -> fits_counter p data ->
  get_chunks_sizes (length (clean_data data)) = Ok sizes ->
  compress_data e p data c err level = Ok bytes -> decompress_data e p bytes = Ok out ->
  (forall d f o, d <> [] -> Z.of_nat (length d) <= 131072 -> (forall x, In x d -> In x (clean_data data)) ->
     frame_of e p (call_for c err level d) = Ok f -> frame_decompress e p f = Ok o -> length o = length d -> R d o) ->
  exists outs, out = concat outs /\ Forall2 R (cut (clean_data data) sizes) outs.
Proof.
  intros He Hr Hl Hf Hs C D HR. destruct (compress_data_calls e p data c err level) as (sizes' & Hs' & E). assert (sizes' = sizes) as -> by (rewrite Hs in Hs'; now apply ok_inj in Hs').
  destruct (cut_facts _ _ Hs) as (Hc1 & Hc2 & Hc3). assert (Hcnt := counter_ok p data sizes Hf Hs).
  destruct (library_runs e p (map (call_for c err level) (cut (clean_data data) sizes)) He
    (proper_calls c err level _ Hr Hl Hc2) ltac:(rewrite map_length, Hc3; exact Hcnt)) as (s & outs & H1 & H2 & H3 & H4).
  rewrite E, H1 in C. cbn [bind] in C. apply ok_inj in C. subst bytes. unfold decompress_data in D. rewrite H2 in D. cbn [bind] in D. rewrite H3 in D. apply ok_inj in D. subst out.
  exists outs. split; [reflexivity|].
  assert (Hin : forall d, In d (cut (clean_data data) sizes) -> forall x, In x d -> In x (clean_data data)).
  { intros d Hd x Hx. rewrite <- Hc1. apply in_concat. eauto. }
  clear - H4 Hc2 Hin HR. remember (map (call_for c err level) (cut (clean_data data) sizes)) as calls.
  revert Heqcalls Hc2 Hin. generalize (cut (clean_data data) sizes) as ds. induction H4 as [|a o l outs (f & F1 & F2 & F3) _ IH]; intros ds E Hc2 Hin.
  - destruct ds; [constructor|discriminate].
  - destruct ds as [|d ds]; [discriminate|]. cbn [map] in E. assert (a = call_for c err level d) as -> by congruence.
    rewrite chunk_of_call in F3. inversion Hc2 as [|? ? [G1 G2] G3]; subst. constructor.
    + apply (HR d f o); auto. apply Hin. now left.
    + apply IH; [congruence|exact G3|]. intros d' Hd'. apply Hin. now right.
Qed.
Lemma cut_of_concat {A} (ls : list (list A)) : cut (concat ls) (map (fun c => Z.of_nat (length c)) ls) = ls.
Proof.
  induction ls as [|l ls IH]; [reflexivity|]. cbn [concat map cut]. rewrite Nat2Z.id, firstn_app, skipn_app, firstn_all, Nat.sub_diag, skipn_all. cbn [firstn skipn]. now rewrite app_nil_r, app_nil_l, IH.
Qed.
Lemma cut_sizes (l : list f64) sizes : get_chunks_sizes (length l) = Ok sizes -> map (fun c => Z.of_nat (length c)) (cut l sizes) = sizes.
Proof.
  intros H. destruct (get_chunks_sizes_spec (length l)) as (sz & H1 & H2 & H3). rewrite H in H1. apply ok_inj in H1. subst sz.
  assert (P := good_chunks_pos _ H3). apply cut_concat; [eapply Forall_impl; [|exact P]; cbn; lia|exact H2].
Qed.

Lemma constant_chunk e p err level d f o : d <> [] -> Forall supported d ->
  frame_of e p (call_for Constant err level d) = Ok f -> frame_decompress e p f = Ok o -> length o = length d -> collapsed d o.
Proof.
  intros Hd Hs Hf Ho Hl. split; [exact Hl|]. unfold call_for in Hf. cbn [is_bounded frame_of] in Hf.
  destruct (data_stats_total d Hd) as [st Hst]. unfold frame_compress, compress in Hf. rewrite Hst in Hf. cbn [bind] in Hf. apply ok_inj in Hf. subst f.
  unfold frame_decompress, decompress in Ho. cbn [fr_compressor fr_samples fr_data] in Ho. rewrite (constant_roundtrip d st _ Hst) in Ho. apply ok_inj in Ho. subst o.
  assert (Hfin : Forall finite d) by (eapply Forall_impl; [|exact Hs]; apply supported_finite).
  destruct (data_stats_ok d st Hfin Hst) as (_ & Hmin & _). assert (Hi := min_at_in _ _ _ Hmin).
  assert (Hconv := stats_conv d st Hs Hst). rewrite Forall_forall in Hconv. exists (st_min st). split.
  - split; [exact Hi|]. destruct Hmin as (_ & Hm & _). exact Hm.
  - apply Forall_forall. intros y Hy. apply repeat_spec in Hy. subst y. now apply Hconv.
Qed.

Theorem C66_constant_cycles : forall e p nt a fs x data v n,
  env_ok e -> proper_stem x -> accepted_args a -> a_csv a = false -> a_compressor a = Constant ->
  from_file (fs (named x ext_wbro)) = Ok (WbSamples data) -> In v data -> finite v ->
  Forall (fun x => finite x -> supported x) data ->
  fits_counter p data -> Z.of_nat (length data) <= 2 ^ 28 ->
  exists fs' outs chunks cleaned, cycles e p nt a x (S n) fs fs' /\ from_file (fs' (named x ext_wbro)) = Ok (WbSamples (concat outs)) /\
    subsequence_of finite data cleaned /\ concat chunks = cleaned /\ get_chunks_sizes (length cleaned) = Ok (map (fun c => Z.of_nat (length c)) chunks) /\
    Forall2 collapsed chunks outs.
Proof.
  intros e p nt a fs x data v n He Hx Ha Hc Hr Hf Hv Fv Hs Hfit Hl. assert (Ha' := Ha). destruct Ha' as (Ha1 & Ha2).
  destruct (get_chunks_sizes_spec (length (clean_data data))) as (sizes & Hsz & _). destruct (cut_facts _ _ Hsz) as (Hc1 & Hc2 & Hc3). assert (Csz := cut_sizes _ _ Hsz).
  assert (Sc : Forall supported (clean_data data)).
  { apply Forall_forall. intros y Hy. destruct (clean_data_in data y Hy) as [G1 G2]. rewrite Forall_forall in Hs. now apply Hs. }
  set (chunks := cut (clean_data data) sizes) in *.
  assert (Sch : forall d y, In d chunks -> In y d -> supported y).
  { intros d y Hd Hy. rewrite Forall_forall in Sc. apply Sc. rewrite <- Hc1. apply in_concat. eauto. }
  assert (Ol : forall outs, Forall2 collapsed chunks outs -> map (fun c => Z.of_nat (length c)) outs = sizes).
  { intros outs H. rewrite <- Csz. clear - H. induction H as [|d o l m [L _] _ IH]; [reflexivity|]. cbn [map]. now rewrite IH, L. }
  assert (Of : forall outs, Forall2 collapsed chunks outs -> Forall supported (concat outs) /\ length (concat outs) = length (clean_data data)).
  { intros outs H. rewrite <- Hc1. clear - H Sch. induction H as [|d o l m (L & mi & (M1 & _) & M2) _ IH]; [split; [constructor|reflexivity]|].
    destruct IH as [I1 I2]; [intros d' y Hd Hy; apply (Sch d' y); [now right|exact Hy]|]. cbn [concat]. rewrite !app_length, I2, L. split; [|reflexivity]. apply Forall_app. split; [|exact I1].
    eapply Forall_impl; [|exact M2]. intros y (E1 & E2 & E3). destruct (Sch d mi (or_introl eq_refl) M1) as (S1 & S2 & S3). unfold supported. rewrite E3. auto. }
  destruct (cycles_settle e p nt a fs x data v (fun s => exists outs, s = concat outs /\ Forall2 collapsed chunks outs) He Hx Ha Hc Hf Hv Fv Hfit Hl) with (n := n) as (fs' & out & G1 & G2 & outs & -> & G3).
  - intros s (outs & -> & H). destruct (Of outs H) as [F L]. split; [|exact L]. eapply Forall_impl; [|exact F]. apply supported_finite.
  - intros s bytes out Hq Hfs C D. rewrite Hr in C. destruct Hq as [->|(outs & -> & Hq)].
    + apply (pipeline_cut e p data Constant (a_error a) (a_level a) collapsed sizes bytes out He ltac:(lia) Ha2 Hfs Hsz C D).
      intros d f o Hd Hdl Hin Hfr Ho Hlo. refine (constant_chunk e p _ _ d f o Hd _ Hfr Ho Hlo). apply Forall_forall. intros y Hy. rewrite Forall_forall in Sc. apply Sc, Hin, Hy.
    + destruct (Of outs Hq) as [F L]. assert (Cl : clean_data (concat outs) = concat outs) by (apply clean_data_id; eapply Forall_impl; [|exact F]; apply supported_finite).
      destruct (pipeline_cut e p (concat outs) Constant (a_error a) (a_level a) collapsed sizes bytes out He ltac:(lia) Ha2 Hfs) as (outs' & -> & P); [now rewrite Cl, L|exact C|exact D| |].
      * intros d f o Hd Hdl Hin Hfr Ho Hlo. refine (constant_chunk e p _ _ d f o Hd _ Hfr Ho Hlo). apply Forall_forall. intros y Hy. rewrite Forall_forall in F. apply F. rewrite <- Cl. apply Hin, Hy.
      * exists outs'. split; [reflexivity|]. rewrite Cl in P. rewrite <- (Ol outs Hq), cut_of_concat in P. clear - Hq P. revert outs' P.
        induction Hq as [|d o l m (L & mi & M1 & M2) _ IH]; intros outs' P; inversion P as [|? o' ? m' (L' & mi' & (M1' & _) & M2') P']; subst; constructor; [|now apply IH].
        split; [congruence|]. exists mi. split; [exact M1|]. rewrite Forall_forall in M2. eapply Forall_impl; [|exact M2']. intros y Hy. exact (same_value_trans _ _ _ Hy (M2 _ M1')).
  - exists fs', outs, chunks, (clean_data data). split; [exact G1|]. split; [exact G2|]. split; [apply clean_data_spec|]. split; [exact Hc1|]. split; [now rewrite Csz|exact G3].
Qed.
Print Assumptions C66_constant_cycles.

(** The hypotheses are met by the directory of C49's example (x.wbro with three samples), whichever of the three compressors is chosen. *)
Example C66_example : exists data v,
  env_ok id_env /\ proper_stem w_x /\ accepted_args rle_args /\ a_csv rle_args = false /\ from_file (one_file (named w_x ext_wbro)) = Ok (WbSamples data) /\ In v data /\ finite v /\
  Forall (fun x => finite x -> supported x) data /\ fits_counter Dev data /\ Z.of_nat (length data) <= 2 ^ 28 /\ data = three_samples.
Proof. destruct C49_example as (data & v & H1 & H2 & H3 & H4 & _ & H5 & H6 & H7 & H8 & H9 & H10 & H11). exists data, v. auto 12. Qed.

(** Lossy compression does drift. Twelve integers, polynomial compression with an allowed error of 10 percent: the first cycle stays within it,
    the second one again with respect to its own input, but the result is more than 15 percent off the original. *)
Definition twelve : list f64 := ints [142; 86; 87; 113; 127; 110; 116; 132; 127; 145; 65; 52].
Theorem C66_polynomial_drift_refuted : forall e p, exists bytes1 out1 bytes2 out2,
  compress_data e p twelve Polynomial 10 0 = Ok bytes1 /\ decompress_data e p bytes1 = Ok out1 /\
  compress_data e p out1 Polynomial 10 0 = Ok bytes2 /\ decompress_data e p bytes2 = Ok out2 /\
  relative_error_within (10 / 100) twelve out1 /\ relative_error_within (10 / 100) out1 out2 /\
  length out2 = length twelve /\ (15 / 100 < mean_relative_error twelve out2)%R.
Proof.
  intros e p.
  assert (R : (do b1 <- compress_data e p twelve Polynomial 10 0; do o1 <- decompress_data e p b1; do b2 <- compress_data e p o1 Polynomial 10 0; do o2 <- decompress_data e p b2;
     do e1 <- calculate_error twelve o1; do e2 <- calculate_error o1 o2; do e3 <- calculate_error twelve o2;
     Ok (forallb fis_finite o1 && fis_finite e1 && fis_finite e2 && fis_finite e3 && fle e1 (from_bits 4591701295080931328) && fle e2 (from_bits 4591701295080931328) &&
       fle (from_bits 4594656782336393216) e3)) = Ok true) by (destruct p; vm_compute; reflexivity).
  destruct (compress_data e p twelve Polynomial 10 0) as [b1|]; [|discriminate R]. cbn [bind] in R.
  destruct (decompress_data e p b1) as [o1|] eqn:D1; [|discriminate R]. cbn [bind] in R.
  destruct (compress_data e p o1 Polynomial 10 0) as [b2|] eqn:C2; [|discriminate R]. cbn [bind] in R.
  destruct (decompress_data e p b2) as [o2|] eqn:D2; [|discriminate R]. cbn [bind] in R.
  destruct (calculate_error twelve o1) as [e1|] eqn:E1; [|discriminate R]. cbn [bind] in R.
  destruct (calculate_error o1 o2) as [e2|] eqn:E2; [|discriminate R]. cbn [bind] in R.
  destruct (calculate_error twelve o2) as [e3|] eqn:E3; [|discriminate R]. cbn [bind] in R. apply ok_inj in R.
  rewrite !andb_true_iff in R. destruct R as ((((((Fo & F1) & F2) & F3) & L1) & L2) & L3).
  exists b1, o1, b2, o2. split; [reflexivity|]. split; [exact D1|]. split; [exact C2|]. split; [exact D2|].
  assert (K1 : R64 (from_bits 4591701295080931328) = (25 / 256)%R).
  { replace (from_bits 4591701295080931328) with (B754_finite 53 1024 false 7036874417766400 (-56) eq_refl) by (apply to_bits_inj; vm_compute; reflexivity). unfold R64, B2R, F2R. cbn [Fnum Fexp cond_Zopp bpow]. 
    change (Z.pow_pos radix2 56) with (2 ^ 56). lra. }
  assert (K2 : R64 (from_bits 4594656782336393216) = (39 / 256)%R).
  { replace (from_bits 4594656782336393216) with (B754_finite 53 1024 false 5488762045857792 (-55) eq_refl) by (apply to_bits_inj; vm_compute; reflexivity). unfold R64, B2R, F2R. cbn [Fnum Fexp cond_Zopp bpow]. 
    change (Z.pow_pos radix2 55) with (2 ^ 55). lra. }
  assert (Ft : Forall finite twelve) by (apply Forall_forall; intros y Hy; apply (proj1 (forallb_forall fis_finite twelve) eq_refl y Hy)).
  assert (Fo' : Forall finite o1) by (apply Forall_forall; intros y Hy; apply (proj1 (forallb_forall fis_finite o1) Fo y Hy)).
  destruct (C53_finite_default_metric twelve o1 e1 ltac:(discriminate) ltac:(vm_compute; discriminate) Ft E1 F1) as (A1 & A2 & A3 & A4).
  assert (N1 : o1 <> []) by (intros ->; discriminate A3).
  destruct (C53_finite_default_metric o1 o2 e2 N1 ltac:(rewrite A3; vm_compute; discriminate) Fo' E2 F2) as (B1 & B2 & B3 & B4).
  destruct (C53_finite_default_metric twelve o2 e3 ltac:(discriminate) ltac:(vm_compute; discriminate) Ft E3 F3) as (_ & _ & G3 & G4).
  rewrite A3 in B4. change (length twelve) with 12%nat in *. 
  assert (M1 := mean_rel_nonneg twelve o1 A1). assert (M2 := mean_rel_nonneg o1 o2 B1). assert (M3 := mean_rel_nonneg twelve o2 A1).
  apply (proj1 (fle_R e1 (from_bits 4591701295080931328) F1 eq_refl)) in L1. apply (proj1 (fle_R e2 (from_bits 4591701295080931328) F2 eq_refl)) in L2. apply (proj1 (fle_R (from_bits 4594656782336393216) e3 eq_refl F3)) in L3.
  rewrite K1 in L1, L2. rewrite K2 in L3.
  assert (T : (bpow radix2 (-1070) <= / 1000000)%R).
  { apply Rle_trans with (bpow radix2 (-20)); [apply bpow_le; lia|]. unfold bpow. change (Z.pow_pos radix2 20) with (2 ^ 20). lra. }
  assert (I16 : INR (12 + 4) = 16%R) by (rewrite INR_IZR_INZ; reflexivity). rewrite I16 in A4, B4, G4.
  set (m1 := mean_relative_error twelve o1) in *. set (m2 := mean_relative_error o1 o2) in *. set (m3 := mean_relative_error twelve o2) in *. set (t := bpow radix2 (-1070)) in *.
  apply Rabs_le_inv in A4. apply Rabs_le_inv in B4. apply Rabs_le_inv in G4.
  split; [split; [exact A3|]; split; [exact A1|]; split; [exact A2|]; fold m1; lra|].
  split; [split; [exact B3|]; split; [exact B1|]; split; [exact B2|]; fold m2; lra|].
  split; [exact G3|]. lra.
Qed.
Print Assumptions C66_polynomial_drift_refuted.
