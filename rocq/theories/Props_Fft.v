(** C23 - C26, C44: Fourier frames, for arbitrary transforms. *)
From Coq Require Import List ZArith Bool Lia Reals Lra Sorted Permutation ZifyBool.
From Flocq Require Import Core IEEE754.BinarySingleNaN IEEE754.Binary IEEE754.Bits.
From Verif Require Import Base Model_Float Model_Bincode BincodeFacts Spec FloatFacts Float32Facts ArithFacts Model_Utils UtilsFacts Model_Stats
  Model_Compressors Model_Polynomial Model_Fft Model_Stream StatsFacts CompressorFacts PolyApiFacts FftFacts Props_Lossless Props_Poly.
Import ListNotations.
Open Scope Z_scope.

(** Third-party behaviour assumed here: the transforms keep the length of their input, and the
    heap hands back the elements it was given. *)
Definition env_ok (e : env) : Prop := heap_ok (e_fft e) /\ transforms_ok (e_fft e).

(** The samples as single-precision complex numbers. *)
Definition as_signal (d : list f64) : list c32 := map (fun x => (f64_as_f32 x, f32_zero)) d.

Definition is_zero (c : c32) : bool := f32_eq (snd c) f32_zero && f32_eq (fst c) f32_zero.
Definition value (q : freq) : c32 := (fq_re q, fq_im q).

(** The stored frequency [q] is bin [k] of the transform [t]. *)
Definition is_bin (t : list c32) (q : freq) (k : nat) : Prop :=
  (2 * k <= length t)%nat /\ nth_error t k = Some (value q) /\ fq_pos q = Z.of_nat k mod 65536.

(** Every stored frequency is a non-zero bin of the lower half of the transform; as long as bins
    can be numbered in 16 bits each has its own bin number and no bin is stored twice. *)
Definition stored_bins (t : list c32) (qs : list freq) : Prop :=
  Forall (fun q => exists k, is_bin t q k /\ is_zero (value q) = false) qs /\
  (Z.of_nat (length t) <= 131071 ->
     NoDup (map fq_pos qs) /\ Forall (fun q => exists k, is_bin t q k /\ fq_pos q = Z.of_nat k) qs).

Lemma nth_firstn {A} (l : list A) m k : (k < m)%nat -> nth_error (firstn m l) k = nth_error l k.
Proof. revert l k. induction m as [|m IH]; intros [|x l] [|k] H; cbn; try lia; auto. apply IH. lia. Qed.

Lemma half_nth t k c : nth_error (half_spectrum t) k = Some c -> (2 * k <= length t)%nat /\ nth_error t k = Some c.
Proof.
  unfold half_spectrum. intros H. assert (Hk := nth_lt _ _ _ H). rewrite firstn_length in Hk.
  pose proof (Nat.div_mod (length t) 2 ltac:(lia)). split; [lia|].
  rewrite <- H. symmetry. apply nth_firstn. lia.
Qed.

Lemma trim_stored env t m fs : heap_ok env -> t <> [] -> m <> 1%nat -> fft_trim env (half_spectrum t) m = Ok fs -> stored_bins t fs /\ (length fs <= m)%nat /\ (length fs <= length t)%nat.
Proof.
  intros Hh Ht Hm H. assert (Hl : (1 <= length t)%nat) by (destruct t; [congruence|]; cbn; lia).
  assert (Hh2 := half_length t Hl).
  destruct (fft_trim_total env Hh (half_spectrum t) m ltac:(lia)) as (fs' & E & Hb & Hm1 & Hml & Hz & Hnd).
  rewrite E in H. apply ok_inj in H. subst fs'. specialize (Hz Hm).
  assert (Hmm : (length fs <= m)%nat).
  { destruct (Nat.eq_dec m 0) as [->|]; [|lia]. unfold fft_trim in E. cbn [Nat.eqb] in E. apply ok_inj in E. subst fs. cbn. lia. }
  split; [|split; [exact Hmm|]].
  2:{ pose proof (Nat.div_lt (length t) 2 ltac:(lia) ltac:(lia)). lia. }
  assert (Hall : Forall (fun q => exists k, is_bin t q k /\ is_zero (value q) = false) fs).
  { rewrite Forall_forall in *. intros q Hq. destruct (Hb q Hq) as (k & re & im & Hk & ->). exists k.
    destruct (half_nth _ _ _ Hk) as [Hk2 Hk3]. split; [|exact (Hz _ Hq)]. split; [exact Hk2|]. split; [exact Hk3|reflexivity]. }
  split; [exact Hall|]. intros Hs. split.
  { apply Hnd. rewrite Hh2. rewrite Nat2Z.inj_add, Nat2Z.inj_div. change (Z.of_nat 2) with 2. change (Z.of_nat 1) with 1. lia. }
  eapply Forall_impl; [|exact Hall]. intros q (k & Hk & _). exists k. split; [exact Hk|]. destruct Hk as (Hk & _ & ->).
  apply Z.mod_small. lia.
Qed.

(** Glue: what bounded compression produces. *)
Lemma bounded_shape e p data bound : env_ok e -> data <> [] -> in_memory data ->
  exists st c, data_stats data = Ok st /\
    compress_results e p FFT data bound = Ok {| cr_data := enc_fft c; cr_error := match ff_error c with Some x => x | None => f0 end |} /\
    compress_bounded e p FFT data bound = Ok (enc_fft c) /\
    ff_max c = f64_as_f32 (st_max st) /\ ff_min c = f64_as_f32 (st_min st) /\
    ((f32_eq (ff_max c) (ff_min c) = true /\ ff_freqs c = [] /\ ff_error c = None) \/
     (f32_eq (ff_max c) (ff_min c) = false /\ fft_bounded_post (e_fft e) (fft_new (st_min st) (st_max st)) c data bound)).
Proof.
  intros [Hh Ht] Hne Hm. destruct (data_stats_total data Hne) as [st Hst]. exists st.
  destruct (fft_compress_bounded_spec (e_fft e) Hh Ht (fft_new (st_min st) (st_max st)) data bound Hne) as [[E H]|[E (c & H & [S1 S2] & Hp)]].
  - exists (fft_new (st_min st) (st_max st)). unfold compress_results, compress_bounded, fft_compressor. rewrite Hst. cbn [bind]. rewrite H. cbn [bind].
    split; [reflexivity|]. split; [reflexivity|]. split; [reflexivity|]. split; [reflexivity|]. split; [reflexivity|].
    left. split; [exact E|split; reflexivity].
  - exists c. unfold compress_results, compress_bounded, fft_compressor. rewrite Hst. cbn [bind]. rewrite H. cbn [bind].
    split; [reflexivity|]. split; [reflexivity|]. split; [reflexivity|]. split; [exact S1|]. split; [exact S2|].
    right. split; [rewrite S1, S2; exact E|exact Hp].
Qed.

Lemma padded_signal e d : half_spectrum (fe_fft (e_fft e) (as_signal d)) = spectrum_of (e_fft e) d.
Proof. reflexivity. Qed.

Lemma signal_length e d : transforms_ok (e_fft e) -> length (fe_fft (e_fft e) (as_signal d)) = length d.
Proof. intros [H _]. rewrite H. apply map_length. Qed.

Lemma bounded_stored e data bound st c : env_ok e -> data <> [] -> in_memory data ->
  fft_bounded_post (e_fft e) (fft_new (st_min st) (st_max st)) c data bound ->
  stored_bins (fe_fft (e_fft e) (as_signal (gibbs_data data))) (ff_freqs c) /\ (length (ff_freqs c) <= 11 * Nat.max 3 (length data / 100))%nat /\
  freqs_ok (ff_freqs c) /\ positions_within (length (gibbs_data data)) (ff_freqs c).
Proof.
  intros [Hh Ht] Hne Hm (err & _ & [(Hf & _)|(budget & idata & Hb & Htr & _)]).
  - rewrite Hf. cbn [fft_new ff_freqs length]. split; [split; [apply Forall_nil|intros _; split; [constructor|apply Forall_nil]]|].
    split; [lia|]. split; [split; [apply Forall_nil|cbn; lia]|apply Forall_nil].
  - assert (Hd := default_freqs_ge (length data)).
    assert (Hlen : (1 <= length (gibbs_data data))%nat) by (apply gibbs_data_nonempty; exact Hne).
    assert (Hgl : Z.of_nat (length (gibbs_data data)) < 2 ^ 62).
    { destruct (gibbs_padded data Hne ltac:(unfold in_memory in Hm; lia)) as [_ [H|H]].
      - rewrite gibbs_data_length by exact Hne. destruct H as (H & -> & ->). lia.
      - rewrite gibbs_data_length by exact Hne. unfold trim_sizes, gibbs_applies. destruct (128 <=? length data)%nat eqn:Eg; [|lia]. cbn [fst snd].
        destruct (gibbs_added_spec (length data) ltac:(lia) ltac:(unfold in_memory in Hm; lia)) as [_ Ha].
        pose proof (Nat.div_le_upper_bound (gibbs_added (length data)) 2 (gibbs_added (length data)) ltac:(lia)). unfold in_memory in Hm. lia. }
    rewrite <- padded_signal in Htr.
    assert (Hsl := signal_length e (gibbs_data data) Ht).
    assert (Hsn : fe_fft (e_fft e) (as_signal (gibbs_data data)) <> []) by (intros E; rewrite E in Hsl; cbn in Hsl; lia).
    destruct (trim_stored (e_fft e) (fe_fft (e_fft e) (as_signal (gibbs_data data))) budget (ff_freqs c) Hh Hsn ltac:(lia) Htr) as (H1 & H2 & H3).
    split; [exact H1|]. split.
    { assert (Hlb := last_budget_le (default_freqs (length data)) Hd).
      assert (Hdm : (default_freqs (length data) = Nat.max 3 (length data / 100))%nat) by (unfold default_freqs; destruct (length data / 100 <=? 3)%nat eqn:E; lia).
      rewrite Hdm in *. lia. }
    destruct H1 as [H1 _]. split.
    + split; [|lia]. eapply Forall_impl; [|exact H1]. intros q (k & (_ & _ & ->) & _). unfold in_u. apply Z.mod_pos_bound. lia.
    + eapply Forall_impl; [|exact H1]. intros q (k & (Hk & _ & ->) & _). rewrite Hsl in Hk.
      pose proof (Z.mod_pos_bound (Z.of_nat k) 65536 ltac:(lia)). pose proof (Z.mod_le (Z.of_nat k) 65536 ltac:(lia) ltac:(lia)).
      assert (2 * Z.of_nat k <= Z.of_nat (length (gibbs_data data))) by lia. split; [lia|]. apply Z.div_le_lower_bound; lia.
Qed.

(** *** C23 *)
(** Bounded compression always succeeds; its frame holds bins of the transform of the padded
    series, at most 11 * max(3, n/100) of them. *)
Theorem C23_stored_frequencies : forall e p data bound, env_ok e -> data <> [] -> in_memory data ->
  exists bytes f d a b,
    compress_bounded e p FFT data bound = Ok bytes /\
    decode_unwrap dec_fft bytes = Ok f /\
    fft_padded data d a b /\
    stored_bins (fe_fft (e_fft e) (as_signal d)) (ff_freqs f) /\
    (length (ff_freqs f) <= 11 * Nat.max 3 (length data / 100))%nat.
Proof.
  intros e p data bound He Hne Hm. destruct (bounded_shape e p data bound He Hne Hm) as (st & c & Hst & _ & Hc & Hmx & Hmn & Hcase).
  exists (enc_fft c), (no_error c), (gibbs_data data), (fst (trim_sizes (length data))), (snd (trim_sizes (length data))).
  split; [exact Hc|].
  assert (Hs : stored_bins (fe_fft (e_fft e) (as_signal (gibbs_data data))) (ff_freqs c) /\ (length (ff_freqs c) <= 11 * Nat.max 3 (length data / 100))%nat /\ freqs_ok (ff_freqs c)).
  { destruct Hcase as [(_ & Hf & _)|(_ & Hp)].
    - rewrite Hf. cbn [length]. split; [split; [apply Forall_nil|intros _; split; [constructor|apply Forall_nil]]|]. split; [lia|]. split; [apply Forall_nil|cbn; lia].
    - destruct (bounded_stored e data bound st c He Hne Hm Hp) as (H1 & H2 & H3 & _). auto. }
  destruct Hs as (H1 & H2 & H3). split; [apply decode_fft; exact H3|].
  split; [apply gibbs_padded; [exact Hne|unfold in_memory in Hm; lia]|]. split; [exact H1|exact H2].
Qed.
Print Assumptions C23_stored_frequencies.

(** The frame of [fft_set] / unbounded compression: bins of the unpadded transform, at most as
    many as requested ([1] is special: the zero-frequency bin, even if it is zero). *)
Theorem C23_requested_count : forall e data m, env_ok e -> data <> [] -> in_memory data -> m <> 1%nat ->
  exists bytes f, fft_set (e_fft e) data m = Ok bytes /\ decode_unwrap dec_fft bytes = Ok f /\
    stored_bins (fe_fft (e_fft e) (as_signal data)) (ff_freqs f) /\ (length (ff_freqs f) <= m)%nat.
Proof.
  intros e data m [Hh Ht] Hne Hm Hm1. unfold fft_set. destruct data as [|x l] eqn:Ed; [congruence|]. cbn [fft_minmax bind]. rewrite <- Ed in *.
  set (mm := fold_left minmax_step data (x, x)). unfold fft_compress_hinted.
  destruct (f32_eq (ff_max (fft_new (fst mm) (snd mm))) (ff_min (fft_new (fst mm) (snd mm)))) eqn:E; cbn [bind].
  - eexists _, _. split; [reflexivity|]. split; [apply decode_fft; split; [apply Forall_nil|cbn; lia]|].
    cbn [no_error fft_new ff_freqs length]. split; [split; [apply Forall_nil|intros _; split; [constructor|apply Forall_nil]]|lia].
  - assert (Hsl := signal_length e data Ht).
    assert (Hn : (1 <= length data)%nat) by (rewrite Ed; cbn; lia).
    assert (Hsn : fe_fft (e_fft e) (as_signal data) <> []) by (intros E'; rewrite E' in Hsl; cbn in Hsl; lia).
    change (fft_optimize data) with (as_signal data).
    destruct (fft_trim_total (e_fft e) Hh (half_spectrum (fe_fft (e_fft e) (as_signal data))) m) as (fs & Hf & _).
    { rewrite half_length; lia. }
    rewrite Hf. cbn [bind]. destruct (trim_stored (e_fft e) _ m fs Hh Hsn Hm1 Hf) as (H1 & H2 & H3).
    exists (enc_fft (with_freqs (fft_new (fst mm) (snd mm)) fs)), (no_error (with_freqs (fft_new (fst mm) (snd mm)) fs)). split; [reflexivity|]. split; [|split; [exact H1|exact H2]].
    apply decode_fft. cbn [with_freqs ff_freqs]. destruct H1 as [H1 _]. split; [|unfold in_memory in Hm; lia].
    eapply Forall_impl; [|exact H1]. intros q (k & (_ & _ & ->) & _). unfold in_u. apply Z.mod_pos_bound. lia.
Qed.
Print Assumptions C23_requested_count.

(** If the heap returns elements in decreasing order of some relation, what is stored dominates
    what is not; and if fewer than requested are stored, only zero bins were left out. *)
Theorem C23_largest_kept : forall e data m bytes f (le : freq -> freq -> Prop),
  env_ok e -> data <> [] -> in_memory data -> m <> 1%nat ->
  (forall l, StronglySorted (fun x y => le y x) (fe_pops (e_fft e) l)) ->
  (forall g z, is_zero (value z) = true -> le g z -> is_zero (value g) = true) ->
  fft_set (e_fft e) data m = Ok bytes -> decode_unwrap dec_fft bytes = Ok f -> ff_freqs f <> [] ->
  (forall q g k, In q (ff_freqs f) -> is_bin (fe_fft (e_fft e) (as_signal data)) g k -> ~ In g (ff_freqs f) -> le g q) /\
  ((length (ff_freqs f) < m)%nat -> forall g k, is_bin (fe_fft (e_fft e) (as_signal data)) g k -> is_zero (value g) = false -> In g (ff_freqs f)).
Proof.
  intros e data m bytes f le [Hh Ht] Hne Hm Hm1 Hs Hz H Hd Hnn. unfold fft_set in H. destruct data as [|x l] eqn:Ed; [congruence|]. cbn [fft_minmax bind] in H. rewrite <- Ed in *.
  set (mm := fold_left minmax_step data (x, x)) in *. unfold fft_compress_hinted in H.
  destruct (f32_eq (ff_max (fft_new (fst mm) (snd mm))) (ff_min (fft_new (fst mm) (snd mm)))) eqn:E; cbn [bind] in H.
  - apply ok_inj in H. subst bytes. rewrite decode_fft in Hd by (split; [apply Forall_nil|cbn; lia]). apply ok_inj in Hd. subst f. cbn in Hnn. congruence.
  - assert (Hsl := signal_length e data Ht).
    assert (Hn : (1 <= length data)%nat) by (rewrite Ed; cbn; lia).
    assert (Hsn : fe_fft (e_fft e) (as_signal data) <> []) by (intros E'; rewrite E' in Hsl; cbn in Hsl; lia).
    change (fft_optimize data) with (as_signal data) in H. set (t := fe_fft (e_fft e) (as_signal data)) in *.
    destruct (fft_trim_total (e_fft e) Hh (half_spectrum t) m) as (fs & Hf & _).
    { rewrite half_length; lia. }
    rewrite Hf in H. cbn [bind] in H. apply ok_inj in H. subst bytes. destruct (trim_stored (e_fft e) _ m fs Hh Hsn Hm1 Hf) as (H1 & H2 & H3).
    rewrite decode_fft in Hd.
    2:{ cbn [with_freqs ff_freqs]. destruct H1 as [H1 _]. split; [|unfold in_memory in Hm; lia].
        eapply Forall_impl; [|exact H1]. intros q (k & (_ & _ & ->) & _). unfold in_u. apply Z.mod_pos_bound. lia. }
    apply ok_inj in Hd. subst f. cbn [no_error with_freqs ff_freqs] in *.
    assert (Hin : forall g k, is_bin t g k -> In g (bins (half_spectrum t))).
    { intros g k (Hk & Hg & Hp). unfold value in Hg. assert (Hh' : nth_error (half_spectrum t) k = Some (fq_re g, fq_im g)).
      { etransitivity; [|exact Hg]. unfold half_spectrum. assert (Hkk : (k < length t / 2 + 1)%nat).
        { pose proof (Nat.div_mod (length t) 2 ltac:(lia)). pose proof (Nat.mod_upper_bound (length t) 2 ltac:(lia)). lia. }
        now apply nth_firstn. }
      apply bins_nth in Hh'. apply nth_error_In in Hh'. destruct g as [gp gr gi]. cbn [fq_pos fq_re fq_im] in *. rewrite Hp. exact Hh'. }
    destruct (fft_trim_order (e_fft e) Hh le (half_spectrum t) m fs Hs Hm1 Hf) as [O1 O2]. split.
    + intros q g k Hq Hg Hng. eapply O1; eauto.
    + intros Hlt g k Hg Hnz. destruct O2 as [O2|[O2|(z & Hz0 & O2)]]; [lia|eauto|].
      destruct (O2 g (Hin g k Hg)) as [O3|[->|O3]]; [exact O3| |].
      * exfalso. change (freq_is_zero z = false) in Hnz. congruence.
      * exfalso. assert (Hg0 : is_zero (value g) = true) by (apply (Hz g z); [exact Hz0|exact O3]). rewrite Hg0 in Hnz. discriminate.
Qed.
Print Assumptions C23_largest_kept.

(** *** C24 *)
(** Decompressing what bounded compression produced returns as many samples as were given; they are the middle
    of a series as long as the padded one, with exactly the padding cut off. In particular, if the rounded
    inverse transform reproduces the padded series, the original series is returned. *)
Theorem C24_padding_undone : forall e p data bound bytes, env_ok e -> data <> [] -> in_memory data ->
  compress_bounded e p FFT data bound = Ok bytes ->
  exists f d a b out,
    decode_unwrap dec_fft bytes = Ok f /\
    fft_padded data d a b /\
    decompress e p FFT (length data) bytes = Ok out /\ length out = length data /\
    (f32_eq (ff_max f) (ff_min f) = true /\ out = repeat (f32_as_f64 (ff_max f)) (length data) \/
     exists full pre post, full = pre ++ out ++ post /\ length pre = a /\ length post = b /\ length full = length d /\
       (exists spectrum, get_mirrored_freqs f (length d) = Ok spectrum /\ full = fft_scale f (length d) (fe_ifft (e_fft e) spectrum)) /\
       (full = d -> out = data)).
Proof.
  intros e p data bound bytes He Hne Hm H. destruct (bounded_shape e p data bound He Hne Hm) as (st & c & Hst & _ & Hc & Hmx & Hmn & Hcase).
  rewrite Hc in H. apply ok_inj in H. subst bytes.
  exists (no_error c), (gibbs_data data), (fst (trim_sizes (length data))), (snd (trim_sizes (length data))).
  assert (Hpad := gibbs_padded data Hne ltac:(unfold in_memory in Hm; lia)).
  assert (Hn : (1 <= length data)%nat) by (destruct data; [congruence|cbn; lia]).
  assert (Hgl := gibbs_data_length data Hne).
  destruct Hcase as [(E & Hf & _)|(E & Hp)].
  - exists (repeat (f32_as_f64 (ff_max c)) (length data)).
    assert (Hd : decode_unwrap dec_fft (enc_fft c) = Ok (no_error c)) by (apply decode_fft; rewrite Hf; split; [apply Forall_nil|cbn; lia]).
    split; [exact Hd|]. split; [exact Hpad|]. split.
    { cbn [decompress]. unfold fft_to_data. rewrite Hd. cbn [bind]. unfold fft_expand. cbn [no_error ff_max ff_min]. rewrite E. reflexivity. }
    split; [apply repeat_length|]. left. split; [exact E|reflexivity].
  - destruct (bounded_stored e data bound st c He Hne Hm Hp) as (_ & _ & Hok & Hw). assert (Hd := decode_fft c Hok).
    destruct He as [Hh Ht]. rewrite Hgl in Hw.
    destruct (fft_expand_spec (e_fft e) Ht (no_error c) (length data) E Hn Hw) as (spec & Hsp & Hex & Hil).
    set (N := (length data + fst (trim_sizes (length data)) + snd (trim_sizes (length data)))%nat) in *.
    set (a := fst (trim_sizes (length data))) in *. set (b := snd (trim_sizes (length data))) in *.
    set (full := fft_scale (no_error c) N (fe_ifft (e_fft e) spec)) in *.
    assert (Lf : length full = N) by (unfold full, fft_scale; etransitivity; [apply map_length|exact Hil]).
    exists (firstn (length data) (skipn a full)). split; [exact Hd|]. split; [exact Hpad|]. split.
    { cbn [decompress]. unfold fft_to_data. rewrite Hd. cbn [bind]. exact Hex. }
    split; [rewrite firstn_length, skipn_length, Lf; unfold N; lia|]. right.
    exists full, (firstn a full), (skipn (length data) (skipn a full)). split; [now rewrite !firstn_skipn|].
    split; [rewrite firstn_length, Lf; unfold N; lia|]. split; [rewrite !skipn_length, Lf; unfold N; lia|].
    rewrite Hgl. split; [exact Lf|]. split; [exists spec; split; [exact Hsp|reflexivity]|].
    intros Heq. destruct Hpad as [(x & y & _ & _ & Hg) _]. rewrite Heq, Hg.
    rewrite skipn_app, repeat_length, Nat.sub_diag, skipn_all2 by (rewrite repeat_length; lia). cbn [skipn app].
    rewrite firstn_app, Nat.sub_diag, firstn_all. cbn [firstn]. apply app_nil_r.
Qed.
Print Assumptions C24_padding_undone.

(** *** C25 *)
Lemma fft_round_range c x : fle (f32_as_f64 (ff_min c)) (f32_as_f64 (ff_max c)) = true ->
  fis_nan (fft_round c x) = true \/
  (fle (f32_as_f64 (ff_min c)) (fft_round c x) = true /\ fle (fft_round c x) (f32_as_f64 (ff_max c)) = true).
Proof.
  intros H. destruct (fle_nan _ _ H) as [Nn Nx]. unfold fft_round. cbv zeta.
  set (out := fdiv _ _).
  destruct (fgt out (f32_as_f64 (ff_max c))) eqn:E2; [right; split; [exact H|now apply fle_refl]|].
  destruct (flt out (f32_as_f64 (ff_min c))) eqn:E1; [right; split; [now apply fle_refl|exact H]|].
  destruct (fis_nan out) eqn:E3; [now left|right]. split.
  - now apply flt_false_le.
  - rewrite fgt_flt in E2. now apply flt_false_le.
Qed.

(** For every frame whose stored range is ordered (infinities allowed), whatever the inverse transform computes. *)
Theorem C25_any_frame_in_range : forall e p bytes f n out,
  decode_unwrap dec_fft bytes = Ok f ->
  fle (f32_as_f64 (ff_min f)) (f32_as_f64 (ff_max f)) = true ->
  decompress e p FFT n bytes = Ok out ->
  Forall (fun y => fis_nan y = true \/
                   (fle (f32_as_f64 (ff_min f)) y = true /\ fle y (f32_as_f64 (ff_max f)) = true)) out.
Proof.
  intros e p bytes f n out Hd Hle Ho. cbn [decompress] in Ho. unfold fft_to_data in Ho. rewrite Hd in Ho. cbn [bind] in Ho.
  unfold fft_expand in Ho. destruct (f32_eq (ff_max f) (ff_min f)).
  - apply ok_inj in Ho. subst out. apply Forall_forall. intros y Hy. apply repeat_spec in Hy. subst y. right. split; [exact Hle|].
    apply fle_refl. apply (fle_nan _ _ Hle).
  - destruct (trim_sizes n) as [a b]. destruct (get_mirrored_freqs f (n + a + b)) as [d|]; [|discriminate]. cbn [bind] in Ho.
    apply ok_inj in Ho. subst out. unfold fft_scale. apply Forall_map, Forall_forall. intros y _. now apply fft_round_range.
Qed.
Print Assumptions C25_any_frame_in_range.

Lemma minmax_fold l : forall mn mx, Forall finite l -> finite mn -> finite mx ->
  let r := fold_left minmax_step l (mn, mx) in
  finite (fst r) /\ finite (snd r) /\ (In (fst r) (mn :: l)) /\ (In (snd r) (mx :: l)) /\
  (R64 (fst r) <= R64 mn)%R /\ (R64 mx <= R64 (snd r))%R /\
  Forall (fun y => (R64 (fst r) <= R64 y <= R64 (snd r))%R) l.
Proof.
  induction l as [|x l IH]; intros mn mx Hf Fn Fx; cbv zeta; cbn [fold_left].
  - cbn [fst snd]. repeat split; auto; try lra; try now left.
  - inversion Hf as [|? ? F1 F2]; subst. cbn [minmax_step].
    assert (Hn : finite (if flt x mn then x else mn) /\ (R64 (if flt x mn then x else mn) <= R64 mn)%R /\ (R64 (if flt x mn then x else mn) <= R64 x)%R).
    { destruct (flt x mn) eqn:E; [apply flt_R in E; auto; repeat split; auto; lra|]. repeat split; auto; try lra.
      destruct (Rlt_or_le (R64 x) (R64 mn)) as [H|H]; [|exact H]. apply flt_R in H; auto. congruence. }
    assert (Hx : finite (if fgt x mx then x else mx) /\ (R64 mx <= R64 (if fgt x mx then x else mx))%R /\ (R64 x <= R64 (if fgt x mx then x else mx))%R).
    { destruct (fgt x mx) eqn:E; [apply fgt_R in E; auto; repeat split; auto; lra|]. repeat split; auto; try lra.
      destruct (Rlt_or_le (R64 mx) (R64 x)) as [H|H]; [|exact H]. apply fgt_R in H; auto. congruence. }
    destruct Hn as (N1 & N2 & N3), Hx as (X1 & X2 & X3).
    specialize (IH _ _ F2 N1 X1). cbv zeta in IH. destruct IH as (I1 & I2 & I3 & I4 & I5 & I6 & I7).
    split; [exact I1|]. split; [exact I2|].
    split; [destruct I3 as [I3|I3]; [rewrite <- I3; destruct (flt x mn); cbn; auto|right; right; exact I3]|].
    split; [destruct I4 as [I4|I4]; [rewrite <- I4; destruct (fgt x mx); cbn; auto|right; right; exact I4]|].
    split; [lra|]. split; [lra|]. apply Forall_cons; [lra|exact I7].
Qed.

(** The value of the least (greatest) sample. *)
Definition least_value (data : list f64) (r : R) : Prop := (exists x, In x data /\ R64 x = r) /\ Forall (fun y => (r <= R64 y)%R) data.
Definition greatest_value (data : list f64) (r : R) : Prop := (exists x, In x data /\ R64 x = r) /\ Forall (fun y => (R64 y <= r)%R) data.

Lemma least_unique data r s : least_value data r -> least_value data s -> r = s.
Proof. intros [(x & Hx & <-) H1] [(y & Hy & <-) H2]. rewrite Forall_forall in H1, H2. apply Rle_antisym; auto. Qed.
Lemma greatest_unique data r s : greatest_value data r -> greatest_value data s -> r = s.
Proof. intros [(x & Hx & <-) H1] [(y & Hy & <-) H2]. rewrite Forall_forall in H1, H2. apply Rle_antisym; auto. Qed.

(** Every frame produced has the range of its samples, in single precision. *)
Lemma produced_range e p data bytes : env_ok e -> data <> [] -> in_memory data -> Forall finite data -> produced e p FFT data bytes ->
  exists f mn mx, decode_unwrap dec_fft bytes = Ok f /\ ff_min f = f64_as_f32 mn /\ ff_max f = f64_as_f32 mx /\ finite mn /\ finite mx /\
    least_value data (R64 mn) /\ greatest_value data (R64 mx).
Proof.
  intros He Hne Hm Hf [H|[bound H]].
  - destruct (data_stats_total data Hne) as [st Hst]. unfold compress in H. rewrite Hst in H. cbn [bind] in H.
    unfold fft in H. change (fft_set (e_fft e) data (default_freqs (length data)) = Ok bytes) in H.
    assert (Hd3 := default_freqs_ge (length data)).
    destruct (C23_requested_count e data (default_freqs (length data)) He Hne Hm ltac:(lia)) as (bs & f & Hb & Hd & _). rewrite Hb in H. apply ok_inj in H. subst bs.
    exists f. unfold fft_set in Hb. destruct data as [|x l] eqn:Ed; [congruence|]. cbn [fft_minmax bind] in Hb. rewrite <- Ed in *.
    assert (Fx : finite x) by (rewrite Forall_forall in Hf; apply Hf; rewrite Ed; now left).
    assert (Hmm := minmax_fold data x x Hf Fx Fx). cbv zeta in Hmm. set (mm := fold_left minmax_step data (x, x)) in *.
    destruct Hmm as (M1 & M2 & M3 & M4 & _ & _ & M7). exists (fst mm), (snd mm). split; [exact Hd|].
    assert (Hx : In x data) by (rewrite Ed; now left).
    assert (Hff : exists c, bytes = enc_fft c /\ freqs_ok (ff_freqs c) /\ ff_min c = f64_as_f32 (fst mm) /\ ff_max c = f64_as_f32 (snd mm)).
    { destruct (fft_compress_hinted (e_fft e) (fft_new (fst mm) (snd mm)) data (default_freqs (length data))) as [c|] eqn:Ec; [|discriminate].
      cbn [bind] in Hb. apply ok_inj in Hb. exists c. split; [congruence|]. unfold fft_compress_hinted in Ec.
      destruct (f32_eq _ _).
      - apply ok_inj in Ec. subst c. split; [split; [apply Forall_nil|cbn; lia]|split; reflexivity].
      - destruct He as [Hh Ht]. assert (Hsl := signal_length e data Ht). change (fft_optimize data) with (as_signal data) in Ec.
        assert (Hn : (1 <= length data)%nat) by (rewrite Ed; cbn; lia).
        assert (Hsn : fe_fft (e_fft e) (as_signal data) <> []) by (intros E'; rewrite E' in Hsl; cbn in Hsl; lia).
        destruct (fft_trim (e_fft e) (half_spectrum (fe_fft (e_fft e) (as_signal data))) (default_freqs (length data))) as [fs|] eqn:Et; [|discriminate].
        cbn [bind] in Ec. apply ok_inj in Ec. subst c. split; [|split; reflexivity].
        destruct (trim_stored (e_fft e) (fe_fft (e_fft e) (as_signal data)) (default_freqs (length data)) fs Hh Hsn ltac:(clear -Hd3; lia) Et) as ([H1 _] & _ & H3). cbn [with_freqs ff_freqs]. split; [|clear -Hm H3 Hsl; unfold in_memory in Hm; lia].
        eapply Forall_impl; [|exact H1]. intros q (k & (_ & _ & ->) & _). unfold in_u. apply Z.mod_pos_bound. lia. }
    destruct Hff as (c & -> & Hok & C1 & C2). rewrite decode_fft in Hd by exact Hok. apply ok_inj in Hd. subst f. cbn [no_error ff_min ff_max].
    split; [exact C1|]. split; [exact C2|]. split; [exact M1|]. split; [exact M2|]. split.
    + split; [exists (fst mm); split; [destruct M3 as [<-|M3]; auto|reflexivity]|]. eapply Forall_impl; [|exact M7]. cbn. intros y Hy. lra.
    + split; [exists (snd mm); split; [destruct M4 as [<-|M4]; auto|reflexivity]|]. eapply Forall_impl; [|exact M7]. cbn. intros y Hy. lra.
  - destruct (bounded_shape e p data bound He Hne Hm) as (st & c & Hst & _ & Hc & Hmx & Hmn & Hcase).
    rewrite Hc in H. apply ok_inj in H. subst bytes. exists (no_error c), (st_min st), (st_max st).
    split. { apply decode_fft. destruct Hcase as [(_ & Hff & _)|(_ & Hp)]; [rewrite Hff; split; [apply Forall_nil|cbn; lia]|].
             apply (bounded_stored e data bound st c He Hne Hm Hp). }
    split; [exact Hmn|]. split; [exact Hmx|].
    destruct (stats_facts data Hne Hf) as (st' & Hst' & Fn & Fx & _ & [i Hi] & [j Hj]). rewrite Hst in Hst'. apply ok_inj in Hst'. subst st'.
    split; [exact Fn|]. split; [exact Fx|]. split.
    + destruct Hi as (H1 & H2 & _). split; [exists (st_min st); split; [eapply nth_error_In; eauto|reflexivity]|exact H2].
    + destruct Hj as (H1 & H2 & _). split; [exists (st_max st); split; [eapply nth_error_In; eauto|reflexivity]|exact H2].
Qed.

(** For every frame made by compressing finite samples of magnitude at most 2^127, whatever the transforms
    compute and however many samples are asked for: NaN, or between the minimum and maximum of the original
    series rounded to single precision. *)
Theorem C25_output_in_range : forall e p data bytes n out mn mx,
  env_ok e -> data <> [] -> in_memory data ->
  Forall (fun x => finite x /\ (Rabs (R64 x) <= bpow radix2 127)%R) data ->
  produced e p FFT data bytes -> least_value data mn -> greatest_value data mx ->
  decompress e p FFT n bytes = Ok out ->
  let single r := round radix2 (FLT_exp (-149) 24) ZnearestE r in
  Forall (fun y => fis_nan y = true \/ (finite y /\ (single mn <= R64 y <= single mx)%R)) out.
Proof.
  intros e p data bytes n out mn mx He Hne Hm Hf Hp Hmn Hmx Ho single.
  assert (Hf' : Forall finite data) by (eapply Forall_impl; [|exact Hf]; cbn; tauto).
  destruct (produced_range e p data bytes He Hne Hm Hf' Hp) as (f & xn & xx & Hd & E1 & E2 & Fn & Fx & Ln & Lx).
  assert (Bn : (Rabs (R64 xn) <= bpow radix2 127)%R) by (destruct Ln as [(y & Hy & <-) _]; rewrite Forall_forall in Hf; now apply Hf).
  assert (Bx : (Rabs (R64 xx) <= bpow radix2 127)%R) by (destruct Lx as [(y & Hy & <-) _]; rewrite Forall_forall in Hf; now apply Hf).
  rewrite (least_unique _ _ _ Hmn Ln), (greatest_unique _ _ _ Hmx Lx).
  assert (Hle : (R64 xn <= R64 xx)%R).
  { destruct Ln as [_ H1]. destruct Lx as [(y & Hy & <-) _]. rewrite Forall_forall in H1. auto. }
  assert (Hall := C25_any_frame_in_range e p bytes f n out Hd).
  rewrite E1, E2 in Hall. specialize (Hall (f32_mono xn xx Fn Fx Hle) Ho).
  destruct (f64_as_f32_fin xn Fn Bn) as [G1 G2]. destruct (f64_as_f32_fin xx Fx Bx) as [G3 G4].
  destruct (f32_as_f64_R _ G1) as [K1 K2]. destruct (f32_as_f64_R _ G3) as [K3 K4].
  eapply Forall_impl; [|exact Hall]. intros y [Hy|[Hy1 Hy2]]; [now left|right].
  destruct (between_finite _ _ _ K1 K3 Hy1 Hy2) as [Fy By]. split; [exact Fy|]. rewrite K2, K4, G2, G4 in By. exact By.
Qed.
Print Assumptions C25_output_in_range.

(** Without the magnitude bound the stored range is still ordered (values too large for single precision become
    infinities), so [C25_any_frame_in_range] applies. *)
Theorem C25_produced_range_ordered : forall e p data bytes,
  env_ok e -> data <> [] -> in_memory data -> Forall finite data -> produced e p FFT data bytes ->
  exists f, decode_unwrap dec_fft bytes = Ok f /\ fle (f32_as_f64 (ff_min f)) (f32_as_f64 (ff_max f)) = true.
Proof.
  intros e p data bytes He Hne Hm Hf Hp.
  destruct (produced_range e p data bytes He Hne Hm Hf Hp) as (f & xn & xx & Hd & E1 & E2 & Fn & Fx & Ln & Lx).
  exists f. split; [exact Hd|]. rewrite E1, E2. apply f32_mono; auto.
  destruct Ln as [_ H1]. destruct Lx as [(y & Hy & <-) _]. rewrite Forall_forall in H1. auto.
Qed.
Print Assumptions C25_produced_range_ordered.

(** *** C26 *)
(** [c'] is the complex conjugate of [c] (of a zero: zero; nothing is said about the sign of a NaN). *)
Definition conjugate (c c' : c32) : Prop :=
  fst c' = fst c /\
  (snd c' = Binary.Bopp 24 128 unop_nan_pl32 (snd c) \/ (snd c = f32_zero /\ snd c' = f32_zero) \/ Binary.is_nan 24 128 (snd c) = true).

Lemma inv_conjugate q : conjugate (to_complex q) (to_inv_complex q).
Proof.
  split; [reflexivity|]. cbn [to_complex to_inv_complex snd]. destruct (Binary.is_nan 24 128 (fq_im q)) eqn:E; [now right; right|left]. now apply f32_neg.
Qed.

(** The frame size on which [n] samples are rebuilt, with [a] samples cut in front. *)
Definition rebuilt_size (n N a : nat) : Prop :=
  (n < 128)%nat /\ N = n /\ a = 0%nat \/
  (128 <= n)%nat /\ least_smooth_above (Z.of_nat n) (Z.of_nat N) /\ a = ((N - n) / 2)%nat.

Lemma rebuilt_eq n N a : (1 <= n)%nat -> Z.of_nat n < 2 ^ 62 -> rebuilt_size n N a ->
  N = (n + fst (trim_sizes n) + snd (trim_sizes n))%nat /\ a = fst (trim_sizes n).
Proof.
  intros Hn Hb H. unfold trim_sizes, gibbs_applies. destruct (128 <=? n)%nat eqn:E; destruct H as [(H & -> & ->)|(H & Hl & ->)]; try lia; cbn [fst snd].
  - destruct (gibbs_added_spec n Hn Hb) as [H1 H2]. destruct (next_size_spec (Z.of_nat n) ltac:(lia)) as (N1 & N2 & N3 & _).
    destruct Hl as (L1 & L2 & L3). assert (Z.of_nat N = next_size (Z.of_nat n)).
    { apply Z.le_antisymm; [apply L3; [lia|exact N2]|]. destruct (Z.le_gt_cases (next_size (Z.of_nat n)) (Z.of_nat N)) as [|Hlt]; [assumption|].
      exfalso. exact (N3 _ (conj L1 Hlt) L2). }
    replace (N - n)%nat with (gibbs_added n) by lia.
    pose proof (Nat.div_le_upper_bound (gibbs_added n) 2 (gibbs_added n) ltac:(lia)). lia.
  - split; lia.
Qed.

(** Decompression rebuilds a full spectrum of the frame's size: every bin of the lower half holds the stored
    frequency of that number, or zero if there is none; the upper half mirrors it with conjugates (the middle
    bin of an even frame is replaced by its conjugate). The result is the rounded inverse transform of it. *)
Theorem C26_mirrored_spectrum : forall e p bytes f n N a, transforms_ok (e_fft e) ->
  decode_unwrap dec_fft bytes = Ok f -> f32_eq (ff_max f) (ff_min f) = false ->
  (1 <= n)%nat -> Z.of_nat n < 2 ^ 62 -> rebuilt_size n N a ->
  Forall (fun q => 0 <= 2 * fq_pos q <= Z.of_nat N) (ff_freqs f) -> 
  exists spec, length spec = N /\
    decompress e p FFT n bytes = Ok (firstn n (skipn a (fft_scale f N (fe_ifft (e_fft e) spec)))) /\
    (forall k, (2 * k < N)%nat ->
       (exists q, In q (ff_freqs f) /\ fq_pos q = Z.of_nat k /\ nth_error spec k = Some (value q)) \/
       ((forall q, In q (ff_freqs f) -> fq_pos q <> Z.of_nat k) /\ nth_error spec k = Some (f32_zero, f32_zero))) /\
    (forall k, (0 < k)%nat -> (2 * k < N)%nat -> exists c c', nth_error spec k = Some c /\ nth_error spec (N - k) = Some c' /\ conjugate c c') /\
    (forall k, (2 * k = N)%nat ->
       (exists q c, In q (ff_freqs f) /\ fq_pos q = Z.of_nat k /\ nth_error spec k = Some c /\ conjugate (value q) c) \/
       ((forall q, In q (ff_freqs f) -> fq_pos q <> Z.of_nat k) /\ nth_error spec k = Some (f32_zero, f32_zero))).
Proof.
  intros e p bytes f n N a Ht Hd Hc Hn Hb Hrs Hpos. destruct (rebuilt_eq n N a Hn Hb Hrs) as [HN Ha].
  assert (Hw : positions_within N (ff_freqs f)).
  { eapply Forall_impl; [|exact Hpos]. cbv beta. intros q Hq. split; [lia|]. apply Z.div_le_lower_bound; lia. }
  rewrite HN in Hw. destruct (fft_expand_spec (e_fft e) Ht f n Hc Hn Hw) as (spec & Hsp & Hex & _). rewrite <- HN in *.
  destruct (mirrored_spec f N ltac:(lia) Hw) as (spec' & Hsp' & Hl & Hdc & Hm & Hny). rewrite Hsp in Hsp'. apply ok_inj in Hsp'. subst spec'.
  exists spec. split; [exact Hl|]. split. { cbn [decompress]. unfold fft_to_data. rewrite Hd. cbn [bind]. rewrite Ha. exact Hex. }
  split; [|split].
  - intros k Hk. destruct k as [|k].
    + destruct Hdc as [(q & H1 & H2 & H3)|(H1 & H2)]; [left; exists q|right; split]; auto.
    + destruct (Hm (S k) ltac:(lia) Hk) as [(q & H1 & H2 & H3 & _)|(H1 & H2 & _)]; [left; exists q|right; split]; auto.
  - intros k H0 Hk. destruct (Hm k H0 Hk) as [(q & H1 & H2 & H3 & H4)|(H1 & H2 & H3)].
    + exists (to_complex q), (to_inv_complex q). split; [exact H3|]. split; [exact H4|]. apply inv_conjugate.
    + exists zero_c, zero_c. split; [exact H2|]. split; [exact H3|]. split; [reflexivity|]. right. left. split; reflexivity.
  - intros k Hk. assert (E : (N / 2 = k)%nat) by (rewrite <- Hk, Nat.mul_comm; apply Nat.div_mul; lia).
    assert (Hmod : (N mod 2 = 0)%nat) by (rewrite <- Hk, Nat.mul_comm; apply Nat.mod_mul; lia).
    specialize (Hny ltac:(lia) Hmod). unfold nyquist_at in Hny. rewrite E in Hny.
    destruct Hny as [(q & H1 & H2 & H3)|(H1 & H2)]; [left; exists q, (to_inv_complex q)|right; split]; auto.
    split; [exact H1|]. split; [exact H2|]. split; [exact H3|]. apply inv_conjugate.
Qed.
Print Assumptions C26_mirrored_spectrum.

Lemma set_nth_length {A} i (v : A) l l' : set_nth i v l = Ok l' -> length l' = length l /\ (i < length l)%nat.
Proof.
  intros H. destruct (Nat.lt_ge_cases i (length l)) as [Hi|Hi].
  - destruct (set_nth_ok i v l Hi) as (l2 & H2 & H3 & _). rewrite H2 in H. apply ok_inj in H. subst. auto.
  - rewrite set_nth_panic in H by exact Hi. discriminate.
Qed.

Lemma mirror_step_length len d q d' : mirror_step len d q = Ok d' -> length d' = length d /\ (Z.to_nat (fq_pos q) < length d)%nat.
Proof.
  unfold mirror_step. destruct (set_nth (Z.to_nat (fq_pos q)) (to_complex q) d) as [d1|] eqn:E; [|discriminate]. cbn [bind].
  apply set_nth_length in E. destruct E as [E1 E2]. destruct (Z.to_nat (fq_pos q) =? 0)%nat; intros H.
  - apply ok_inj in H. subst. auto.
  - apply set_nth_length in H. destruct H as [H1 _]. split; [|exact E2]. etransitivity; [exact H1|exact E1].
Qed.

(** A frame with a bin number beyond the rebuilt size makes decompression panic (an index out of bounds): a
    damaged frame, or one read with too small a sample count, is not silently accepted. *)
Theorem C26_out_of_range_panics : forall e p bytes f n N a q,
  decode_unwrap dec_fft bytes = Ok f -> f32_eq (ff_max f) (ff_min f) = false ->
  (1 <= n)%nat -> Z.of_nat n < 2 ^ 62 -> rebuilt_size n N a ->
  In q (ff_freqs f) -> Z.of_nat N <= fq_pos q ->
  exists x, decompress e p FFT n bytes = Panic x.
Proof.
  intros e p bytes f n N a q Hd Hc Hn Hb Hrs Hq Hpos. destruct (rebuilt_eq n N a Hn Hb Hrs) as [HN Ha].
  cbn [decompress]. unfold fft_to_data. rewrite Hd. cbn [bind]. unfold fft_expand. rewrite Hc.
  destruct (trim_sizes n) as [u v]. cbn [fst snd] in HN. rewrite <- HN.
  destruct (get_mirrored_freqs f N) as [d|x] eqn:E; [|exists x; reflexivity]. exfalso.
  unfold get_mirrored_freqs in E. assert (Hl : length (repeat (f32_zero, f32_zero) N) = N) by apply repeat_length.
  revert E Hl. generalize (repeat (f32_zero, f32_zero) N) as d0. intros d0. revert d0 Hq. induction (ff_freqs f) as [|q' fs IH]; intros d0 Hq E Hl; [destruct Hq|].
  cbn [fold_res] in E. destruct (mirror_step N d0 q') as [d1|] eqn:E1; [|discriminate]. cbn [bind] in E. apply mirror_step_length in E1.
  destruct E1 as [L1 L2]. destruct Hq as [->|Hq]; [|apply (IH d1 Hq E); etransitivity; [exact L1|exact Hl]].
  assert (L3 : (Z.to_nat (fq_pos q) < N)%nat) by (rewrite <- Hl; exact L2). lia.
Qed.
Print Assumptions C26_out_of_range_panics.

(** *** C44 *)
(** The error reported with a Fourier frame: zero if the range collapses to one single-precision number, or a
    bound so large that nothing is stored, or exactly the error metric between the padded series and the rounded
    inverse transform of the stored frequencies (whose middle is what decompression returns, C24); and then, in
    thousandths, it does not exceed the bound unless the last round (with [last_budget] frequencies) was reached. *)
Theorem C44_fft_reported_error : forall e p data bound r, env_ok e -> data <> [] -> in_memory data ->
  compress_results e p FFT data bound = Ok r ->
  exists f, decode_unwrap dec_fft (cr_data r) = Ok f /\
  ((f32_eq (ff_max f) (ff_min f) = true /\ cr_error r = f0) \/
   (ff_freqs f = [] /\ cr_error r = fadd bound f1 /\ permille (fadd bound f1) <= permille bound) \/
   exists d a b spectrum, fft_padded data d a b /\ get_mirrored_freqs f (length d) = Ok spectrum /\
     calculate_error d (fft_scale f (length d) (fe_ifft (e_fft e) spectrum)) = Ok (cr_error r) /\
     (permille (cr_error r) <= permille bound \/
      fft_trim (e_fft e) (half_spectrum (fe_fft (e_fft e) (as_signal d))) (last_budget (default_freqs (length data))) = Ok (ff_freqs f))).
Proof.
  intros e p data bound r He Hne Hm H. destruct (bounded_shape e p data bound He Hne Hm) as (st & c & Hst & Hr & Hc & Hmx & Hmn & Hcase).
  rewrite Hr in H. apply ok_inj in H. subst r. cbn [cr_data cr_error]. exists (no_error c).
  destruct Hcase as [(E & Hf & Her)|(E & Hp)].
  - split; [apply decode_fft; rewrite Hf; split; [apply Forall_nil|cbn; lia]|]. left. split; [exact E|]. now rewrite Her.
  - destruct (bounded_stored e data bound st c He Hne Hm Hp) as (_ & _ & Hok & _). split; [now apply decode_fft|]. right.
    destruct Hp as (err & -> & [(Hf & -> & Hx)|(budget & idata & Hb & Htr & Hmir & Hce & Hx)]); [left|right].
    + split; [exact Hf|]. split; [reflexivity|]. lia.
    + exists (gibbs_data data), (fst (trim_sizes (length data))), (snd (trim_sizes (length data))), idata.
      split; [apply gibbs_padded; [exact Hne|unfold in_memory in Hm; lia]|]. split; [exact Hmir|]. split; [exact Hce|].
      destruct Hx as [Hx| ->]; [left; exact Hx|right; exact Htr].
Qed.
Print Assumptions C44_fft_reported_error.

(** *** Witnesses *)
(** A transform with a single non-zero bin, number 65536; and a heap that returns non-zero elements first. *)
Definition wrap_bin (k : nat) : c32 := if Z.of_nat k =? 65536 then (int_as_f32 1, f32_zero) else (f32_zero, f32_zero).
Definition wrap_env : env :=
  {| e_idw := fun _ _ _ => f0;
     e_fft := {| fe_fft := fun l => map wrap_bin (seq 0 (length l)); fe_ifft := fun l => l;
                 fe_pops := fun l => filter (fun q => negb (freq_is_zero q)) l ++ filter freq_is_zero l |} |}.
Lemma split_perm (l : list freq) : Permutation (filter (fun q => negb (freq_is_zero q)) l ++ filter freq_is_zero l) l.
Proof.
  induction l as [|q l IH]; [constructor|]. cbn [filter]. destruct (freq_is_zero q); cbn [negb app].
  - eapply Permutation_trans; [apply Permutation_sym, Permutation_middle|]. now constructor.
  - now constructor.
Qed.
Lemma wrap_env_ok : env_ok wrap_env.
Proof. split; [exact split_perm|]. split; [|reflexivity]. intros l. cbn. now rewrite map_length, seq_length. Qed.

Definition wrap_data (n : nat) : list f64 := f1 :: repeat f0 n.
Lemma wrap_len n : Z.of_nat n = 131071 -> Z.of_nat (length (wrap_data n)) = 131072.
Proof. intros H. unfold wrap_data. cbn [length]. rewrite repeat_length. lia. Qed.

(** With 131072 samples (the largest chunk) frequencies of bin 65536 and above are stored under a wrong number:
    here bin 65536 is stored as bin 0 and bin 0 itself is zero. *)
Definition stored_under_wrong_number (e : env) (data : list f64) : Prop :=
  exists p bytes f d a b q k65536, Z.of_nat k65536 = 65536 /\
  compress_bounded e p FFT data f0 = Ok bytes /\
  decode_unwrap dec_fft bytes = Ok f /\ fft_padded data d a b /\ In q (ff_freqs f) /\
  fq_pos q = 0 /\ is_bin (fe_fft (e_fft e) (as_signal d)) q k65536 /\
  nth_error (fe_fft (e_fft e) (as_signal d)) 0 = Some (f32_zero, f32_zero) /\ is_zero (value q) = false.

Lemma wrap_witness n : Z.of_nat n = 131071 -> stored_under_wrong_number wrap_env (wrap_data n).
Proof.
  intros Hnn. exists Dev. set (wrap_data := wrap_data n). assert (wrap_len := wrap_len n Hnn : Z.of_nat (length wrap_data) = 131072).
  assert (Hne : wrap_data <> []) by discriminate.
  assert (Hm : in_memory wrap_data) by (unfold in_memory; rewrite wrap_len; lia).
  destruct (bounded_shape wrap_env Dev wrap_data f0 wrap_env_ok Hne Hm) as (st & c & Hst & _ & Hc & Hmx & Hmn & Hcase).
  assert (Hf : Forall finite wrap_data).
  { subst wrap_data. apply Forall_cons; [exact f1_finite|]. apply Forall_forall. intros y Hy. apply repeat_spec in Hy. subst. exact f0_finite. }
  destruct (stats_facts wrap_data Hne Hf) as (st' & Hst' & Fn & Fx & Hle & [i Hi] & [j Hj]). rewrite Hst in Hst'. apply ok_inj in Hst'. subst st'.
  assert (Hvals : forall x, In x wrap_data -> x = f1 \/ x = f0) by (intros x [<-|Hx]; [now left|right; now apply repeat_spec in Hx]).
  assert (H0 : In f0 wrap_data).
  { subst wrap_data. destruct n as [|n']; [lia|]. right. left. reflexivity. }
  assert (Rn : R64 (st_min st) = 0%R).
  { destruct Hi as (I1 & I2 & _). rewrite Forall_forall in I2. specialize (I2 f0 H0). rewrite f0_R in I2.
    apply nth_error_In in I1. destruct (Hvals _ I1) as [E|E]; rewrite E in I2 |- *; [rewrite f1_R in I2; lra|apply f0_R]. }
  assert (Rx : R64 (st_max st) = 1%R).
  { destruct Hj as (I1 & I2 & _). rewrite Forall_forall in I2. specialize (I2 f1 (or_introl eq_refl)). rewrite f1_R in I2.
    apply nth_error_In in I1. destruct (Hvals _ I1) as [E|E]; rewrite E in I2 |- *; [apply f1_R|rewrite f0_R in I2; lra]. }
  assert (Hneq : f32_eq (ff_max c) (ff_min c) = false).
  { destruct (f32_eq (ff_max c) (ff_min c)) eqn:E; [exfalso|reflexivity]. rewrite Hmx, Hmn in E.
    assert (H1b : (1 <= bpow radix2 127)%R) by (apply (bpow_le radix2 0 127); lia).
    destruct (f64_as_f32_fin (st_max st) Fx) as [A1 A2]; [rewrite Rx, Rabs_R1; exact H1b|].
    destruct (f64_as_f32_fin (st_min st) Fn) as [B1 B2]; [rewrite Rn, Rabs_R0; lra|].
    apply f32_eq_R in E; auto. rewrite A2, B2, Rx, Rn, round_0 in E by apply valid_rnd_N.
    change 1%R with (bpow radix2 0) in E. rewrite round_generic in E; [cbn in E; lra|apply valid_rnd_N|].
    apply generic_format_bpow. unfold SpecFloat.fexp, SpecFloat.emin. lia. }
  destruct Hcase as [(E & _)|(_ & Hp)]; [congruence|].
  destruct (bounded_stored wrap_env wrap_data f0 st c wrap_env_ok Hne Hm Hp) as ((Hall & _) & _ & Hok & _).
  assert (Hpad := gibbs_padded wrap_data Hne ltac:(rewrite wrap_len; lia)).
  set (d := gibbs_data wrap_data) in *.
  assert (Hdl : 131072 < Z.of_nat (length d)).
  { destruct Hpad as [_ [(H & _)|(_ & _ & H & _)]]; rewrite wrap_len in H; lia. }
  assert (Hbin : forall k, (k < length d)%nat -> nth_error (fe_fft (e_fft wrap_env) (as_signal d)) k = Some (wrap_bin k)).
  { intros k Hk. cbn [wrap_env e_fft fe_fft]. unfold as_signal. rewrite map_length. rewrite nth_error_map.
    rewrite nth_error_seq by exact Hk. reflexivity. }
  assert (Hex : exists q, In q (ff_freqs c)).
  { destruct Hp as (err & _ & [(_ & -> & Hx)|(budget & idata & Hb & Htr & _)]).
    - exfalso. vm_compute in Hx. discriminate.
    - unfold fft_trim in Htr. pose proof (default_freqs_ge (length wrap_data)).
      destruct (Nat.eqb_spec budget 1) as [|_]; [lia|]. apply ok_inj in Htr. rewrite <- Htr.
      fold d. set (bs := bins (spectrum_of (e_fft wrap_env) d)).
      assert (Hb65 : In {| fq_pos := 0; fq_re := int_as_f32 1; fq_im := f32_zero |} (filter (fun q => negb (freq_is_zero q)) bs)).
      { apply filter_In. split; [|vm_compute; reflexivity].
        assert (Hk65 : exists k65, Z.of_nat k65 = 65536) by (exists (Z.to_nat 65536); apply Z2Nat.id; lia). destruct Hk65 as [k65 Hk65].
        assert (Hn65 : nth_error (spectrum_of (e_fft wrap_env) d) k65 = Some (int_as_f32 1, f32_zero)).
        { unfold spectrum_of, half_spectrum. change (fft_optimize d) with (as_signal d).
          assert (Hl2 := signal_length wrap_env d (proj2 wrap_env_ok)).
          etransitivity; [apply nth_firstn|].
          - rewrite Hl2. pose proof (Nat.div_mod (length d) 2 ltac:(lia)). pose proof (Nat.mod_upper_bound (length d) 2 ltac:(lia)). lia.
          - etransitivity; [apply Hbin; lia|]. unfold wrap_bin. rewrite Hk65. reflexivity. }
        apply bins_nth in Hn65. rewrite Hk65 in Hn65. apply nth_error_In in Hn65. exact Hn65. }
      change (fe_pops (e_fft wrap_env) bs) with (filter (fun q => negb (freq_is_zero q)) bs ++ filter freq_is_zero bs).
      destruct (filter (fun q => negb (freq_is_zero q)) bs) as [|q0 l0] eqn:Efl; [destruct Hb65|].
      assert (Hq0 : freq_is_zero q0 = false).
      { assert (In q0 (filter (fun q => negb (freq_is_zero q)) bs)) as Hq0 by (rewrite Efl; now left). apply filter_In in Hq0. destruct Hq0 as [_ Hq0].
        destruct (freq_is_zero q0); [discriminate|reflexivity]. }
      destruct budget as [|budget]; [lia|]. cbn [app pop_freqs]. rewrite Hq0. exists q0. now left. }
  destruct Hex as [q Hq]. rewrite Forall_forall in Hall. destruct (Hall q Hq) as (k & Hk & Hz).
  assert (Hk' : Z.of_nat k = 65536).
  { destruct Hk as (Hk1 & Hk2 & _). assert (Hkl : (k < length d)%nat).
    { assert (Hl2 := signal_length wrap_env d (proj2 wrap_env_ok)). rewrite Hl2 in Hk1. lia. }
    rewrite (Hbin k Hkl) in Hk2. assert (Hv : wrap_bin k = value q) by (injection Hk2; auto). rewrite <- Hv in Hz. unfold wrap_bin in Hz.
    destruct (Z.of_nat k =? 65536) eqn:Ek; [|vm_compute in Hz; discriminate]. apply Z.eqb_eq in Ek. exact Ek. }
  exists (enc_fft c), (no_error c), d, (fst (trim_sizes (length wrap_data))), (snd (trim_sizes (length wrap_data))), q, k.
  split; [exact Hk'|]. split; [exact Hc|]. split; [now apply decode_fft|]. split; [exact Hpad|].
  split; [exact Hq|]. split; [destruct Hk as (_ & _ & ->); rewrite Hk'; reflexivity|]. split; [exact Hk|].
  split; [|exact Hz]. rewrite Hbin by lia. reflexivity.
Qed.

Theorem C23_bin_number_wraps_refuted : exists e data, env_ok e /\ Z.of_nat (length data) = 131072 /\ stored_under_wrong_number e data.
Proof.
  assert (Hn : exists n, Z.of_nat n = 131071) by (exists (Z.to_nat 131071); apply Z2Nat.id; lia). destruct Hn as [n Hn].
  exists wrap_env, (wrap_data n). split; [exact wrap_env_ok|]. split; [now apply wrap_len|now apply wrap_witness].
Qed.
Print Assumptions C23_bin_number_wraps_refuted.

(** Samples too large for single precision (1e39 and 1e300): the range collapses to infinity, the reported error
    is 0 and both samples come back as infinity, whatever the transforms. *)
Definition huge_data : list f64 := [from_bits 5190260616003865117; from_bits 9094988921128908188].
Theorem C44_overflow_reported_as_exact_refuted :
  Forall finite huge_data /\
  forall e p, exists r, compress_results e p FFT huge_data f0 = Ok r /\ feq (cr_error r) f0 = true /\
    exists out, decompress e p FFT 2 (cr_data r) = Ok out /\ map to_bits out = [9218868437227405312; 9218868437227405312].
Proof.
  split; [apply Forall_cons; [vm_compute; reflexivity|apply Forall_cons; [vm_compute; reflexivity|apply Forall_nil]]|].
  intros e p. destruct (compress_results e p FFT huge_data f0) as [r|] eqn:E; [|vm_compute in E; discriminate].
  exists r. split; [reflexivity|]. vm_compute in E. apply ok_inj in E. subst r. split; [vm_compute; reflexivity|].
  eexists. split; [vm_compute; reflexivity|]. vm_compute. reflexivity.
Qed.
Print Assumptions C44_overflow_reported_as_exact_refuted.

(** Non-trivial instances of the hypotheses: four samples, three stored bins of an identity "transform". *)
Definition id_env : env :=
  {| e_idw := fun _ _ _ => f0;
     e_fft := {| fe_fft := fun l => l; fe_ifft := fun l => l;
                 fe_pops := fun l => filter (fun q => negb (freq_is_zero q)) l ++ filter freq_is_zero l |} |}.
Lemma id_env_ok : env_ok id_env.
Proof. split; [exact split_perm|]. split; reflexivity. Qed.
Definition four : list f64 := map int_as_f64 [4; 3; 2; 1].
Example C23_C26_C44_nonvacuous :
  env_ok id_env /\ four <> [] /\ in_memory four /\
  (do bytes <- compress_bounded id_env Dev FFT four f0; do f <- decode_unwrap dec_fft bytes;
   do out <- decompress id_env Dev FFT 4 bytes;
   Ok (map fq_pos (ff_freqs f), f32_eq (ff_max f) (ff_min f), map to_bits out))
  = Ok ([0; 1; 2], false, map to_bits (map int_as_f64 [1; 1; 1; 1])).
Proof.
  split; [exact id_env_ok|]. split; [discriminate|]. split; [unfold in_memory; cbn; lia|]. vm_compute. reflexivity.
Qed.
Example C26_rebuilt_sizes : rebuilt_size 4 4 0 /\ exists N a, rebuilt_size 200 N a /\ N = 216%nat.
Proof.
  split; [left; lia|]. exists 216%nat, 8%nat. split; [|reflexivity]. right. split; [lia|]. split; [|reflexivity].
  destruct (next_size_spec 200 ltac:(lia)) as (H1 & H2 & H3 & _). assert (E : next_size 200 = 216) by (vm_compute; reflexivity). rewrite E in *.
  split; [lia|]. split; [exact H2|]. intros k Hk Hs. destruct (Z.le_gt_cases 216 k) as [|Hlt]; [assumption|]. exfalso. exact (H3 k (conj Hk Hlt) Hs).
Qed.

(** *** C45 *)
(** Unbounded compression of 128 samples or more: the stored bins belong to the transform of the [n] samples
    themselves, but decompression places them, under the same numbers, in a longer spectrum ([N > n]) and inverts
    that: the two sides do not use the same transform, so not even an exact transform is undone. *)
Theorem C45_unbounded_fft_size_mismatch : forall e p data bytes, env_ok e -> in_memory data -> (128 <= length data)%nat ->
  compress e FFT data = Ok bytes ->
  exists f, decode_unwrap dec_fft bytes = Ok f /\
    stored_bins (fe_fft (e_fft e) (as_signal data)) (ff_freqs f) /\ length (fe_fft (e_fft e) (as_signal data)) = length data /\
    (f32_eq (ff_max f) (ff_min f) = false ->
     exists N a spec, least_smooth_above (Z.of_nat (length data)) (Z.of_nat N) /\ (length data < N)%nat /\ length spec = N /\
       decompress e p FFT (length data) bytes = Ok (firstn (length data) (skipn a (fft_scale f N (fe_ifft (e_fft e) spec)))) /\
       (forall k, (2 * k < N)%nat ->
          (exists q, In q (ff_freqs f) /\ fq_pos q = Z.of_nat k /\ nth_error spec k = Some (value q)) \/
          ((forall q, In q (ff_freqs f) -> fq_pos q <> Z.of_nat k) /\ nth_error spec k = Some (f32_zero, f32_zero)))).
Proof.
  intros e p data bytes He Hm Hn H. assert (Hne : data <> []) by (intros ->; cbn in Hn; lia).
  destruct (data_stats_total data Hne) as [st Hst]. unfold compress in H. rewrite Hst in H. cbn [bind] in H.
  change (fft_set (e_fft e) data (default_freqs (length data)) = Ok bytes) in H.
  assert (Hd3 := default_freqs_ge (length data)).
  destruct (C23_requested_count e data (default_freqs (length data)) He Hne Hm ltac:(lia)) as (bs & f & Hb & Hd & Hs & _).
  rewrite Hb in H. apply ok_inj in H. subst bs. exists f. split; [exact Hd|]. split; [exact Hs|].
  assert (Hsl := signal_length e data (proj2 He)). split; [exact Hsl|]. intros Hc.
  destruct (gibbs_added_spec (length data) ltac:(lia) ltac:(unfold in_memory in Hm; lia)) as [Hg1 Hg2].
  destruct (next_size_spec (Z.of_nat (length data)) ltac:(unfold in_memory in Hm; lia)) as (N1 & N2 & N3 & _).
  set (N := (length data + gibbs_added (length data))%nat).
  assert (Hrs : rebuilt_size (length data) N ((N - length data) / 2)).
  { right. split; [lia|]. split; [|reflexivity]. unfold N. rewrite Hg1. split; [lia|]. split; [exact N2|]. intros k Hk Hks.
    destruct (Z.le_gt_cases (next_size (Z.of_nat (length data))) k) as [|Hlt]; [assumption|]. exfalso. exact (N3 k (conj Hk Hlt) Hks). }
  assert (Hls : least_smooth_above (Z.of_nat (length data)) (Z.of_nat N)) by (destruct Hrs as [(? & _)|(_ & Hx & _)]; [lia|exact Hx]).
  assert (Hpos : Forall (fun q => 0 <= 2 * fq_pos q <= Z.of_nat N) (ff_freqs f)).
  { destruct Hs as [Hs _]. eapply Forall_impl; [|exact Hs]. cbv beta. intros q (k & (Hk & _ & ->) & _). rewrite Hsl in Hk.
    pose proof (Z.mod_pos_bound (Z.of_nat k) 65536 ltac:(lia)). pose proof (Z.mod_le (Z.of_nat k) 65536 ltac:(lia) ltac:(lia)). unfold N. lia. }
  destruct (C26_mirrored_spectrum e p bytes f (length data) N _ (proj2 He) Hd Hc ltac:(lia) ltac:(unfold in_memory in Hm; lia) Hrs Hpos)
    as (spec & S1 & S2 & S3 & _).
  exists N, ((N - length data) / 2)%nat, spec. split; [exact Hls|]. split; [unfold N; lia|]. split; [exact S1|]. split; [exact S2|exact S3].
Qed.
Print Assumptions C45_unbounded_fft_size_mismatch.
