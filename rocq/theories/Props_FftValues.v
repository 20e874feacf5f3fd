(** C62: what a decoded Fourier frame holds, in real numbers; and frames that keep every frequency. *)
From Coq Require Import List ZArith Bool Lia Reals Lra Permutation ZifyBool.
From Flocq Require Import Core IEEE754.BinarySingleNaN IEEE754.Binary IEEE754.Bits.
From Verif Require Import Base Model_Float Model_Bincode BincodeFacts Spec FloatFacts Float32Facts ArithFacts Model_Utils UtilsFacts Model_Stats StatsFacts
  Model_Compressors Model_Polynomial Model_Fft Model_Stream FftFacts PolyApiFacts Spec_Metric Props_Lossless Props_Fft Props_Poly Props_Accuracy Props_CliFft FftValueFacts.
Import ListNotations.
Open Scope Z_scope.

(** The spectrum of [N] bins described by the stored frequencies: bin [k] of the lower half is the stored
    frequency number [k], or zero; the upper half holds the conjugates; the middle bin of an even size, too. *)
Definition rebuilt_spectrum (f : fft_c) (N : nat) (spec : list c32) : Prop :=
  length spec = N /\
  (forall k, (2 * k < N)%nat ->
     (exists q, In q (ff_freqs f) /\ fq_pos q = Z.of_nat k /\ nth_error spec k = Some (value q)) \/
     ((forall q, In q (ff_freqs f) -> fq_pos q <> Z.of_nat k) /\ nth_error spec k = Some (f32_zero, f32_zero))) /\
  (forall k, (0 < k)%nat -> (2 * k < N)%nat -> exists c c', nth_error spec k = Some c /\ nth_error spec (N - k) = Some c' /\ conjugate c c') /\
  (forall k, (2 * k = N)%nat ->
     (exists q c, In q (ff_freqs f) /\ fq_pos q = Z.of_nat k /\ nth_error spec k = Some c /\ conjugate (value q) c) \/
     ((forall q, In q (ff_freqs f) -> fq_pos q <> Z.of_nat k) /\ nth_error spec k = Some (f32_zero, f32_zero))).

Lemma nth_skip {A} (l : list A) a i : nth_error (skipn a l) i = nth_error l (a + i).
Proof. revert l. induction a as [|a IH]; intros l; [reflexivity|]. destruct l as [|x l]; cbn; [now destruct i|apply IH]. Qed.

(** Whatever the frame's origin: sample [i] of the output is the real part of the inverse transform of the
    described spectrum, divided by the transform's size, moved into the stored range, to six millionths (five
    decimals) and single precision. *)
Theorem C62_decoded_values : forall e p bytes f n N a, transforms_ok (e_fft e) ->
  decode_unwrap dec_fft bytes = Ok f -> f32_eq (ff_max f) (ff_min f) = false ->
  fin32 (ff_min f) = true -> fin32 (ff_max f) = true -> (R32 (ff_min f) <= R32 (ff_max f))%R ->
  (1 <= n)%nat -> rebuilt_size n N a -> Z.of_nat N <= 2 ^ 24 ->
  Forall (fun q => 0 <= 2 * fq_pos q <= Z.of_nat N) (ff_freqs f) ->
  exists spec out, rebuilt_spectrum f N spec /\ decompress e p FFT n bytes = Ok out /\ length out = n /\
    forall i re im, (i < n)%nat -> nth_error (fe_ifft (e_fft e) spec) (a + i) = Some (re, im) -> fin32 re = true ->
      exists y, nth_error out i = Some y /\ finite y /\
        (Rabs (R64 y - limited (R32 (ff_min f)) (R32 (ff_max f)) (R32 re / INR N)) <= 6 / 1000000 + bpow radix2 (-23) * Rabs (R32 re / INR N))%R.
Proof.
  intros e p bytes f n N a Ht Hd Hc Fn Fx Hm Hn Hrs HN Hpos.
  assert (Hle : (n <= N)%nat) by (destruct Hrs as [(_ & -> & _)|(_ & (L & _) & _)]; lia).
  destruct (C26_mirrored_spectrum e p bytes f n N a Ht Hd Hc Hn ltac:(lia) Hrs Hpos) as (spec & S1 & S2 & S3 & S4 & S5).
  exists spec, (firstn n (skipn a (fft_scale f N (fe_ifft (e_fft e) spec)))). split; [unfold rebuilt_spectrum; auto|]. split; [exact S2|].
  assert (Li : length (fe_ifft (e_fft e) spec) = N) by (rewrite (proj2 Ht); exact S1).
  assert (Ha : (a + n <= N)%nat).
  { destruct Hrs as [(_ & -> & ->)|(_ & _ & ->)]; [lia|]. pose proof (Nat.div_le_upper_bound (N - n) 2 (N - n) ltac:(lia) ltac:(lia)). lia. }
  assert (Ls : length (fft_scale f N (fe_ifft (e_fft e) spec)) = N) by (unfold fft_scale; etransitivity; [apply map_length|exact Li]).
  split; [rewrite firstn_length, skipn_length, Ls; lia|].
  intros i re im Hi Hnth Fr. exists (fft_round f (f32_div re (int_as_f32 (Z.of_nat N)))). split.
  - rewrite nth_firstn by exact Hi. rewrite nth_skip. unfold fft_scale. etransitivity; [apply nth_error_map|]. etransitivity; [apply f_equal; exact Hnth|reflexivity].
  - apply fft_scaled_value; auto. lia.
Qed.
Print Assumptions C62_decoded_values.

(** Equal finite numbers (zeros of either sign are equal). *)
Definition same32 (x y : f32) : Prop := fin32 x = true /\ fin32 y = true /\ R32 x = R32 y.
Definition same_spectrum (s t : list c32) : Prop := Forall2 (fun c d => same32 (fst c) (fst d) /\ same32 (snd c) (snd d)) s t.

(** What is asked of the third-party pieces, for one series. The forward transform of real samples is finite and
    conjugate-symmetric; *)
Definition transform_of_real (t : list c32) : Prop :=
  Forall (fun c => fin32 (fst c) = true /\ fin32 (snd c) = true) t /\
  forall k c c', (0 < k)%nat -> nth_error t k = Some c -> nth_error t (length t - k) = Some c' ->
    R32 (fst c') = R32 (fst c) /\ R32 (snd c') = (- R32 (snd c))%R.
(** and the inverse transform of the forward transform, divided by the size, is the series to within [delta]. *)
Definition inverse_within (e : env) (d : list f64) (delta : R) : Prop := forall s,
  same_spectrum s (fe_fft (e_fft e) (as_signal d)) ->
  forall i x, nth_error d i = Some x -> exists re im, nth_error (fe_ifft (e_fft e) s) i = Some (re, im) /\ fin32 re = true /\
    (Rabs (R32 re / INR (length d) - R64 x) <= delta)%R.

Lemma is_zero_R c : fin32 (fst c) = true -> fin32 (snd c) = true -> is_zero c = true -> R32 (fst c) = 0%R /\ R32 (snd c) = 0%R.
Proof.
  intros H1 H2 H. unfold is_zero in H. apply andb_prop in H. destruct H as [A B].
  assert (Z0 : fin32 f32_zero = true) by reflexivity. assert (R0 : R32 f32_zero = 0%R) by reflexivity.
  apply f32_eq_R in A; [|assumption|assumption]. apply f32_eq_R in B; [|assumption|assumption]. rewrite R0 in A, B. split; assumption.
Qed.
Lemma same_zero x : fin32 x = true -> R32 x = 0%R -> same32 f32_zero x.
Proof. intros H1 H2. split; [reflexivity|]. split; [exact H1|]. now rewrite H2. Qed.
Lemma same_refl x : fin32 x = true -> same32 x x. Proof. intros H. split; [exact H|]. split; [exact H|reflexivity]. Qed.

Lemma conj_R c c' : conjugate c c' -> fin32 (snd c) = true -> fst c' = fst c /\ fin32 (snd c') = true /\ R32 (snd c') = (- R32 (snd c))%R.
Proof.
  intros (H1 & H2) F. split; [exact H1|]. destruct H2 as [H2|[[H2 H3]|H2]].
  - rewrite H2. unfold fin32, R32 in *. split; [now rewrite Binary.is_finite_Bopp|apply Binary.B2R_Bopp].
  - rewrite H2, H3. split; [reflexivity|]. change (R32 f32_zero) with 0%R. ring.
  - unfold fin32 in F. destruct (snd c); discriminate.
Qed.

(** A frame in which every non-zero bin is stored describes the whole transform. *)
Lemma full_spectrum f t spec : transform_of_real t -> stored_bins t (ff_freqs f) -> Z.of_nat (length t) <= 131071 ->
  (forall g k, is_bin t g k -> is_zero (value g) = false -> In g (ff_freqs f)) ->
  rebuilt_spectrum f (length t) spec -> same_spectrum spec t.
Proof.
  intros (Hfin & Hsym) (_ & Hst) Hlen Hcov (Hl & Hlow & Hconj & Hmid). destruct (Hst Hlen) as [_ Hpos]. clear Hst.
  assert (Fin : forall k c, nth_error t k = Some c -> fin32 (fst c) = true /\ fin32 (snd c) = true).
  { intros k c Hk. rewrite Forall_forall in Hfin. apply Hfin. eapply nth_error_In; eassumption. }
  assert (Find : forall k c, (2 * k <= length t)%nat -> nth_error t k = Some c -> is_zero c = false ->
    exists q, In q (ff_freqs f) /\ fq_pos q = Z.of_nat k /\ value q = c).
  { intros k c Hk Hn Hz. exists {| fq_pos := Z.of_nat k; fq_re := fst c; fq_im := snd c |}. destruct c as [cr ci]. split; [|split; reflexivity].
    apply (Hcov _ k); [|exact Hz]. split; [exact Hk|]. split; [exact Hn|]. cbn. symmetry. apply Z.mod_small. lia. }
  assert (Val : forall k q c, In q (ff_freqs f) -> fq_pos q = Z.of_nat k -> nth_error t k = Some c -> value q = c).
  { intros k q c Hq Hk Hn. rewrite Forall_forall in Hpos. destruct (Hpos q Hq) as (k' & (_ & B & _) & P). assert (k' = k) by lia. subst k'. congruence. }
  assert (Each : forall k c d, nth_error spec k = Some c -> nth_error t k = Some d -> same32 (fst c) (fst d) /\ same32 (snd c) (snd d)).
  { assert (Low : forall k c d, (2 * k < length t)%nat -> nth_error spec k = Some c -> nth_error t k = Some d -> same32 (fst c) (fst d) /\ same32 (snd c) (snd d)).
    { intros k c d Hk Hc Hd. destruct (Fin k d Hd) as [F1 F2]. destruct (Hlow k Hk) as [(q & Q1 & Q2 & Q3)|(Q1 & Q2)].
      - assert (c = d) by (rewrite <- (Val k q d Q1 Q2 Hd); congruence). subst d. split; apply same_refl; assumption.
      - assert (c = (f32_zero, f32_zero)) by congruence. subst c. cbn [fst snd].
        destruct (is_zero d) eqn:Z0; [|destruct (Find k d ltac:(lia) Hd Z0) as (q & I1 & I2 & _); exfalso; exact (Q1 q I1 I2)].
        destruct (is_zero_R d F1 F2 Z0) as [Z1 Z2]. split; apply same_zero; assumption. }
    intros k c d Hc Hd. assert (Lk : (k < length t)%nat) by (apply nth_error_Some; congruence).
    destruct (Nat.lt_trichotomy (2 * k) (length t)) as [L|[L|L]].
    - now apply (Low k).
    - destruct (Fin k d Hd) as [F1 F2].
      assert (Y : nth_error t (length t - k) = Some d) by (replace (length t - k)%nat with k by lia; exact Hd).
      destruct (Hsym k d d ltac:(lia) Hd Y) as [_ Sy]. assert (S0 : R32 (snd d) = 0%R) by lra.
      destruct (Hmid k L) as [(q & c0 & Q1 & Q2 & Q3 & Q4)|(Q1 & Q2)].
      + assert (c0 = c) by congruence. subst c0. assert (V := Val k q d Q1 Q2 Hd). rewrite V in Q4. destruct (conj_R d c Q4 F2) as (C1 & C2 & C3).
        rewrite C1. split; [now apply same_refl|]. split; [exact C2|]. split; [exact F2|]. rewrite C3, S0. ring.
      + assert (c = (f32_zero, f32_zero)) by congruence. subst c. cbn [fst snd].
        destruct (is_zero d) eqn:Z0; [|destruct (Find k d ltac:(lia) Hd Z0) as (q & I1 & I2 & _); exfalso; exact (Q1 q I1 I2)].
        destruct (is_zero_R d F1 F2 Z0) as [Z1 Z2]. split; apply same_zero; assumption.
    - set (j := (length t - k)%nat). assert (Ej : (length t - j)%nat = k) by lia.
      destruct (Hconj j ltac:(lia) ltac:(lia)) as (cj & cj' & J1 & J2 & J3). rewrite Ej in J2. assert (cj' = c) by congruence. subst cj'.
      destruct (nth_error t j) as [dj|] eqn:Dj; [|apply nth_error_None in Dj; lia].
      destruct (Low j cj dj ltac:(lia) J1 Dj) as [(A1 & A2 & A3) (B1 & B2 & B3)].
      assert (Dk : nth_error t (length t - j) = Some d) by (rewrite Ej; exact Hd).
      destruct (Hsym j dj d ltac:(lia) Dj Dk) as [S1 S2]. destruct (Fin k d Hd) as [F1 F2]. destruct (conj_R cj c J3 B1) as (C1 & C2 & C3).
      rewrite C1. split; (split; [assumption|]; split; [assumption|]); [lra|]. rewrite C3, B3, S2. reflexivity. }
  clear - Each Hl. unfold same_spectrum. revert t Hl Each. induction spec as [|c spec IH]; intros [|d t] Hl Each; try discriminate Hl; constructor.
  - exact (Each 0%nat c d eq_refl eq_refl).
  - apply IH; [now injection Hl|]. intros k. exact (Each (S k)).
Qed.

(** Range of the series and range of the frame. *)
Definition moderate32 (x : f64) : Prop := finite x /\ (Rabs (R64 x) <= bpow radix2 127)%R.

Lemma in_stored_range mn mx x : moderate32 mn -> moderate32 mx -> (R64 mn <= R64 x <= R64 mx)%R ->
  fin32 (f64_as_f32 mn) = true /\ fin32 (f64_as_f32 mx) = true /\ (R32 (f64_as_f32 mn) <= R32 (f64_as_f32 mx))%R /\
  (R32 (f64_as_f32 mn) <= rnd32 (R64 x) <= R32 (f64_as_f32 mx))%R.
Proof.
  intros [F1 B1] [F2 B2] H. destruct (f64_as_f32_fin mn F1 B1) as [A1 E1]. destruct (f64_as_f32_fin mx F2 B2) as [A2 E2].
  rewrite E1, E2. assert (V : Valid_exp fexp32) by (apply (fexp_correct 24 128 prec24_gt_0)).
  split; [exact A1|]. split; [exact A2|]. split; [apply round_le; [exact V|apply valid_rnd_N|lra]|].
  split; (apply round_le; [exact V|apply valid_rnd_N|lra]).
Qed.

Lemma close_of_limited mn mx x v y dl : moderate32 mn -> moderate32 mx -> (R64 mn <= R64 x <= R64 mx)%R ->
  (Rabs (v - R64 x) <= dl)%R ->
  (Rabs (y - limited (R32 (f64_as_f32 mn)) (R32 (f64_as_f32 mx)) v) <= 6 / 1000000 + bpow radix2 (-23) * Rabs v)%R ->
  (Rabs (y - R64 x) <= 2 * dl + 7 / 1000000 + bpow radix2 (-22) * Rabs (R64 x))%R.
Proof.
  intros M1 M2 H Hv Hy. destruct (in_stored_range mn mx x M1 M2 H) as (_ & _ & L & In). set (lo := R32 (f64_as_f32 mn)) in *. set (hi := R32 (f64_as_f32 mx)) in *.
  assert (E := rnd32_err (R64 x)). set (s := rnd32 (R64 x)) in *. set (r := R64 x) in *.
  assert (P24 : (bpow radix2 (-24) = / 16777216)%R) by (unfold bpow; cbn; lra).
  assert (P23 : (bpow radix2 (-23) = / 8388608)%R) by (unfold bpow; cbn; lra).
  assert (P22 : (bpow radix2 (-22) = / 4194304)%R) by (unfold bpow; cbn; lra).
  assert (P150 : (bpow radix2 (-150) <= bpow radix2 (-24))%R) by (apply bpow_le; lia).
  assert (P150' : (bpow radix2 (-150) <= / 1073741824 )%R) by (eapply Rle_trans; [apply (bpow_le radix2 (-150) (-30)); lia|unfold bpow; cbn; lra]).
  set (q := bpow radix2 (-150)) in *. assert (Q0 : (0 < q)%R) by apply bpow_gt_0. rewrite P24 in E. rewrite P23 in Hy. rewrite P22.
  assert (Dist : (Rabs (limited lo hi r - r) <= / 16777216 * Rabs r + q)%R).
  { assert (Pr := Rabs_pos r). apply Rabs_le_inv in E. apply limited_dist; lra. }
  assert (Lim := limited_near lo hi v r).
  assert (Av : (Rabs v <= Rabs r + dl)%R) by (replace v with (r + (v - r))%R by ring; eapply Rle_trans; [apply Rabs_triang|]; lra).
  replace (y - r)%R with ((y - limited lo hi v) + (limited lo hi v - limited lo hi r) + (limited lo hi r - r))%R by ring.
  eapply Rle_trans; [apply Rabs_triang|]. eapply Rle_trans; [apply Rplus_le_compat_r, Rabs_triang|].
  assert (Pr := Rabs_pos r). assert (Pd := Rabs_pos (v - r)). lra.
Qed.

Definition close_to (slack : R) (x y : f64) : Prop :=
  finite y /\ (Rabs (R64 y - R64 x) <= slack + 7 / 1000000 + bpow radix2 (-22) * Rabs (R64 x))%R.

(** A frame of unpadded size (fewer than 128 samples) which stores the range of a series and every non-zero bin of its
    transform: each sample comes back up to twice the transforms' own error, five decimals and single precision. *)
Theorem C62_everything_kept : forall e p bytes f data mn mx delta, transforms_ok (e_fft e) ->
  data <> [] -> (length data < 128)%nat ->
  decode_unwrap dec_fft bytes = Ok f -> f32_eq (ff_max f) (ff_min f) = false ->
  ff_min f = f64_as_f32 mn -> ff_max f = f64_as_f32 mx -> moderate32 mn -> moderate32 mx ->
  Forall (fun x => (R64 mn <= R64 x <= R64 mx)%R) data ->
  let t := fe_fft (e_fft e) (as_signal data) in
  stored_bins t (ff_freqs f) -> (forall g k, is_bin t g k -> is_zero (value g) = false -> In g (ff_freqs f)) ->
  transform_of_real t -> inverse_within e data delta ->
  exists out, decompress e p FFT (length data) bytes = Ok out /\ Forall2 (close_to (2 * delta)) data out.
Proof.
  intros e p bytes f data mn mx delta Ht Hne Hl Hd Hc Emn Emx Mn Mx Hr t Hsb Hcov Hreal Hinv.
  assert (Hn : (1 <= length data)%nat) by (destruct data; [congruence|cbn; lia]).
  assert (Lt : length t = length data) by now apply signal_length.
  assert (Hpos : Forall (fun q => 0 <= 2 * fq_pos q <= Z.of_nat (length data)) (ff_freqs f)).
  { destruct Hsb as [_ Hsb]. destruct (Hsb ltac:(lia)) as [_ Hb]. eapply Forall_impl; [|exact Hb]. intros q (k & (K1 & _) & K2). lia. }
  assert (Hrs : rebuilt_size (length data) (length data) 0) by (left; auto).
  assert (X : exists x, In x data) by (destruct data as [|x l]; [congruence|exists x; now left]). destruct X as [x0 Hx0].
  assert (Hr0 := Hr). rewrite Forall_forall in Hr0. destruct (in_stored_range mn mx x0 Mn Mx (Hr0 _ Hx0)) as (Fn & Fx & Hm & _).
  rewrite <- Emn, <- Emx in *.
  destruct (C62_decoded_values e p bytes f (length data) (length data) 0 Ht Hd Hc Fn Fx Hm Hn Hrs ltac:(lia) Hpos) as (spec & out & Sp & Ho & Lo & Hv).
  exists out. split; [exact Ho|].
  assert (Same : same_spectrum spec t) by (apply (full_spectrum f); auto; [lia|rewrite Lt; exact Sp]).
  specialize (Hinv spec Same).
  assert (Each : forall i x y, nth_error data i = Some x -> nth_error out i = Some y -> close_to (2 * delta) x y).
  { intros i x y Hx Hy. assert (Li := nth_lt _ _ _ Hx). destruct (Hinv i x Hx) as (re & im & I1 & I2 & I3).
    destruct (Hv i re im Li I1 I2) as (y' & Y1 & Y2 & Y3). assert (y' = y) by congruence. subst y'. split; [exact Y2|].
    rewrite Emn, Emx in Y3. apply (close_of_limited mn mx x (R32 re / INR (length data))); auto. apply Hr0. eapply nth_error_In; eassumption. }
  clear - Each Lo. revert out Lo Each. induction data as [|x data IH]; intros [|y out] Lo Each; try discriminate Lo; constructor.
  - exact (Each 0%nat x y eq_refl eq_refl).
  - apply IH; [now injection Lo|]. intros i. exact (Each (S i)).
Qed.
Print Assumptions C62_everything_kept.

(** A frame with as many frequencies as there are bins stores every bin. *)
Lemma all_bins_stored t qs : Z.of_nat (length t) <= 131071 -> stored_bins t qs -> (length t / 2 + 1 <= length qs)%nat ->
  forall g k, is_bin t g k -> In g qs.
Proof.
  intros Hl (_ & Hst) Hc g k Hg. destruct (Hst Hl) as [Nd Hb]. clear Hst.
  assert (Inc : incl (map Z.of_nat (seq 0 (length t / 2 + 1))) (map fq_pos qs)).
  { apply NoDup_length_incl; [exact Nd|rewrite !map_length, seq_length; exact Hc|].
    intros z Hz. apply in_map_iff in Hz. destruct Hz as (q & <- & Hq). rewrite Forall_forall in Hb. destruct (Hb q Hq) as (k' & (K1 & _) & ->).
    apply in_map, in_seq. assert (k' <= length t / 2)%nat by (apply Nat.div_le_lower_bound; lia). lia. }
  destruct Hg as (G1 & G2 & G3). assert (Hk : In (Z.of_nat k) (map fq_pos qs)).
  { apply Inc, in_map, in_seq. assert (k <= length t / 2)%nat by (apply Nat.div_le_lower_bound; lia). lia. }
  apply in_map_iff in Hk. destruct Hk as (q & Q1 & Q2). rewrite Forall_forall in Hb. destruct (Hb q Q2) as (k' & (_ & B2 & _) & B3).
  assert (k' = k) by lia. subst k'. assert (V : value q = value g) by congruence. rewrite Z.mod_small in G3 by lia.
  assert (g = q); [|now subst]. destruct g as [gp gr gi], q as [qp qr qi]. cbn in *. unfold value in V. cbn in V. congruence.
Qed.

(** Chunks of at most 49 samples under an error bound: the Fourier compressor's last attempt stores every bin, so
    either the bound is met (as in C59) or the series comes back up to the precision of the transforms. *)
Theorem C62_short_chunks : forall e p data bound bytes out B delta,
  env_ok e -> no_overflow e -> zeros_last e -> data <> [] -> (length data <= 49)%nat ->
  Forall supported data -> Forall (fun x => R64 x <> 0%R) data ->
  finite bound -> (0 <= R64 bound <= B)%R -> (B <= 3)%R ->
  transform_of_real (fe_fft (e_fft e) (as_signal data)) -> inverse_within e data delta ->
  compress_bounded e p FFT data bound = Ok bytes -> decompress e p FFT (length data) bytes = Ok out ->
  nearly_equal data out \/ relative_error_within (6 / 5 * (B + / 1000 + / 10000000)) data out \/ Forall2 (close_to (2 * delta)) data out.
Proof.
  intros e p data bound bytes out B delta He Hno Hz Hne Hl Hs Hnz Fb Rb B3 Hreal Hinv Hb Ho.
  destruct (fft_bounded_frame e p data bound bytes out B He Hno Hz Hne ltac:(lia) Hs Hnz Fb Rb B3 Hb Ho) as [_ [H|[H|(f & d & a & b & Hd & Hp & Hsb & Hcov)]]]; [now left|now right; left|].
  assert (Hd' : d = data). { destruct Hp as [(x & y & _ & _ & Hg) [(_ & -> & ->)|(H & _)]]; [|lia]. cbn [repeat app] in Hg. now rewrite app_nil_r in Hg. }
  subst d. clear Hp. assert (Hm : in_memory data) by (unfold in_memory; lia).
  destruct (bounded_shape e p data bound He Hne Hm) as (st & c & Hst & _ & Hc & Hmx & Hmn & Hcase).
  rewrite Hb in Hc. apply ok_inj in Hc. subst bytes.
  assert (Hfin := supported_forall_finite _ Hs).
  assert (BB : (bpow radix2 63 <= bpow radix2 127)%R) by (apply bpow_le; lia).
  destruct (C09_statistics_correct data Hne Hfin) as (st' & Hst' & (Xin & Xall & _) & (Nin & Nall & _)).
  rewrite Hst in Hst'. apply ok_inj in Hst'. subst st'.
  assert (Mod : forall x, In x data -> moderate32 x).
  { intros x Hx. rewrite Forall_forall in Hs. destruct (supported_bnd x (Hs x Hx)) as [F1 F2]. split; [exact F1|lra]. }
  destruct Hcase as [(E & Hq0 & _)|(E & Hpost)].
  - left. apply (fft_collapsed e p data c st); auto. lia.
  - right. right. destruct (bounded_stored e data bound st c He Hne Hm Hpost) as (_ & _ & Hok & _).
    assert (Ef : f = no_error c) by (rewrite (decode_fft c Hok) in Hd; apply ok_inj in Hd; now symmetry). subst f.
    assert (Lt : length (fe_fft (e_fft e) (as_signal data)) = length data) by apply signal_length, He.
    destruct (C62_everything_kept e p (enc_fft c) (no_error c) data (st_min st) (st_max st) delta (proj2 He) Hne ltac:(lia) Hd E Hmn Hmx) as (out' & O1 & O2); auto.
    + apply Mod. eapply nth_error_In; exact Nin.
    + apply Mod. eapply nth_error_In; exact Xin.
    + rewrite Forall_forall in *. intros x Hx. split; auto.
    + destruct Hcov as [Hcnt|Hcov]; [|exact Hcov]. intros g k Hg _. apply (all_bins_stored (fe_fft (e_fft e) (as_signal data)) (ff_freqs (no_error c)) ltac:(lia) Hsb) with k; [|exact Hg].
      rewrite Lt, Hcnt. assert (D0 : (length data / 100 = 0)%nat) by (apply Nat.div_small; lia).
      assert (M : most_frequencies (length data) = 25%nat) by (unfold most_frequencies; rewrite D0; reflexivity). rewrite M.
      assert (length data / 2 < 25)%nat by (apply Nat.div_lt_upper_bound; lia). lia.
    + rewrite Ho in O1. apply ok_inj in O1. subst out'. exact O2.
Qed.
Print Assumptions C62_short_chunks.

(** Transforms that meet every hypothesis: the exact transform of two points (other sizes are left alone). *)
Definition sum2 (l : list c32) : list c32 :=
  match l with
  | [(a, _); (b, _)] => [(b32_plus mode_NE a b, f32_zero); (b32_minus mode_NE a b, f32_zero)]
  | _ => l
  end.
Definition two_point_env : env :=
  {| e_idw := fun _ _ _ => f0;
     e_fft := {| fe_fft := sum2; fe_ifft := sum2;
                 fe_pops := fun l => filter (fun q => negb (freq_is_zero q)) l ++ filter freq_is_zero l |} |}.

Lemma plus32 x y k : fin32 x = true -> fin32 y = true -> 0 <= k <= 126 -> (Rabs (R32 x) <= bpow radix2 k)%R -> (Rabs (R32 y) <= bpow radix2 k)%R ->
  (fin32 (b32_plus mode_NE x y) = true /\ R32 (b32_plus mode_NE x y) = rnd32 (R32 x + R32 y) /\ (Rabs (R32 (b32_plus mode_NE x y)) <= bpow radix2 (k + 1))%R) /\
  (fin32 (b32_minus mode_NE x y) = true /\ R32 (b32_minus mode_NE x y) = rnd32 (R32 x - R32 y) /\ (Rabs (R32 (b32_minus mode_NE x y)) <= bpow radix2 (k + 1))%R).
Proof.
  intros Fx Fy Hk Bx By.
  assert (D : (bpow radix2 (k + 1) = 2 * bpow radix2 k)%R) by (rewrite bpow_plus; change (bpow radix2 1) with 2%R; ring).
  assert (L : (bpow radix2 (k + 1) < bpow radix2 128)%R) by (apply bpow_lt; lia).
  split.
  - assert (B : (Rabs (rnd32 (R32 x + R32 y)) <= bpow radix2 (k + 1))%R).
    { apply rnd32_bnd; [lia|]. eapply Rle_trans; [apply Rabs_triang|]. lra. }
    pose proof (Binary.Bplus_correct 24 128 eq_refl eq_refl binop_nan_pl32 mode_NE x y Fx Fy) as H. cbn [round_mode] in H.
    rewrite Rlt_bool_true in H by (eapply Rle_lt_trans; [exact B|exact L]). destruct H as (H1 & H2 & _).
    split; [exact H2|]. split; [exact H1|]. unfold R32 at 1. change (b32_plus mode_NE x y) with (Binary.Bplus 24 128 eq_refl eq_refl binop_nan_pl32 mode_NE x y). rewrite H1. exact B.
  - assert (B : (Rabs (rnd32 (R32 x - R32 y)) <= bpow radix2 (k + 1))%R).
    { apply rnd32_bnd; [lia|]. unfold Rminus. eapply Rle_trans; [apply Rabs_triang|]. rewrite Rabs_Ropp. lra. }
    pose proof (Binary.Bminus_correct 24 128 eq_refl eq_refl binop_nan_pl32 mode_NE x y Fx Fy) as H. cbn [round_mode] in H.
    rewrite Rlt_bool_true in H by (eapply Rle_lt_trans; [exact B|exact L]). destruct H as (H1 & H2 & _).
    split; [exact H2|]. split; [exact H1|]. unfold R32 at 1. change (b32_minus mode_NE x y) with (Binary.Bminus 24 128 eq_refl eq_refl binop_nan_pl32 mode_NE x y). rewrite H1. exact B.
Qed.

Lemma two_point_ok : env_ok two_point_env /\ no_overflow two_point_env /\ zeros_last two_point_env.
Proof.
  assert (Len : forall l, length (sum2 l) = length l) by (intros [|[a a'] [|[b b'] [|c l]]]; reflexivity).
  assert (P100 : (bpow radix2 64 <= bpow radix2 100)%R) by (apply bpow_le; lia).
  assert (P63 : (bpow radix2 63 <= bpow radix2 100)%R) by (apply bpow_le; lia).
  split; [split; [exact (proj1 (proj1 fair_env_ok))|split; exact Len]|]. split; [|exact (proj2 (proj2 fair_env_ok))]. split.
  - intros l _ H. assert (W : Forall (bounded_by 100) l) by (eapply Forall_impl; [|exact H]; intros c [[A1 A2] [A3 A4]]; split; (split; [assumption|lra])).
    destruct l as [|[a a'] [|[b b'] [|c l]]]; try exact W. cbn [two_point_env e_fft fe_fft sum2].
    inversion H as [|? ? [[A1 A2] _] H']; subst. inversion H' as [|? ? [[B1 B2] _] _]; subst. cbn [fst snd] in *.
    destruct (plus32 a b 63 A1 B1 ltac:(lia) A2 B2) as [(P1 & _ & P2) (Q1 & _ & Q2)]. change (63 + 1) with 64 in *.
    apply Forall_cons; [|apply Forall_cons; [|apply Forall_nil]]; (split; cbn [fst snd]; [split; [assumption|lra]|apply f32_zero_bounded]).
  - intros l _ H. assert (W : Forall (fun c => fin32 (fst c) = true) l) by (eapply Forall_impl; [|exact H]; intros c [[A1 _] _]; exact A1).
    destruct l as [|[a a'] [|[b b'] [|c l]]]; try exact W. cbn [two_point_env e_fft fe_ifft sum2].
    inversion H as [|? ? [[A1 A2] _] H']; subst. inversion H' as [|? ? [[B1 B2] _] _]; subst. cbn [fst snd] in *.
    destruct (plus32 a b 100 A1 B1 ltac:(lia) A2 B2) as [(P1 & _ & P2) (Q1 & _ & Q2)].
    apply Forall_cons; [exact P1|]. apply Forall_cons; [exact Q1|apply Forall_nil].
Qed.

Lemma small_int32 z : Z.abs z <= 2 ^ 24 -> rnd32 (IZR z) = IZR z.
Proof. intros H. destruct (int_as_f32_R z H) as [_ R]. rewrite <- R. apply round_generic; [apply valid_rnd_N|apply generic_format_B2R]. Qed.

(** The series 1, 2 has the transform 3, -1, and comes back. *)
Definition one_two : list f64 := map int_as_f64 [1; 2].
Example C62_example : env_ok two_point_env /\ no_overflow two_point_env /\ zeros_last two_point_env /\
  transform_of_real (fe_fft (e_fft two_point_env) (as_signal one_two)) /\ inverse_within two_point_env one_two 0 /\
  (do b <- compress_bounded two_point_env Dev FFT one_two f0; do out <- decompress two_point_env Dev FFT 2 b; Ok (length b, map to_bits out))
  = Ok (28%nat, map to_bits one_two).
Proof.
  destruct two_point_ok as (H1 & H2 & H3). split; [exact H1|]. split; [exact H2|]. split; [exact H3|].
  destruct (int_as_f64_exact 1 ltac:(lia)) as [R1 F1]. destruct (int_as_f64_exact 2 ltac:(lia)) as [R2 F2].
  assert (B127 : (4 <= bpow radix2 127)%R) by (change 4%R with (bpow radix2 2); apply bpow_le; lia).
  destruct (f64_as_f32_fin (int_as_f64 1) F1 ltac:(rewrite R1, Rabs_pos_eq; lra)) as [G1 E1]. rewrite R1, small_int32 in E1 by lia.
  destruct (f64_as_f32_fin (int_as_f64 2) F2 ltac:(rewrite R2, Rabs_pos_eq; lra)) as [G2 E2]. rewrite R2, small_int32 in E2 by lia.
  set (a := f64_as_f32 (int_as_f64 1)) in *. set (b := f64_as_f32 (int_as_f64 2)) in *.
  assert (C4 : bpow radix2 2 = 4%R) by reflexivity.
  destruct (plus32 a b 2 G1 G2 ltac:(lia) ltac:(rewrite E1, C4, Rabs_pos_eq; lra) ltac:(rewrite E2, C4, Rabs_pos_eq; lra)) as [(P1 & P2 & _) (Q1 & Q2 & _)].
  rewrite E1, E2 in P2, Q2. replace (1 + 2)%R with (IZR 3) in P2 by (cbn; lra). replace (1 - 2)%R with (IZR (-1)) in Q2 by (cbn; lra).
  rewrite small_int32 in P2, Q2 by lia.
  assert (T : fe_fft (e_fft two_point_env) (as_signal one_two) = [(b32_plus mode_NE a b, f32_zero); (b32_minus mode_NE a b, f32_zero)]) by reflexivity.
  set (s := b32_plus mode_NE a b) in *. set (d := b32_minus mode_NE a b) in *. rewrite T.
  assert (Z0 : fin32 f32_zero = true /\ R32 f32_zero = 0%R) by (split; reflexivity). destruct Z0 as [Z0 ZR].
  split; [|split].
  - split; [apply Forall_cons; [|apply Forall_cons; [|apply Forall_nil]]; (split; assumption)|].
    intros [|[|k]] c c' Hk Hc Hc'; [lia| |destruct k; discriminate Hc]. 
    assert (Sc : Some (d, f32_zero) = Some c) by exact Hc. assert (Sc' : Some (d, f32_zero) = Some c') by exact Hc'.
    assert (c = (d, f32_zero)) by congruence. assert (c' = (d, f32_zero)) by congruence. subst c c'. cbn [fst snd]. split; [reflexivity|]. rewrite ZR. ring.
  - intros sp Hsp i x Hx. rewrite T in Hsp. inversion Hsp as [|[x1 x1'] ? l1 ? [(A1 & _ & A2) _] Hsp']; subst. inversion Hsp' as [|[x2 x2'] ? l2 ? [(B1 & _ & B2) _] Hsp'']; subst. inversion Hsp''; subst.
    cbn [fst snd] in *. rewrite P2 in A2. rewrite Q2 in B2.
    destruct (plus32 x1 x2 2 A1 B1 ltac:(lia) ltac:(rewrite A2, C4, Rabs_pos_eq; lra) ltac:(rewrite B2, C4, Rabs_left; lra)) as [(P3 & P4 & _) (Q3 & Q4 & _)].
    rewrite A2, B2 in P4, Q4. replace (IZR 3 + IZR (-1))%R with (IZR 2) in P4 by (cbn; lra). replace (IZR 3 - IZR (-1))%R with (IZR 4) in Q4 by (cbn; lra).
    rewrite small_int32 in P4, Q4 by lia. cbn [two_point_env e_fft fe_ifft sum2]. change (INR (length one_two)) with (1 + 1)%R.
    destruct i as [|[|i]]; [| |destruct i; discriminate Hx].
    + assert (Sx : Some (int_as_f64 1) = Some x) by exact Hx. assert (x = int_as_f64 1) by congruence. subst x. exists (b32_plus mode_NE x1 x2), f32_zero. split; [reflexivity|]. split; [exact P3|]. rewrite P4, R1.
      replace (2 / (1 + 1) - 1)%R with 0%R by field. rewrite Rabs_R0. lra.
    + assert (Sx : Some (int_as_f64 2) = Some x) by exact Hx. assert (x = int_as_f64 2) by congruence. subst x. exists (b32_minus mode_NE x1 x2), f32_zero. split; [reflexivity|]. split; [exact Q3|]. rewrite Q4, R2.
      replace (4 / (1 + 1) - 2)%R with 0%R by field. rewrite Rabs_R0. lra.
  - vm_compute. reflexivity.
Qed.
