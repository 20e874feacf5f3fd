(** C70: what the Fourier compressor keeps and loses, in terms of the mathematical Fourier transform. *)
From Coq Require Import List ZArith Bool Lia Reals Lra ZifyBool Sorted.
From Flocq Require Import Core IEEE754.BinarySingleNaN IEEE754.Binary IEEE754.Bits.
From Verif Require Import Base Model_Float Model_Bincode BincodeFacts Spec FloatFacts Float32Facts ArithFacts Model_Utils UtilsFacts Model_Stats StatsFacts
  Model_Compressors Model_Polynomial Model_Fft Model_Stream FftFacts PolyApiFacts Spec_Metric Spec_Fourier FourierFacts Props_Lossless Props_Fft Props_Poly Props_Accuracy Props_CliFft FftValueFacts Props_FftValues
  Model_FreqOrder Props_FreqOrder.
Import ListNotations.
Open Scope Z_scope.

(** The (single-precision) samples the transform is given; the bin numbers a frame stores. *)
Definition samples_of (d : list f64) (j : nat) : R := R32 (f64_as_f32 (nth j d f0)).
Definition stored (f : fft_c) (k : nat) : bool := existsb (fun q => fq_pos q =? Z.of_nat k) (ff_freqs f).

(** Accuracy of the third-party transforms: the lower half of the computed transform of [d] is the mathematical one up to [eps] (and at most [B]);
    the real parts of the computed inverse transform of [N] bins up to [B] are the mathematical ones up to [eta]. *)
Definition forward_accurate (e : env) (d : list f64) (eps B : R) : Prop := forall k, (2 * k <= length d)%nat -> exists re im,
  nth_error (fe_fft (e_fft e) (as_signal d)) k = Some (re, im) /\ fin32 re = true /\ fin32 im = true /\
  (Rabs (R32 re - dft_re (length d) (samples_of d) k) <= eps /\ Rabs (R32 im - dft_im (length d) (samples_of d) k) <= eps /\ Rabs (R32 re) <= B /\ Rabs (R32 im) <= B)%R.
Definition bin_of (s : list c32) (k : nat) : c32 := nth k s (f32_zero, f32_zero).
Definition inverse_accurate (e : env) (N : nat) (eta B : R) : Prop := forall s, length s = N ->
  Forall (fun c => fin32 (fst c) = true /\ fin32 (snd c) = true /\ (Rabs (R32 (fst c)) <= B /\ Rabs (R32 (snd c)) <= B)%R) s ->
  forall j, (j < N)%nat -> exists re im, nth_error (fe_ifft (e_fft e) s) j = Some (re, im) /\ fin32 re = true /\
    (Rabs (R32 re - sum_to N (fun k => R32 (fst (bin_of s k)) * cos (turn N j k) - R32 (snd (bin_of s k)) * sin (turn N j k))) <= eta)%R.

(** *** Mathematics: a partial sum misses the series by the energy of the dropped frequencies; all frequencies give the series. *)
Theorem C70_dropped_energy : forall n x kept, (0 < n)%nat ->
  sum_to n (fun j => (x j - partial_sum n x kept j) * (x j - partial_sum n x kept j))%R = dropped_energy n x kept /\
  ((forall k, (2 * k <= n)%nat -> kept k = true) -> forall j, (j < n)%nat -> partial_sum n x kept j = x j).
Proof. intros n x kept Hn. split; [now apply partial_energy|]. intros H j Hj. now apply partial_all. Qed.
Print Assumptions C70_dropped_energy.

Lemma rebuilt_of_padded data d a b : data <> [] -> fft_padded data d a b -> rebuilt_size (length data) (length d) a /\ length d = (a + length data + b)%nat /\
  forall i x, nth_error data i = Some x -> nth_error d (a + i) = Some x.
Proof.
  intros Hne [(x & y & _ & _ & Hg) Hc].
  assert (L : length d = (a + length data + b)%nat) by (rewrite Hg, !app_length, !repeat_length; lia). split; [|split; [exact L|]].
  - destruct Hc as [(H1 & -> & ->)|(H1 & H2 & H3)]; [left; split; [lia|]; split; [lia|reflexivity]|right]. split; [lia|]. split; [exact H3|].
    apply Nat.div_unique with (length d - length data - 2 * a)%nat; lia.
  - intros i z Hz. rewrite Hg, nth_error_app2 by (rewrite repeat_length; lia). rewrite repeat_length. replace (a + i - a)%nat with i by lia.
    rewrite nth_error_app1; [exact Hz|]. apply nth_error_Some. congruence.
Qed.

Lemma stored_true f q k : In q (ff_freqs f) -> fq_pos q = Z.of_nat k -> stored f k = true.
Proof. intros H E. unfold stored. apply existsb_exists. exists q. split; [exact H|]. apply Z.eqb_eq, E. Qed.
Lemma stored_false f k : (forall q, In q (ff_freqs f) -> fq_pos q <> Z.of_nat k) -> stored f k = false.
Proof. intros H. unfold stored. destruct (existsb _ _) eqn:E; [|reflexivity]. apply existsb_exists in E. destruct E as (q & Q1 & Q2). apply Z.eqb_eq in Q2. exfalso. exact (H q Q1 Q2). Qed.

Lemma two_terms dr di c s eps : (Rabs dr <= eps)%R -> (Rabs di <= eps)%R -> (Rabs c <= 1)%R -> (Rabs s <= 1)%R -> (Rabs (dr * c - di * s) <= 2 * eps)%R.
Proof.
  intros H1 H2 H3 H4. unfold Rminus. eapply Rle_trans; [apply Rabs_triang|]. rewrite Rabs_Ropp, !Rabs_mult.
  assert (P1 := Rabs_pos dr). assert (P2 := Rabs_pos di). assert (P3 := Rabs_pos c). assert (P4 := Rabs_pos s).
  assert (A : (Rabs dr * Rabs c <= eps * 1)%R) by (apply Rmult_le_compat; assumption).
  assert (B : (Rabs di * Rabs s <= eps * 1)%R) by (apply Rmult_le_compat; assumption). lra.
Qed.
Lemma cos_abs x : (Rabs (cos x) <= 1)%R. Proof. apply Rabs_le, COS_bound. Qed.
Lemma sin_abs x : (Rabs (sin x) <= 1)%R. Proof. apply Rabs_le, SIN_bound. Qed.
Lemma sin_middle N j k : (0 < k)%nat -> (2 * k = N)%nat -> sin (turn N j k) = 0%R.
Proof.
  intros Hk <-. unfold turn. rewrite !mult_INR. change (INR 2) with 2%R. assert (INR k <> 0)%R by (assert (X := lt_0_INR k Hk); lra).
  replace (2 * PI * (INR j * INR k) / (2 * INR k))%R with (IZR (Z.of_nat j) * PI)%R by (rewrite <- INR_IZR_INZ; field; assumption). apply sin_eq_0_1. eauto.
Qed.

(** The spectrum a frame describes, compared with the kept part of the mathematical transform. *)
Lemma spectrum_near e f d eps B spec j :
  (0 < length d)%nat -> Z.of_nat (length d) <= 131071 -> transforms_ok (e_fft e) ->
  stored_bins (fe_fft (e_fft e) (as_signal d)) (ff_freqs f) -> forward_accurate e d eps B -> rebuilt_spectrum f (length d) spec ->
  Forall (fun c => fin32 (fst c) = true /\ fin32 (snd c) = true /\ (Rabs (R32 (fst c)) <= B /\ Rabs (R32 (snd c)) <= B)%R) spec /\
  (Rabs (/ INR (length d) * sum_to (length d) (fun k => R32 (fst (bin_of spec k)) * cos (turn (length d) j k) - R32 (snd (bin_of spec k)) * sin (turn (length d) j k)) - partial_sum (length d) (samples_of d) (stored f) j) <= 2 * eps)%R.
Proof.
  intros Hn Hl Ht (_ & Hsb) Hfwd (Sl & Slow & Sconj & Smid). set (N := length d) in *. set (x := samples_of d) in *.
  assert (Lt : length (fe_fft (e_fft e) (as_signal d)) = N) by now apply signal_length.
  destruct (Hsb ltac:(lia)) as [_ Hb]. rewrite Forall_forall in Hb.
  assert (Hz : fin32 f32_zero = true /\ R32 f32_zero = 0%R) by (split; reflexivity). destruct Hz as [Z0 ZR].
  assert (E0 : (0 <= eps /\ 0 <= B)%R).
  { destruct (Hfwd 0%nat ltac:(lia)) as (re & im & _ & _ & _ & A & _ & C & _). assert (P := Rabs_pos (R32 re - dft_re N x 0)). assert (Q := Rabs_pos (R32 re)). split; [eapply Rle_trans; [exact P|exact A]|eapply Rle_trans; [exact Q|exact C]]. }
  assert (Val : forall q k, In q (ff_freqs f) -> fq_pos q = Z.of_nat k -> (2 * k <= N)%nat -> exists re im, value q = (re, im) /\ fin32 re = true /\ fin32 im = true /\
     (Rabs (R32 re - dft_re N x k) <= eps /\ Rabs (R32 im - dft_im N x k) <= eps /\ Rabs (R32 re) <= B /\ Rabs (R32 im) <= B)%R).
  { intros q k Hq Hk H2. destruct (Hb q Hq) as (k' & (_ & N1 & _) & P1). assert (k' = k) by lia. subst k'. destruct (Hfwd k H2) as (re & im & M1 & M2).
    rewrite M1 in N1. exists re, im. split; [congruence|exact M2]. }
  assert (Each : forall k, (k < N)%nat -> exists c, nth_error spec k = Some c /\ fin32 (fst c) = true /\ fin32 (snd c) = true /\ (Rabs (R32 (fst c)) <= B /\ Rabs (R32 (snd c)) <= B)%R /\
     (Rabs (R32 (fst c) * cos (turn N j k) - R32 (snd c) * sin (turn N j k) -
       (if stored f (folded N k) then dft_re N x k * cos (turn N j k) - dft_im N x k * sin (turn N j k) else 0)) <= 2 * eps)%R /\
     ((2 * k < N)%nat -> stored f k = false -> R32 (fst c) = 0%R /\ R32 (snd c) = 0%R)).
  { assert (Zer : forall k, nth_error spec k = Some (f32_zero, f32_zero) -> stored f (folded N k) = false ->
       exists c, nth_error spec k = Some c /\ fin32 (fst c) = true /\ fin32 (snd c) = true /\ (Rabs (R32 (fst c)) <= B /\ Rabs (R32 (snd c)) <= B)%R /\
       (Rabs (R32 (fst c) * cos (turn N j k) - R32 (snd c) * sin (turn N j k) - (if stored f (folded N k) then dft_re N x k * cos (turn N j k) - dft_im N x k * sin (turn N j k) else 0)) <= 2 * eps)%R /\
       ((2 * k < N)%nat -> stored f k = false -> R32 (fst c) = 0%R /\ R32 (snd c) = 0%R)).
    { intros k Hk Hs. exists (f32_zero, f32_zero). cbn [fst snd]. rewrite Hs, ZR, Rabs_R0. split; [exact Hk|]. split; [exact Z0|]. split; [exact Z0|]. split; [split; lra|].
      split; [|intros _ _; split; reflexivity]. replace (0 * cos (turn N j k) - 0 * sin (turn N j k) - 0)%R with 0%R by ring. rewrite Rabs_R0. lra. }
    assert (Low : forall k, (2 * k < N)%nat -> exists c, nth_error spec k = Some c /\ fin32 (fst c) = true /\ fin32 (snd c) = true /\ (Rabs (R32 (fst c)) <= B /\ Rabs (R32 (snd c)) <= B)%R /\
       (stored f k = true -> (Rabs (R32 (fst c) - dft_re N x k) <= eps /\ Rabs (R32 (snd c) - dft_im N x k) <= eps)%R) /\ (stored f k = false -> R32 (fst c) = 0%R /\ R32 (snd c) = 0%R)).
    { intros k Hk. destruct (Slow k Hk) as [(q & Q1 & Q2 & Q3)|(Q1 & Q2)].
      - destruct (Val q k Q1 Q2 ltac:(lia)) as (re & im & V & F1 & F2 & D1 & D2 & D3 & D4). exists (value q). rewrite V in *. cbn [fst snd]. split; [exact Q3|]. split; [exact F1|]. split; [exact F2|].
        split; [split; assumption|]. split; [intros _; split; assumption|]. intros H. rewrite (stored_true f q k Q1 Q2) in H. discriminate H.
      - exists (f32_zero, f32_zero). cbn [fst snd]. rewrite ZR, Rabs_R0. split; [exact Q2|]. split; [exact Z0|]. split; [exact Z0|]. split; [split; lra|].
        split; [intros H; rewrite (stored_false f k Q1) in H; discriminate H|intros _; split; reflexivity]. }
    intros k Hk. destruct (Nat.lt_trichotomy (2 * k) N) as [L|[L|L]].
    - assert (Fk : folded N k = k) by (unfold folded; lia). destruct (Low k L) as (c & C1 & C2 & C3 & C4 & C5 & C6). exists c. rewrite Fk.
      split; [exact C1|]. split; [exact C2|]. split; [exact C3|]. split; [exact C4|]. split; [|intros _; exact C6]. destruct (stored f k) eqn:Es.
      + destruct (C5 eq_refl) as [D1 D2].
        replace (R32 (fst c) * cos (turn N j k) - R32 (snd c) * sin (turn N j k) - (dft_re N x k * cos (turn N j k) - dft_im N x k * sin (turn N j k)))%R
          with ((R32 (fst c) - dft_re N x k) * cos (turn N j k) - (R32 (snd c) - dft_im N x k) * sin (turn N j k))%R by ring.
        apply two_terms; [exact D1|exact D2|apply cos_abs|apply sin_abs].
      + destruct (C6 eq_refl) as [-> ->]. replace (0 * cos (turn N j k) - 0 * sin (turn N j k) - 0)%R with 0%R by ring. rewrite Rabs_R0. lra.
    - assert (Fk : folded N k = k) by (unfold folded; lia). assert (Sm := sin_middle N j k ltac:(lia) L).
      destruct (Smid k L) as [(q & c & Q1 & Q2 & Q3 & Q4)|(Q1 & Q2)]; [|apply Zer; [exact Q2|rewrite Fk; now apply stored_false]].
      destruct (Val q k Q1 Q2 ltac:(lia)) as (re & im & V & F1 & F2 & D1 & D2 & D3 & D4). rewrite V in Q4. destruct (conj_R (re, im) c Q4 F2) as (X1 & X2 & X3). cbn [fst snd] in *.
      exists c. rewrite X1, X3, Fk, (stored_true f q k Q1 Q2), Sm, Rabs_Ropp. split; [exact Q3|]. split; [exact F1|]. split; [exact X2|]. split; [split; assumption|]. split; [|lia].
      replace (R32 re * cos (turn N j k) - - R32 im * 0 - (dft_re N x k * cos (turn N j k) - dft_im N x k * 0))%R
        with ((R32 re - dft_re N x k) * cos (turn N j k) - (R32 im - dft_im N x k) * 0)%R by ring.
      apply two_terms; [exact D1|exact D2|apply cos_abs|rewrite Rabs_R0; lra].
    - set (m := (N - k)%nat). assert (Fk : folded N k = m) by (unfold folded; lia). assert (Pm : partner N m = k) by (unfold partner; destruct (Nat.eqb_spec m 0); lia).
      destruct (Sconj m ltac:(lia) ltac:(lia)) as (c0 & c & J1 & J2 & J3). replace (N - m)%nat with k in J2 by lia.
      destruct (Low m ltac:(lia)) as (c0' & C1 & C2 & C3 & C4 & C5 & C6). assert (c0' = c0) by congruence. subst c0'. destruct (conj_R c0 c J3 C3) as (X1 & X2 & X3).
      exists c. rewrite X1, X3, Fk, Rabs_Ropp. split; [exact J2|]. split; [exact C2|]. split; [exact X2|]. split; [exact C4|]. split; [|lia].
      destruct (dft_partner N Hn x m ltac:(lia)) as [P1 P2]. rewrite Pm in P1, P2. rewrite P1, P2. destruct (stored f m) eqn:Es.
      + destruct (C5 eq_refl) as [D1 D2].
        replace (R32 (fst c0) * cos (turn N j k) - - R32 (snd c0) * sin (turn N j k) - (dft_re N x m * cos (turn N j k) - - dft_im N x m * sin (turn N j k)))%R
          with ((R32 (fst c0) - dft_re N x m) * cos (turn N j k) - (R32 (snd c0) - dft_im N x m) * - sin (turn N j k))%R by ring.
        apply two_terms; [exact D1|exact D2|apply cos_abs|rewrite Rabs_Ropp; apply sin_abs].
      + destruct (C6 eq_refl) as [-> ->]. replace (0 * cos (turn N j k) - - 0 * sin (turn N j k) - 0)%R with 0%R by ring. rewrite Rabs_R0. lra. }
  split.
  - apply Forall_forall. intros c Hc. apply In_nth_error in Hc. destruct Hc as [k Hk]. assert (L : (k < N)%nat) by (rewrite <- Sl; exact (nth_lt _ _ _ Hk)).
    destruct (Each k L) as (c' & C1 & C2 & C3 & C4 & _). assert (Ec : Some c' = Some c) by (etransitivity; [symmetry; exact C1|exact Hk]). assert (c' = c) by congruence. subst c'. split; [exact C2|]. split; [exact C3|exact C4].
  - unfold partial_sum. rewrite <- Rmult_minus_distr_l, <- sum_minus, Rabs_mult.
    assert (P := lt_0_INR N Hn). assert (I := Rinv_0_lt_compat _ P). rewrite (Rabs_pos_eq (/ INR N)) by lra.
    apply Rle_trans with (/ INR N * (INR N * (2 * eps)))%R; [|right; field; lra]. apply Rmult_le_compat_l; [lra|].
    eapply Rle_trans; [apply sum_abs|]. rewrite <- sum_const. apply sum_le. intros k Hk. destruct (Each k Hk) as (c & C1 & _ & _ & _ & C5 & _).
    assert (Eb : bin_of spec k = c) by (unfold bin_of; apply nth_error_nth; exact C1). rewrite Eb. exact C5.
Qed.

(** *** A decompressed frame holds the partial sum over its stored frequencies *)
(** ... moved into the stored range, up to the errors of the transforms, six millionths and single precision. *)
Theorem C70_kept_frequencies : forall e p bytes f data d a b eps eta B, transforms_ok (e_fft e) ->
  data <> [] -> fft_padded data d a b -> Z.of_nat (length d) <= 131071 ->
  decode_unwrap dec_fft bytes = Ok f -> f32_eq (ff_max f) (ff_min f) = false ->
  fin32 (ff_min f) = true -> fin32 (ff_max f) = true -> (R32 (ff_min f) <= R32 (ff_max f))%R ->
  stored_bins (fe_fft (e_fft e) (as_signal d)) (ff_freqs f) ->
  forward_accurate e d eps B -> inverse_accurate e (length d) eta B ->
  exists out, decompress e p FFT (length data) bytes = Ok out /\ length out = length data /\
    forall i y, nth_error out i = Some y -> finite y /\
      exists v, (Rabs (v - partial_sum (length d) (samples_of d) (stored f) (a + i)) <= 2 * eps + eta / INR (length d))%R /\
        (Rabs (R64 y - limited (R32 (ff_min f)) (R32 (ff_max f)) v) <= 6 / 1000000 + bpow radix2 (-23) * Rabs v)%R.
Proof.
  intros e p bytes f data d a b eps eta B Ht Hne Hpad Hl Hd Hc Fn Fx Hm Hsb Hfwd Hinv.
  destruct (rebuilt_of_padded data d a b Hne Hpad) as (Hrs & Ld & _).
  assert (Hn : (1 <= length data)%nat) by (destruct data; [congruence|cbn; lia]).
  assert (Lt : length (fe_fft (e_fft e) (as_signal d)) = length d) by now apply signal_length.
  assert (Hpos : Forall (fun q => 0 <= 2 * fq_pos q <= Z.of_nat (length d)) (ff_freqs f)).
  { destruct Hsb as [_ Hsb]. destruct (Hsb ltac:(lia)) as [_ Hb]. eapply Forall_impl; [|exact Hb]. intros q (k & (K1 & _) & K2). lia. }
  destruct (C62_decoded_values e p bytes f (length data) (length d) a Ht Hd Hc Fn Fx Hm Hn Hrs ltac:(lia) Hpos) as (spec & out & Sp & Ho & Lo & Hv).
  exists out. split; [exact Ho|]. split; [exact Lo|]. intros i y Hy. assert (Li := nth_lt _ _ _ Hy). rewrite Lo in Li.
  destruct (spectrum_near e f d eps B spec (a + i) ltac:(lia) Hl Ht Hsb Hfwd Sp) as [Sb Sn].
  destruct (Hinv spec (proj1 Sp) Sb (a + i)%nat ltac:(lia)) as (re & im & I1 & I2 & I3).
  destruct (Hv i re im Li I1 I2) as (y' & Y1 & Y2 & Y3). assert (y' = y) by congruence. subst y'. split; [exact Y2|].
  exists (R32 re / INR (length d))%R. split; [|exact Y3].
  set (P := partial_sum _ _ _ _) in *. set (S0 := sum_to _ _) in *. set (N := INR (length d)) in *.
  assert (Np : (0 < N)%R) by (apply lt_0_INR; lia).
  replace (R32 re / N - P)%R with ((R32 re - S0) * / N + (/ N * S0 - P))%R by (field; lra). eapply Rle_trans; [apply Rabs_triang|].
  rewrite Rabs_mult, (Rabs_pos_eq (/ N)) by (apply Rlt_le, Rinv_0_lt_compat, Np).
  assert (A : (Rabs (R32 re - S0) * / N <= eta * / N)%R) by (apply Rmult_le_compat_r; [apply Rlt_le, Rinv_0_lt_compat, Np|exact I3]). unfold Rdiv. lra.
Qed.
Print Assumptions C70_kept_frequencies.

(** *** The loss of bounded Fourier compression *)
Lemma close_partial mn mx x v y : moderate32 mn -> moderate32 mx -> (R64 mn <= R64 x <= R64 mx)%R -> moderate32 x ->
  (Rabs (y - limited (R32 (f64_as_f32 mn)) (R32 (f64_as_f32 mx)) v) <= 6 / 1000000 + bpow radix2 (-23) * Rabs v)%R ->
  (Rabs (y - R64 x) <= (1 + bpow radix2 (-23)) * Rabs (v - R32 (f64_as_f32 x)) + 7 / 1000000 + bpow radix2 (-22) * Rabs (R64 x))%R.
Proof.
  intros M1 M2 H [Fx Bx] Hy. destruct (in_stored_range mn mx x M1 M2 H) as (_ & _ & L & In). destruct (f64_as_f32_fin x Fx Bx) as [_ Ex]. rewrite Ex.
  set (lo := R32 (f64_as_f32 mn)) in *. set (hi := R32 (f64_as_f32 mx)) in *.
  assert (E := rnd32_err (R64 x)). set (s := rnd32 (R64 x)) in *. set (r := R64 x) in *.
  assert (P24 : (bpow radix2 (-24) = / 16777216)%R) by (unfold bpow; cbn; lra).
  assert (P23 : (bpow radix2 (-23) = / 8388608)%R) by (unfold bpow; cbn; lra).
  assert (P22 : (bpow radix2 (-22) = / 4194304)%R) by (unfold bpow; cbn; lra).
  assert (P150' : (bpow radix2 (-150) <= / 1073741824 )%R) by (eapply Rle_trans; [apply (bpow_le radix2 (-150) (-30)); lia|unfold bpow; cbn; lra]).
  set (q := bpow radix2 (-150)) in *. assert (Q0 : (0 < q)%R) by apply bpow_gt_0. rewrite P24 in E. rewrite P23 in *. rewrite P22.
  assert (Dist : (Rabs (limited lo hi s - s) <= 0)%R) by (apply limited_dist; lra).
  assert (Lim := limited_near lo hi v s).
  assert (As : (Rabs s <= Rabs r + (/ 16777216 * Rabs r + q))%R) by (replace s with (r + (s - r))%R by ring; eapply Rle_trans; [apply Rabs_triang|]; lra).
  assert (Av : (Rabs v <= Rabs s + Rabs (v - s))%R) by (replace v with (s + (v - s))%R at 1 by ring; apply Rabs_triang).
  replace (y - r)%R with ((y - limited lo hi v) + (limited lo hi v - limited lo hi s) + (limited lo hi s - s) + (s - r))%R by ring.
  eapply Rle_trans; [apply Rabs_triang|]. eapply Rle_trans; [apply Rplus_le_compat_r, Rabs_triang|]. eapply Rle_trans; [apply Rplus_le_compat_r, Rplus_le_compat_r, Rabs_triang|].
  assert (Pr := Rabs_pos r). assert (Pd := Rabs_pos (v - s)). lra.
Qed.

Lemma sum_pairs (h : R -> R -> R) data : forall out (g : nat -> R), length out = length data ->
  (forall i x y, nth_error data i = Some x -> nth_error out i = Some y -> (h (R64 x) (R64 y) <= g i)%R) ->
  (fold_right Rplus 0 (map (fun '(o, y) => h (R64 o) (R64 y)) (combine data out)) <= sum_to (length data) g)%R.
Proof.
  induction data as [|x data IH]; intros out g L H; destruct out as [|y out]; try discriminate L; [cbn; lra|].
  cbn [combine map fold_right length]. rewrite <- (Nat.add_1_l (length data)), sum_split. cbn [sum_to]. assert (A := H 0%nat x y eq_refl eq_refl).
  assert (B := IH out (fun i => g (S i)) ltac:(cbn in L; lia) (fun i => H (S i))). cbn [Nat.add]. lra.
Qed.

Definition accurate_transforms (e : env) (data : list f64) (eps eta B : R) : Prop :=
  forall d a b, fft_padded data d a b -> forward_accurate e d eps B /\ inverse_accurate e (length d) eta B.

(** Each sample misses the original by hardly more than the partial sum over the stored frequencies does; the mean squared error is at most three times
    the energy of the dropped frequencies per sample, plus the square of the errors of the transforms and of the formats. *)
Theorem C70_loss : forall e p data bound bytes out eps eta B M,
  env_ok e -> data <> [] -> Z.of_nat (length data) <= 109000 -> Forall supported data -> Forall (fun x => (Rabs (R64 x) <= M)%R) data ->
  accurate_transforms e data eps eta B ->
  compress_bounded e p FFT data bound = Ok bytes -> decompress e p FFT (length data) bytes = Ok out ->
  nearly_equal data out \/
  exists f d a b, decode_unwrap dec_fft bytes = Ok f /\ fft_padded data d a b /\ length out = length data /\
    let slack := (2 * eps + eta / INR (length d))%R in
    (forall i x y, nth_error data i = Some x -> nth_error out i = Some y -> finite y /\
       (Rabs (R64 y - R64 x) <= (1 + bpow radix2 (-23)) * (Rabs (partial_sum (length d) (samples_of d) (stored f) (a + i) - samples_of d (a + i)) + slack) + 7 / 1000000 + bpow radix2 (-22) * Rabs (R64 x))%R) /\
    (mean_squared_error data out <= 3 * (dropped_energy (length d) (samples_of d) (stored f) / INR (length data) + (slack + 7 / 1000000 + bpow radix2 (-22) * M) * (slack + 7 / 1000000 + bpow radix2 (-22) * M)))%R.
Proof.
  intros e p data bound bytes out eps eta B M He Hne Hl Hs HM Hacc Hb Ho. assert (Hm : in_memory data) by (unfold in_memory; lia).
  destruct (bounded_shape e p data bound He Hne Hm) as (st & c & Hst & _ & Hc & Hmx & Hmn & Hcase).
  rewrite Hb in Hc. apply ok_inj in Hc. subst bytes.
  destruct Hcase as [(E & Hq0 & _)|(E & Hpost)]; [left; apply (fft_collapsed e p data c st); auto; lia|right].
  destruct (bounded_stored e data bound st c He Hne Hm Hpost) as (Hsb & _ & Hok & _). assert (Hpad := gibbs_padded data Hne ltac:(lia)).
  set (d := gibbs_data data) in *. set (a := fst (trim_sizes (length data))) in *. set (b := snd (trim_sizes (length data))) in *.
  destruct (rebuilt_of_padded data d a b Hne Hpad) as (_ & Ld & Hnth).
  assert (Hl2 : Z.of_nat (length d) <= 131071).
  { destruct Hpad as [_ [(_ & E1 & E2)|(H128 & _ & Hsm)]]; [lia|]. apply padded_ratio in Hsm; lia. }
  destruct (Hacc d a b Hpad) as [Hfwd Hinv]. assert (Hd := decode_fft c Hok).
  assert (Hfin := supported_forall_finite _ Hs).
  assert (BB : (bpow radix2 63 <= bpow radix2 127)%R) by (apply bpow_le; lia).
  destruct (C09_statistics_correct data Hne Hfin) as (st' & Hst' & (Xin & Xall & _) & (Nin & Nall & _)).
  rewrite Hst in Hst'. apply ok_inj in Hst'. subst st'.
  assert (Mod : forall x, In x data -> moderate32 x).
  { intros x Hx. rewrite Forall_forall in Hs. destruct (supported_bnd x (Hs x Hx)) as [F1 F2]. split; [exact F1|lra]. }
  assert (Mmn := Mod _ (nth_error_In _ _ Nin)). assert (Mmx := Mod _ (nth_error_In _ _ Xin)).
  assert (Rng : forall x, In x data -> (R64 (st_min st) <= R64 x <= R64 (st_max st))%R) by (intros x Hx; rewrite Forall_forall in *; split; auto).
  destruct (in_stored_range _ _ (st_min st) Mmn Mmx ltac:(split; [lra|apply Rng; eapply nth_error_In; exact Nin])) as (Fn & Fx & Hle & _).
  destruct (C70_kept_frequencies e p (enc_fft c) (no_error c) data d a b eps eta B (proj2 He) Hne Hpad Hl2 Hd E) as (out' & O1 & O2 & O3);
    try (cbn [no_error ff_min ff_max]; rewrite ?Hmn, ?Hmx; assumption); auto.
  rewrite Ho in O1. apply ok_inj in O1. subst out'.
  exists (no_error c), d, a, b. split; [exact Hd|]. split; [exact Hpad|]. split; [exact O2|]. cbv zeta.
  set (slack := (2 * eps + eta / INR (length d))%R). set (P := partial_sum (length d) (samples_of d) (stored (no_error c))).
  assert (P23 : (bpow radix2 (-23) = / 8388608)%R) by (unfold bpow; cbn; lra).
  assert (P22 : (bpow radix2 (-22) = / 4194304)%R) by (unfold bpow; cbn; lra).
  assert (Each : forall i x y, nth_error data i = Some x -> nth_error out i = Some y -> finite y /\ (0 <= slack)%R /\
       (Rabs (R64 y - R64 x) <= (1 + bpow radix2 (-23)) * (Rabs (P (a + i)%nat - samples_of d (a + i)) + slack) + 7 / 1000000 + bpow radix2 (-22) * Rabs (R64 x))%R).
  { intros i x y Hx Hy. destruct (O3 i y Hy) as (Fy & v & V1 & V2). split; [exact Fy|]. assert (Pv := Rabs_pos (v - P (a + i)%nat)). fold slack in V1. fold P in V1. split; [lra|].
    assert (Hin := nth_error_In _ _ Hx). cbn [no_error ff_min ff_max] in V2. rewrite Hmn, Hmx in V2.
    assert (C := close_partial _ _ x v (R64 y) Mmn Mmx (Rng x Hin) (Mod x Hin) V2).
    assert (Sx : samples_of d (a + i) = R32 (f64_as_f32 x)) by (unfold samples_of; rewrite (nth_error_nth d (a + i) f0 (Hnth i x Hx)); reflexivity).
    rewrite Sx. set (s := R32 (f64_as_f32 x)) in *.
    assert (T : (Rabs (v - s) <= Rabs (P (a + i)%nat - s) + slack)%R).
    { replace (v - s)%R with ((v - P (a + i)%nat) + (P (a + i)%nat - s))%R by ring. eapply Rle_trans; [apply Rabs_triang|]. lra. }
    rewrite P23 in *. lra. }
  split; [intros i x y Hx Hy; destruct (Each i x y Hx Hy) as (A1 & _ & A2); split; assumption|].
  set (r := (slack + 7 / 1000000 + bpow radix2 (-22) * M)%R). set (u := fun j => ((samples_of d j - P j) * (samples_of d j - P j))%R).
  assert (Sq : (fold_right Rplus 0 (map (fun '(o, g) => (R64 g - R64 o) * (R64 g - R64 o)) (combine data out)) <= sum_to (length data) (fun i => 3 * (u (a + i)%nat + r * r)))%R).
  { apply (sum_pairs (fun o g => (g - o) * (g - o))%R data out); [exact O2|]. intros i x y Hx Hy. destruct (Each i x y Hx Hy) as (_ & A1 & A2).
    assert (Hx' : (Rabs (R64 x) <= M)%R) by (rewrite Forall_forall in HM; apply HM; eapply nth_error_In; exact Hx).
    set (w := Rabs (P (a + i)%nat - samples_of d (a + i))) in *.
    assert (Ew : u (a + i)%nat = (w * w)%R).
    { unfold u, w. assert (X := Rsqr_abs (P (a + i)%nat - samples_of d (a + i))). unfold Rsqr in X. rewrite <- X. ring. }
    rewrite Ew. assert (W0 : (0 <= w)%R) by apply Rabs_pos. assert (X := Rsqr_abs (R64 y - R64 x)). unfold Rsqr in X. rewrite X.
    set (t := Rabs (R64 y - R64 x)) in *. assert (T0 : (0 <= t)%R) by apply Rabs_pos. rewrite P23, P22 in *.
    assert (R0 : (0 <= r)%R) by (unfold r; rewrite ?P22; assert (Y := Rabs_pos (R64 x)); lra).
    assert (T1 : (t <= (1 + / 8388608) * (w + r))%R) by (unfold r; rewrite ?P22; assert (Y := Rabs_pos (R64 x)); lra).
    assert (T2 : (t * t <= ((1 + / 8388608) * (w + r)) * ((1 + / 8388608) * (w + r)))%R) by (apply Rmult_le_compat; assumption).
    assert (T3 := Rle_0_sqr (w - r)). unfold Rsqr in T3. assert (Wr : (0 <= w * r)%R) by (apply Rmult_le_pos; assumption). assert (W2 := Rle_0_sqr w). assert (R2 := Rle_0_sqr r). unfold Rsqr in *. lra. }
  rewrite sum_scal, sum_plus, sum_const in Sq.
  assert (U : (sum_to (length data) (fun i => u (a + i)%nat) <= sum_to (length d) u)%R).
  { rewrite Ld, sum_split, sum_split.
    assert (U0 : forall j, (0 <= u j)%R) by (intros j; apply Rle_0_sqr).
    assert (A1 := sum_nonneg a u (fun j _ => U0 j)). assert (A2 := sum_nonneg b (fun i => u (a + length data + i)%nat) (fun j _ => U0 _)). lra. }
  assert (Hn : (0 < INR (length data))%R) by (apply lt_0_INR; destruct data; [congruence|cbn; lia]).
  assert (En : sum_to (length d) u = dropped_energy (length d) (samples_of d) (stored (no_error c))).
  { apply partial_energy. rewrite Ld. destruct data; [congruence|cbn; lia]. }
  rewrite En in U. unfold mean_squared_error, mean_over. set (F := fold_right _ _ _) in *. set (D := dropped_energy _ _ _) in *. set (n := INR (length data)) in *.
  apply Rle_trans with (3 * (D + n * (r * r)) / n)%R; [|right; field; lra]. apply Rmult_le_compat_r; [apply Rlt_le, Rinv_0_lt_compat, Hn|]. lra.
Qed.
Print Assumptions C70_loss.

(** *** The choice of frequencies *)
Lemma count_filter h s : count h s = length (filter s (seq 0 h)).
Proof. induction h as [|h IH]; [reflexivity|]. cbn [count]. rewrite seq_S, filter_app, app_length, <- IH. cbn [filter Nat.add]. destruct (s h); reflexivity. Qed.
Lemma count_at_least h s (l : list nat) : NoDup l -> (forall k, In k l -> (k < h)%nat /\ s k = true) -> (length l <= count h s)%nat.
Proof. intros N H. rewrite count_filter. apply NoDup_incl_length; [exact N|]. intros k Hk. apply filter_In. split; [apply in_seq; destruct (H k Hk); lia|apply H, Hk]. Qed.

Lemma modulus_near re im x y eps : (Rabs (R32 re - x) <= eps)%R -> (Rabs (R32 im - y) <= eps)%R -> (Rabs (modulus (re, im) - sqrt (x * x + y * y)) <= 2 * eps)%R.
Proof.
  intros H1 H2. unfold modulus. cbn [fst snd]. set (a := R32 re) in *. set (b := R32 im) in *.
  assert (E0 : (0 <= eps)%R) by (assert (P := Rabs_pos (a - x)); lra).
  assert (T : forall p q r s, (Rabs (p - r) <= eps -> Rabs (q - s) <= eps -> sqrt (p * p + q * q) <= sqrt (r * r + s * s) + 2 * eps)%R).
  { clear - E0. intros p q r s H1 H2. assert (Q := Rle_0_sqr r). assert (Q' := Rle_0_sqr s). unfold Rsqr in *. assert (S0 := sqrt_pos (r * r + s * s)). assert (Se := sqrt_sqrt (r * r + s * s) ltac:(lra)). set (m := sqrt (r * r + s * s)) in *.
    rewrite <- (sqrt_square (m + 2 * eps)) by lra. apply sqrt_le_1_alt.
    apply Rabs_le_inv in H1. apply Rabs_le_inv in H2.
    assert (Rr : (Rabs r <= m)%R) by (destruct (Rle_dec (Rabs r) m) as [G|G]; [exact G|exfalso; assert (X := Rsqr_abs r); unfold Rsqr in X; nra]).
    assert (Rs : (Rabs s <= m)%R) by (destruct (Rle_dec (Rabs s) m) as [G|G]; [exact G|exfalso; assert (X := Rsqr_abs s); unfold Rsqr in X; nra]).
    apply Rabs_le_inv in Rr. apply Rabs_le_inv in Rs.
    assert (A : ((p - r) * (p - r) <= eps * eps)%R) by nra. assert (B : ((q - s) * (q - s) <= eps * eps)%R) by nra.
    assert (A2 : (r * (p - r) <= m * eps)%R) by nra. assert (B2 : (s * (q - s) <= m * eps)%R) by nra. nra. }
  apply Rabs_le. assert (A := T a b x y H1 H2). assert (B := T x y a b ltac:(rewrite Rabs_minus_sym; exact H1) ltac:(rewrite Rabs_minus_sym; exact H2)). lra.
Qed.

(** The frequencies bounded Fourier compression stores are nearly the best choice: with any other choice of at most as many frequencies the dropped
    energy is at least half as large, up to the accuracy [delta] of the norm and [eps] of the transform ([theta] balances the two). *)
Theorem C70_near_best : forall e p norm delta data bound bytes f eps B,
  transforms_ok (e_fft e) -> std_heap (freq_cmp norm) (fe_pops (e_fft e)) -> norm_within delta norm -> (0 <= delta <= / 2)%R -> no_overflow e ->
  data <> [] -> Z.of_nat (length data) <= 109000 -> Forall supported data ->
  (forall d a b, fft_padded data d a b -> forward_accurate e d eps B) ->
  compress_bounded e p FFT data bound = Ok bytes -> decode_unwrap dec_fft bytes = Ok f ->
  exists d a b, fft_padded data d a b /\
    forall other theta, (count (length d / 2 + 1) other <= length (ff_freqs f))%nat -> (0 < theta)%R ->
      let ratio := ((1 + delta) / (1 - delta))%R in let off := (2 * eps * (1 + ratio) + bpow radix2 (-148))%R in
      (dropped_energy (length d) (samples_of d) (stored f) <=
       2 * ((1 + theta) * (ratio * ratio)) * dropped_energy (length d) (samples_of d) other + 2 * ((1 + / theta) * (off * off)))%R.
Proof.
  intros e p norm delta data bound bytes f eps B Ht Hh Hn Hd Hno Hne Hl Hs Hfwd Hb Hdec.
  destruct (C63_largest_stored e p norm delta data bound bytes f Ht Hh Hn Hno Hne ltac:(lia) Hs Hb Hdec) as (d & a & b & Hpad & Hsb & _ & Hlarge).
  exists d, a, b. split; [exact Hpad|]. intros other theta Hcnt Hth. cbv zeta. set (ratio := ((1 + delta) / (1 - delta))%R). set (off := (2 * eps * (1 + ratio) + bpow radix2 (-148))%R).
  destruct (rebuilt_of_padded data d a b Hne Hpad) as (_ & Ld & _). specialize (Hfwd d a b Hpad).
  assert (Hn1 : (1 <= length data)%nat) by (destruct data; [congruence|cbn; lia]).
  assert (Hl2 : Z.of_nat (length d) <= 131071).
  { destruct Hpad as [_ [(_ & E1 & E2)|(H128 & _ & Hsm)]]; [lia|]. apply padded_ratio in Hsm; lia. }
  assert (Lt : length (fe_fft (e_fft e) (as_signal d)) = length d) by now apply signal_length.
  set (N := length d) in *. set (x := samples_of d) in *. set (t := fe_fft (e_fft e) (as_signal d)) in *.
  assert (Q0 : (0 < bpow radix2 (-148))%R) by apply bpow_gt_0.
  assert (Q1 : (bpow radix2 (-148) = 2 * bpow radix2 (-149))%R) by (change (-148) with (1 + -149); rewrite bpow_plus; change (bpow radix2 1) with 2%R; reflexivity).
  assert (E0 : (0 <= eps)%R).
  { destruct (Hfwd 0%nat ltac:(lia)) as (re & im & _ & _ & _ & A & _). assert (P := Rabs_pos (R32 re - dft_re N x 0)). eapply Rle_trans; [exact P|exact A]. }
  assert (R1 : (1 <= ratio)%R) by (unfold ratio; apply Rmult_le_reg_r with (1 - delta)%R; [lra|]; unfold Rdiv; rewrite Rmult_assoc, Rinv_l by lra; lra).
  assert (O0 : (0 <= off)%R) by (unfold off; assert (0 <= eps * (1 + ratio))%R by (apply Rmult_le_pos; lra); lra).
  assert (Th : (0 < / theta)%R) by now apply Rinv_0_lt_compat.
  destruct Hsb as [_ Hsb]. destruct (Hsb ltac:(lia)) as [Nd Hbins]. clear Hsb. rewrite Forall_forall in Hbins.
  assert (Lens : (length (ff_freqs f) <= count (N / 2 + 1) (stored f))%nat).
  { rewrite <- (map_length fq_pos), <- (map_length Z.to_nat). apply count_at_least.
    - apply NoDup_map_inv with (f := Z.of_nat). rewrite map_map. rewrite (map_ext_in _ (fun z => z)); [rewrite map_id; exact Nd|].
      intros z Hz. apply in_map_iff in Hz. destruct Hz as (q & <- & Hq). destruct (Hbins q Hq) as (k & _ & ->). lia.
    - intros k Hk. apply in_map_iff in Hk. destruct Hk as (z & <- & Hz). apply in_map_iff in Hz. destruct Hz as (q & <- & Hq). destruct (Hbins q Hq) as (k & (K1 & _) & K2). rewrite K2, Nat2Z.id.
      assert (k <= N / 2)%nat by (apply Nat.div_le_lower_bound; lia). split; [lia|]. exact (stored_true f q k Hq K2). }
  assert (Norm : forall k re im, (2 * k <= N)%nat -> nth_error t k = Some (re, im) -> (Rabs (modulus (re, im) - sqrt (power N x k)) <= 2 * eps)%R).
  { intros k re im Hk Hnth. destruct (Hfwd k Hk) as (re' & im' & F1 & _ & _ & F2 & F3 & _). assert (Ep : Some (re', im') = Some (re, im)) by (etransitivity; [symmetry; exact F1|exact Hnth]).
    assert (re' = re) by congruence. assert (im' = im) by congruence. subst re' im'. apply modulus_near; assumption. }
  apply dropped_choice.
  - lia.
  - assert (1 * 1 <= ratio * ratio)%R by (apply Rmult_le_compat; lra). nra.
  - apply Rmult_le_pos; [lra|]. apply Rmult_le_pos; exact O0.
  - lia.
  - intros k l Hk Hl' Sk Sl. unfold stored in Sl. apply existsb_exists in Sl. destruct Sl as (q & Q2 & Q3). apply Z.eqb_eq in Q3.
    destruct (Hbins q Q2) as (l' & (_ & L2 & _) & L3). assert (l' = l) by lia. subst l'.
    destruct (Hfwd k Hk) as (re & im & F1 & _). set (g := {| fq_pos := Z.of_nat k; fq_re := re; fq_im := im |}).
    assert (Gb : is_bin t g k) by (split; [lia|]; split; [exact F1|]; cbn; symmetry; apply Z.mod_small; lia).
    assert (Gn : ~ In g (ff_freqs f)) by (intros G; rewrite (stored_true f g k G eq_refl) in Sk; discriminate Sk).
    assert (Al := Hlarge q g k Q2 Gb Gn). unfold at_least in Al. change (value g) with (re, im) in Al.
    assert (Nk := Norm k re im Hk F1). destruct (value q) as [qr qi]. assert (Nl := Norm l qr qi Hl' L2).
    assert (Pk := power_nonneg N x k). assert (Pl := power_nonneg N x l). rewrite <- (sqrt_sqrt _ Pk) at 1. rewrite <- (sqrt_sqrt _ Pl) at 1.
    assert (Sk0 := sqrt_pos (power N x k)). assert (Sl0 := sqrt_pos (power N x l)). set (sk := sqrt (power N x k)) in *. set (sl := sqrt (power N x l)) in *.
    set (mk := modulus (re, im)) in *. set (ml := modulus (qr, qi)) in *. apply Rabs_le_inv in Nk. apply Rabs_le_inv in Nl.
    assert (M : (mk <= ratio * ml + bpow radix2 (-148))%R).
    { unfold ratio. apply Rmult_le_reg_l with (1 - delta)%R; [lra|]. replace ((1 - delta) * ((1 + delta) / (1 - delta) * ml + bpow radix2 (-148)))%R with ((1 + delta) * ml + (1 - delta) * bpow radix2 (-148))%R by (field; lra).
      rewrite Q1. assert (0 < bpow radix2 (-149))%R by apply bpow_gt_0. nra. }
    assert (S1 : (sk <= ratio * sl + off)%R) by (unfold off; assert (ratio * (ml - sl) <= ratio * (2 * eps))%R by (apply Rmult_le_compat_l; lra); lra).
    assert (U : (0 <= ratio * sl)%R) by (apply Rmult_le_pos; lra).
    apply Rle_trans with ((ratio * sl + off) * (ratio * sl + off))%R; [apply Rmult_le_compat; assumption|].
    assert (Y := Rle_0_sqr (theta * (ratio * sl) - off)). unfold Rsqr in Y. set (w := (ratio * sl)%R) in *.
    replace ((1 + theta) * (ratio * ratio) * (sl * sl))%R with ((1 + theta) * (w * w))%R by (unfold w; ring).
    assert (Y2 : (0 <= / theta * ((theta * w - off) * (theta * w - off)))%R) by (apply Rmult_le_pos; [lra|exact Y]).
    replace (/ theta * ((theta * w - off) * (theta * w - off)))%R with (theta * (w * w) - 2 * (w * off) + / theta * (off * off))%R in Y2 by (field; lra). lra.
Qed.
Print Assumptions C70_near_best.

(** *** The hypotheses can be met: the two-point transform of single precision, with a sorting heap *)
Definition exact2_env : env :=
  {| e_idw := fun _ _ _ => f0; e_fft := {| fe_fft := sum2; fe_ifft := sum2; fe_pops := sort_by (freq_cmp larger_part) |} |}.
Lemma turns2 : cos (turn 2 0 0) = 1%R /\ cos (turn 2 0 1) = 1%R /\ cos (turn 2 1 0) = 1%R /\ cos (turn 2 1 1) = (-1)%R /\
  sin (turn 2 0 0) = 0%R /\ sin (turn 2 0 1) = 0%R /\ sin (turn 2 1 0) = 0%R /\ sin (turn 2 1 1) = 0%R.
Proof.
  assert (Z0 : forall j k, (j * k = 0)%nat -> turn 2 j k = 0%R) by (intros j k H; unfold turn; rewrite H; cbn [INR]; field).
  assert (Z1 : turn 2 1 1 = PI) by (unfold turn; cbn [INR Nat.mul Nat.add]; field).
  rewrite !(Z0 0%nat), (Z0 1%nat 0%nat), Z1, cos_0, sin_0, cos_PI, sin_PI by reflexivity. repeat split.
Qed.
Example C70_example : env_ok exact2_env /\ transforms_ok (e_fft exact2_env) /\ std_heap (freq_cmp larger_part) (fe_pops (e_fft exact2_env)) /\
  norm_within (/ 3) larger_part /\ no_overflow exact2_env /\ accurate_transforms exact2_env one_two 0 (1 / 1000000) 4 /\
  (exists x, fft_padded one_two x 0 0) /\
  (do b <- compress_bounded exact2_env Dev FFT one_two f0; do f <- decode_unwrap dec_fft b; do out <- decompress exact2_env Dev FFT 2 b;
   Ok (map (stored f) [0; 1]%nat, map to_bits out)) = Ok ([true; true], map to_bits one_two) /\
  (do b <- compress_bounded exact2_env Dev FFT one_two (int_as_f64 1); do f <- decode_unwrap dec_fft b; Ok (f32_eq (ff_max f) (ff_min f))) = Ok false.
Proof.
  destruct two_point_ok as (H1 & H2 & _). assert (Ht : transforms_ok (e_fft exact2_env)) by exact (proj2 H1).
  destruct (C63_zeros_last exact2_env larger_part (/ 3) Ht (sort_is_heap _) larger_part_within ltac:(lra)) as [He _].
  split; [exact He|]. split; [exact Ht|]. split; [apply sort_is_heap|]. split; [exact larger_part_within|]. split; [exact H2|].
  split; [|split; [|split; vm_compute; reflexivity]].
  2:{ exists (gibbs_data one_two). apply (gibbs_padded one_two); [intros X; discriminate X|cbn; lia]. }
  intros d a b [(x & y & _ & _ & Hg) Hc]. destruct Hc as [(_ & -> & ->)|(H128 & _)]; [|exfalso; cbn in H128; lia].
  cbn [repeat] in Hg. rewrite app_nil_r in Hg. change ([] ++ one_two) with one_two in Hg. subst d. clear x y.
  destruct turns2 as (T1 & T2 & T3 & T4 & T5 & T6 & T7 & T8).
  destruct (int_as_f64_exact 1 ltac:(lia)) as [R1 F1]. destruct (int_as_f64_exact 2 ltac:(lia)) as [R2 F2].
  assert (B127 : (4 <= bpow radix2 127)%R) by (change 4%R with (bpow radix2 2); apply bpow_le; lia).
  destruct (f64_as_f32_fin (int_as_f64 1) F1 ltac:(rewrite R1, Rabs_pos_eq; lra)) as [G1 E1]. rewrite R1, small_int32 in E1 by lia.
  destruct (f64_as_f32_fin (int_as_f64 2) F2 ltac:(rewrite R2, Rabs_pos_eq; lra)) as [G2 E2]. rewrite R2, small_int32 in E2 by lia.
  assert (C4 : bpow radix2 2 = 4%R) by reflexivity. change (length one_two) with 2%nat.
  assert (S0 : samples_of one_two 0 = 1%R) by exact E1. assert (S1 : samples_of one_two 1 = 2%R) by exact E2.
  assert (Z0 : fin32 f32_zero = true /\ R32 f32_zero = 0%R) by (split; reflexivity). destruct Z0 as [Z0 ZR].
  split.
  - assert (T : fe_fft (e_fft exact2_env) (as_signal one_two) = [(b32_plus mode_NE (f64_as_f32 (int_as_f64 1)) (f64_as_f32 (int_as_f64 2)), f32_zero); (b32_minus mode_NE (f64_as_f32 (int_as_f64 1)) (f64_as_f32 (int_as_f64 2)), f32_zero)]) by reflexivity.
    set (p := f64_as_f32 (int_as_f64 1)) in *. set (q := f64_as_f32 (int_as_f64 2)) in *.
    destruct (plus32 p q 2 G1 G2 ltac:(lia) ltac:(rewrite E1, C4, Rabs_pos_eq; lra) ltac:(rewrite E2, C4, Rabs_pos_eq; lra)) as [(P1 & P2 & _) (Q1 & Q2 & _)].
    rewrite E1, E2 in P2, Q2. replace (1 + 2)%R with (IZR 3) in P2 by (cbn; lra). replace (1 - 2)%R with (IZR (-1)) in Q2 by (cbn; lra).
    rewrite small_int32 in P2, Q2 by lia.
    intros k Hk. rewrite T. change (length one_two) with 2%nat in *. unfold dft_re, dft_im. cbn [sum_to]. rewrite S0, S1.
    destruct k as [|[|k]]; [| |lia].
    + exists (b32_plus mode_NE p q), f32_zero. rewrite P2, ZR, T1, T3, T5, T7. split; [reflexivity|]. split; [exact P1|]. split; [exact Z0|].
      replace (3 - (0 + 1 * 1 + 2 * 1))%R with 0%R by ring. replace (0 - - (0 + 1 * 0 + 2 * 0))%R with 0%R by ring. rewrite Rabs_R0, (Rabs_pos_eq 3) by lra. repeat split; lra.
    + exists (b32_minus mode_NE p q), f32_zero. rewrite Q2, ZR, T2, T4, T6, T8. split; [reflexivity|]. split; [exact Q1|]. split; [exact Z0|].
      replace (-1 - (0 + 1 * 1 + 2 * -1))%R with 0%R by ring. replace (0 - - (0 + 1 * 0 + 2 * 0))%R with 0%R by ring. rewrite Rabs_R0, (Rabs_left (-1)) by lra. repeat split; lra.
  - intros s Ls Hs j Hj. destruct s as [|[u1 v1] [|[u2 v2] [|c s]]]; try discriminate Ls.
    inversion Hs as [|? ? (A1 & A2 & A3 & A4) Hs']; subst. inversion Hs' as [|? ? (B1 & B2 & B3 & B4) _]; subst. cbn [fst snd] in *.
    destruct (plus32 u1 u2 2 A1 B1 ltac:(lia) ltac:(rewrite C4; exact A3) ltac:(rewrite C4; exact B3)) as [(P1 & P2 & _) (Q1 & Q2 & _)].
    cbn [exact2_env e_fft fe_ifft sum2 sum_to].
    change (bin_of [(u1, v1); (u2, v2)] 0) with (u1, v1). change (bin_of [(u1, v1); (u2, v2)] 1) with (u2, v2). cbn [fst snd].
    assert (P24 : (bpow radix2 (-24) = / 16777216)%R) by (unfold bpow; cbn; lra).
    assert (P150 : (bpow radix2 (-150) <= / 1073741824)%R) by (eapply Rle_trans; [apply (bpow_le radix2 (-150) (-30)); lia|unfold bpow; cbn; lra]).
    destruct j as [|[|j]]; [| |lia].
    + exists (b32_plus mode_NE u1 u2), f32_zero. split; [reflexivity|]. split; [exact P1|]. rewrite T1, T2, T5, T6, P2.
      replace (0 + (R32 u1 * 1 - R32 v1 * 0) + (R32 u2 * 1 - R32 v2 * 0))%R with (R32 u1 + R32 u2)%R by ring.
      eapply Rle_trans; [apply rnd32_err|]. assert (X := Rabs_triang (R32 u1) (R32 u2)). rewrite P24. lra.
    + exists (b32_minus mode_NE u1 u2), f32_zero. split; [reflexivity|]. split; [exact Q1|]. rewrite T3, T4, T7, T8, Q2.
      replace (0 + (R32 u1 * 1 - R32 v1 * 0) + (R32 u2 * -1 - R32 v2 * 0))%R with (R32 u1 - R32 u2)%R by ring.
      eapply Rle_trans; [apply rnd32_err|]. assert (X := Rabs_triang (R32 u1) (- R32 u2)). rewrite Rabs_Ropp in X. unfold Rminus in *. rewrite P24. lra.
Qed.
