(** C63: frequencies are compared by their norms; which frequencies the Fourier compressor keeps. *)
From Coq Require Import List ZArith Bool Lia Reals Lra Permutation Sorted ZifyBool.
From Flocq Require Import Core IEEE754.BinarySingleNaN IEEE754.Binary IEEE754.Bits.
From Verif Require Import Base Model_Float Model_Bincode BincodeFacts Spec FloatFacts Float32Facts ArithFacts Model_Utils UtilsFacts Model_Stats StatsFacts
  Model_Compressors Model_Polynomial Model_Fft Model_FreqOrder Model_Stream FftFacts PolyApiFacts Spec_Metric Props_Lossless Props_Fft Props_Poly Props_Accuracy Props_CliFft FftValueFacts.
Import ListNotations.
Open Scope Z_scope.

(** ** Vocabulary *)
(** What the standard library asks of a comparison: swapping the arguments swaps the answer, "at most" is transitive. *)
Definition total_order_on {A} (cmp : A -> A -> comparison) (l : list A) : Prop :=
  (forall a b, In a l -> In b l -> cmp b a = CompOpp (cmp a b)) /\
  (forall a b c, In a l -> In b l -> In c l -> cmp a b <> Gt -> cmp b c <> Gt -> cmp a c <> Gt).

(** What its documentation promises of a BinaryHeap built from a list and popped until it is empty: the pops are the
    elements; if the comparison is a total order on them, greater ones come first. *)
Definition std_heap {A} (cmp : A -> A -> comparison) (pops : list A -> list A) : Prop :=
  forall l, Permutation (pops l) l /\ (total_order_on cmp l -> StronglySorted (fun x y => cmp x y <> Lt) (pops l)).

(** Modulus of a complex number, and a function that computes it up to a relative [eps] and underflow. *)
Definition modulus (c : c32) : R := sqrt (R32 (fst c) * R32 (fst c) + R32 (snd c) * R32 (snd c)).
Definition norm_within (eps : R) (norm : c32 -> f32) : Prop := forall c, bounded_by 100 c ->
  fin32 (norm c) = true /\ (Rabs (R32 (norm c) - modulus c) <= eps * modulus c + bpow radix2 (-150))%R.

Definition nan32 (x : f32) : bool := Binary.is_nan 24 128 x.

(** ** The comparison *)
Definition key (x : f32) : R :=
  match x with
  | Binary.B754_infinity _ _ s => if s then (- bpow radix2 128)%R else bpow radix2 128
  | _ => R32 x
  end.
Lemma key_fin x : fin32 x = true -> key x = R32 x.
Proof. destruct x; try discriminate; reflexivity. Qed.
Lemma key_cmp x y : nan32 x = false -> nan32 y = false -> f32_cmp x y = Some (Rcompare (key x) (key y)).
Proof.
  intros Hx Hy. assert (P : (0 < bpow radix2 128)%R) by apply bpow_gt_0.
  destruct (fin32 x) eqn:Fx.
  - assert (Bx := Binary.abs_B2R_lt_emax 24 128 x). fold (R32 x) in Bx. apply Rabs_lt_inv in Bx. rewrite (key_fin x Fx).
    destruct (fin32 y) eqn:Fy; [rewrite (key_fin y Fy); now apply f32_cmp_R|].
    destruct y as [sy|sy|sy pl H|sy m e H]; try discriminate Fy; try discriminate Hy. cbn [key].
    destruct sy; [rewrite Rcompare_Gt by lra|rewrite Rcompare_Lt by lra]; destruct x; try discriminate Fx; reflexivity.
  - destruct x as [sx|sx|sx pl H|sx m e H]; try discriminate Fx; try discriminate Hx. cbn [key].
    destruct (fin32 y) eqn:Fy.
    + assert (By := Binary.abs_B2R_lt_emax 24 128 y). fold (R32 y) in By. apply Rabs_lt_inv in By. rewrite (key_fin y Fy).
      destruct sx; [rewrite Rcompare_Lt by lra|rewrite Rcompare_Gt by lra]; destruct y; try discriminate Fy; reflexivity.
    + destruct y as [sy|sy|sy pl H|sy m e H]; try discriminate Fy; try discriminate Hy. cbn [key].
      destruct sx, sy; [rewrite Rcompare_Eq by lra|rewrite Rcompare_Lt by lra|rewrite Rcompare_Gt by lra|rewrite Rcompare_Eq by lra]; reflexivity.
Qed.

Lemma freq_cmp_key norm a b : nan32 (norm (value a)) = false -> nan32 (norm (value b)) = false ->
  freq_cmp norm a b = Rcompare (key (norm (value a))) (key (norm (value b))).
Proof.
  intros Ha Hb. unfold freq_cmp, freq_eq, f32_eq, f32_gt. change (to_complex a) with (value a). change (to_complex b) with (value b).
  rewrite key_cmp by assumption. destruct (Rcompare _ _); reflexivity.
Qed.

(** The three comparisons agree with each other, and on frequencies without a NaN norm they are a total order that
    compares norms. *)
Theorem C63_total_order : forall norm,
  (forall a b, freq_partial_cmp norm a b = Some (freq_cmp norm a b) /\ (freq_eq norm a b = true <-> freq_cmp norm a b = Eq)) /\
  (forall l, Forall (fun q => nan32 (norm (value q)) = false) l -> total_order_on (freq_cmp norm) l) /\
  (forall a b, fin32 (norm (value a)) = true -> fin32 (norm (value b)) = true ->
     (freq_cmp norm a b = Lt <-> (R32 (norm (value a)) < R32 (norm (value b)))%R) /\
     (freq_cmp norm a b = Gt <-> (R32 (norm (value b)) < R32 (norm (value a)))%R)).
Proof.
  intros norm. assert (FN : forall x, fin32 x = true -> nan32 x = false) by (intros []; auto; discriminate).
  split; [|split].
  - intros a b. split; [reflexivity|]. unfold freq_cmp. destruct (freq_eq norm a b); [tauto|].
    destruct (f32_gt _ _); split; intros H; discriminate H.
  - intros l Hl. rewrite Forall_forall in Hl. split.
    + intros a b Ha Hb. rewrite !freq_cmp_key by auto. symmetry. rewrite <- Rcompare_sym. reflexivity.
    + intros a b c Ha Hb Hc. rewrite !freq_cmp_key by auto. intros H1 H2 H3. apply Rcompare_Gt_inv in H3.
      apply Rcompare_not_Gt_inv in H1. apply Rcompare_not_Gt_inv in H2. lra.
  - intros a b Fa Fb. rewrite freq_cmp_key, !key_fin by auto. split; split; intros H.
    + now apply Rcompare_Lt_inv. + now apply Rcompare_Lt. + now apply Rcompare_Gt_inv. + now apply Rcompare_Gt.
Qed.
Print Assumptions C63_total_order.

(** A NaN norm makes both ways round "less", and a frequency differs from itself: the [Ord] and [Eq] contracts are
    broken. *)
Theorem C63_nan_order_refuted : forall norm a b, nan32 (norm (value a)) = true ->
  freq_cmp norm a b = Lt /\ freq_cmp norm b a = Lt /\ freq_eq norm a a = false /\ ~ total_order_on (freq_cmp norm) [a; b].
Proof.
  intros norm a b Ha. change (value a) with (to_complex a) in Ha.
  assert (C1 : forall x, f32_cmp (norm (to_complex a)) x = None) by (intros x; destruct (norm (to_complex a)); try discriminate Ha; destruct x; reflexivity).
  assert (C2 : forall x, f32_cmp x (norm (to_complex a)) = None) by (intros x; destruct (norm (to_complex a)); try discriminate Ha; destruct x; reflexivity).
  assert (L1 : freq_cmp norm a b = Lt) by (unfold freq_cmp, freq_eq, f32_eq, f32_gt; now rewrite C1).
  assert (L2 : freq_cmp norm b a = Lt) by (unfold freq_cmp, freq_eq, f32_eq, f32_gt; now rewrite C2).
  split; [exact L1|]. split; [exact L2|]. split; [unfold freq_eq, f32_eq; now rewrite C1|].
  intros [H _]. specialize (H a b ltac:(now left) ltac:(right; now left)). rewrite L1, L2 in H. discriminate H.
Qed.
Print Assumptions C63_nan_order_refuted.

(** ** What the heap hands out *)
Lemma tiny32 x : fin32 x = true -> R32 x <> 0%R -> (bpow radix2 (-149) <= Rabs (R32 x))%R.
Proof.
  intros F H. assert (Q := Binary.abs_B2R_ge_emin 24 128 x). change (SpecFloat.emin 24 128) with (-149) in Q. apply Q.
  destruct x; try discriminate F; [|reflexivity]. exfalso. apply H. reflexivity.
Qed.
Lemma modulus_ge c : (Rabs (R32 (fst c)) <= modulus c /\ Rabs (R32 (snd c)) <= modulus c)%R.
Proof.
  unfold modulus. split; rewrite <- sqrt_Rsqr_abs; apply sqrt_le_1_alt; unfold Rsqr.
  - assert (Q := Rle_0_sqr (R32 (snd c))). unfold Rsqr in Q. lra.
  - assert (Q := Rle_0_sqr (R32 (fst c))). unfold Rsqr in Q. lra.
Qed.
Lemma modulus_nneg c : (0 <= modulus c)%R. Proof. apply sqrt_pos. Qed.
Lemma zero_norm eps norm c : norm_within eps norm -> (0 <= eps < / 2)%R -> bounded_by 100 c -> (R32 (norm c) <= 0)%R -> is_zero c = true.
Proof.
  intros Hn He Hb H. destruct (Hn c Hb) as [F E]. destruct Hb as [[F1 _] [F2 _]]. apply Rabs_le_inv in E.
  assert (D : (bpow radix2 (-149) = 2 * bpow radix2 (-150))%R) by (change (-149) with (1 + -150); rewrite bpow_plus; change (bpow radix2 1) with 2%R; reflexivity).
  assert (P : (0 < bpow radix2 (-150))%R) by apply bpow_gt_0. set (q := bpow radix2 (-150)) in *.
  destruct (modulus_ge c) as [M1 M2]. assert (M0 := modulus_nneg c).
  assert (Sm : (modulus c < 2 * q)%R) by nra.
  assert (Z1 : R32 (fst c) = 0%R). { destruct (Req_dec (R32 (fst c)) 0) as [|N]; [assumption|]. apply (tiny32 _ F1) in N. lra. }
  assert (Z2 : R32 (snd c) = 0%R). { destruct (Req_dec (R32 (snd c)) 0) as [|N]; [assumption|]. apply (tiny32 _ F2) in N. lra. }
  unfold is_zero. apply andb_true_intro. split; (apply f32_eq_R; [assumption|reflexivity|]); [rewrite Z2|rewrite Z1]; reflexivity.
Qed.
Lemma norm_of_zero eps norm c : norm_within eps norm -> bounded_by 100 c -> is_zero c = true -> (R32 (norm c) <= bpow radix2 (-150))%R.
Proof.
  intros Hn Hb H. destruct (Hn c Hb) as [F E]. destruct Hb as [[F1 _] [F2 _]]. unfold is_zero in H. apply andb_prop in H. destruct H as [H2 H1].
  apply f32_eq_R in H2; [|assumption|reflexivity]. apply f32_eq_R in H1; [|assumption|reflexivity]. change (R32 f32_zero) with 0%R in *.
  assert (M : modulus c = 0%R) by (unfold modulus; rewrite H1, H2; replace (0 * 0 + 0 * 0)%R with 0%R by ring; apply sqrt_0).
  rewrite M in E. apply Rabs_le_inv in E. lra.
Qed.

Lemma heap_sorted eps norm pops l : std_heap (freq_cmp norm) pops -> norm_within eps norm -> Forall (fun q => bounded_by 100 (value q)) l ->
  StronglySorted (fun x y => R32 (norm (value y)) <= R32 (norm (value x)))%R (pops l).
Proof.
  intros Hh Hn Hb. destruct (Hh l) as [P S0]. assert (FN : forall x, fin32 x = true -> nan32 x = false) by (intros []; auto; discriminate).
  destruct (C63_total_order norm) as (_ & T & C). assert (Fin : forall q, In q l -> fin32 (norm (value q)) = true).
  { intros q Hq. rewrite Forall_forall in Hb. apply Hn, Hb, Hq. }
  specialize (S0 ltac:(apply T, Forall_forall; auto)).
  assert (In' : forall q, In q (pops l) -> fin32 (norm (value q)) = true) by (intros q Hq; apply Fin, (Permutation_in q P), Hq).
  clear P T. induction S0 as [|x m Hm IH Hx]; constructor.
  - apply IH. intros q Hq. apply In'. now right.
  - rewrite Forall_forall in *. intros y Hy. specialize (Hx y Hy). destruct (C x y (In' x ltac:(now left)) (In' y ltac:(now right))) as [C1 _].
    destruct (Rle_or_lt (R32 (norm (value y))) (R32 (norm (value x)))) as [|Lt]; [assumption|]. exfalso. apply Hx, C1, Lt.
Qed.

(** The heap's contract and an accurate norm give what C59 and C62 ask of the heap. *)
Theorem C63_zeros_last : forall e norm eps, transforms_ok (e_fft e) -> std_heap (freq_cmp norm) (fe_pops (e_fft e)) ->
  norm_within eps norm -> (0 <= eps < / 2)%R -> env_ok e /\ zeros_last e.
Proof.
  intros e norm eps Ht Hh Hn He. split; [split; [intros l; apply Hh|exact Ht]|]. intros l Hb.
  assert (Srt := heap_sorted eps norm _ l Hh Hn Hb). destruct (Hh l) as [P _].
  assert (B : forall q, In q (fe_pops (e_fft e) l) -> bounded_by 100 (value q)).
  { intros q Hq. rewrite Forall_forall in Hb. apply Hb, (Permutation_in q P), Hq. }
  clear P. induction Srt as [|x m Hm IH Hx]; constructor.
  - apply IH. intros q Hq. apply B. now right.
  - rewrite Forall_forall in *. intros y Hy Z. specialize (Hx y Hy). apply (zero_norm eps norm); auto; [apply B; now right|].
    assert (Bx := B x ltac:(now left)). assert (N := norm_of_zero eps norm _ Hn Bx Z). destruct (Hn _ Bx) as [F _].
    destruct (Rle_or_lt (R32 (norm (value x))) 0) as [L|L]; [lra|]. exfalso. assert (Q := tiny32 _ F ltac:(lra)). rewrite Rabs_pos_eq in Q by lra.
    assert (bpow radix2 (-150) < bpow radix2 (-149))%R by (apply bpow_lt; lia). lra.
Qed.
Print Assumptions C63_zeros_last.

(** [x] is at least as large as [y], as far as single precision tells. *)
Definition at_least (eps : R) (x y : c32) : Prop := ((1 - eps) * modulus y <= (1 + eps) * modulus x + bpow radix2 (-149))%R.

Lemma at_least_norm eps norm x y : norm_within eps norm -> bounded_by 100 x -> bounded_by 100 y -> (R32 (norm y) <= R32 (norm x))%R -> at_least eps x y.
Proof.
  intros Hn Bx By H. destruct (Hn x Bx) as [_ E1]. destruct (Hn y By) as [_ E2]. apply Rabs_le_inv in E1. apply Rabs_le_inv in E2. unfold at_least.
  assert (D : (bpow radix2 (-149) = 2 * bpow radix2 (-150))%R) by (change (-149) with (1 + -150); rewrite bpow_plus; change (bpow radix2 1) with 2%R; reflexivity).
  rewrite D. lra.
Qed.

Lemma sorted_app_rel {A} (R : A -> A -> Prop) (l r : list A) : StronglySorted R (l ++ r) -> StronglySorted R l /\ forall x y, In x l -> In y r -> R x y.
Proof.
  induction l as [|a l IH]; cbn [app]; intros H; [split; [constructor|intros x y []]|]. apply StronglySorted_inv in H. destruct H as [H1 H2].
  destruct (IH H1) as [I1 I2]. rewrite Forall_forall in H2. split.
  - constructor; [exact I1|]. apply Forall_forall. intros y Hy. apply H2, in_app_iff. now left.
  - intros x y [<-|Hx] Hy; [apply H2, in_app_iff; now right|now apply I2].
Qed.

(** What is stored of a transform [t]: bins in decreasing order, none smaller than one left out. *)
Definition largest_bins (eps : R) (t : list c32) (qs : list freq) : Prop :=
  stored_bins t qs /\
  StronglySorted (fun q r => at_least eps (value q) (value r)) qs /\
  (forall q g k, In q qs -> is_bin t g k -> ~ In g qs -> at_least eps (value q) (value g)).

Lemma bin_in t g k : is_bin t g k -> In g (bins (half_spectrum t)).
Proof.
  intros (Hk & Hg & Hp). unfold value in Hg. assert (Hh' : nth_error (half_spectrum t) k = Some (fq_re g, fq_im g)).
  { etransitivity; [|exact Hg]. unfold half_spectrum. assert (Hkk : (k < length t / 2 + 1)%nat).
    { pose proof (Nat.div_mod (length t) 2 ltac:(lia)). pose proof (Nat.mod_upper_bound (length t) 2 ltac:(lia)). lia. }
    now apply nth_firstn. }
  apply bins_nth in Hh'. apply nth_error_In in Hh'. destruct g as [gp gr gi]. cbn [fq_pos fq_re fq_im] in *. rewrite Hp. exact Hh'.
Qed.

Lemma trim_largest env norm eps t m fs : std_heap (freq_cmp norm) (fe_pops env) -> norm_within eps norm -> Forall (bounded_by 100) t ->
  t <> [] -> m <> 1%nat -> fft_trim env (half_spectrum t) m = Ok fs -> largest_bins eps t fs.
Proof.
  intros Hh Hn Hb Ht Hm H. assert (Hok : heap_ok env) by (intros l; apply Hh).
  split; [now apply (trim_stored env t m fs)|].
  assert (Bb : forall q, In q (bins (half_spectrum t)) -> bounded_by 100 (value q)).
  { intros q Hq. apply bins_in in Hq. destruct Hq as (k & re & im & Hk & ->). apply half_nth in Hk. destruct Hk as [_ Hk].
    rewrite Forall_forall in Hb. apply Hb. eapply nth_error_In; exact Hk. }
  unfold fft_trim in H. destruct (Nat.eqb_spec m 1) as [|_]; [congruence|]. apply ok_inj in H.
  assert (Srt := heap_sorted eps norm (fe_pops env) (bins (half_spectrum t)) Hh Hn ltac:(apply Forall_forall; exact Bb)).
  assert (Perm := Hok (bins (half_spectrum t))). set (ps := fe_pops env (bins (half_spectrum t))) in *.
  assert (Bp : forall q, In q ps -> bounded_by 100 (value q)) by (intros q Hq; apply Bb, (Permutation_in q Perm), Hq).
  destruct (pop_freqs_prefix m ps) as [rest Hr]. rewrite H in Hr. rewrite Hr in Srt, Bp, Perm.
  destruct (sorted_app_rel _ fs rest Srt) as [S1 S2]. split.
  - assert (Bf : forall q, In q fs -> bounded_by 100 (value q)) by (intros q Hq; apply Bp, in_app_iff; now left). clear - S1 Bf Hn.
    induction S1 as [|x l Hl IH Hx]; constructor; [apply IH; intros q Hq; apply Bf; now right|].
    rewrite Forall_forall in *. intros y Hy. apply (at_least_norm eps norm); auto; apply Bf; [now left|now right].
  - intros q g k Hq Hg Hng. apply bin_in in Hg. apply (Permutation_in g (Permutation_sym Perm)) in Hg. apply in_app_iff in Hg.
    destruct Hg as [Hg|Hg]; [contradiction|]. apply (at_least_norm eps norm); auto; apply Bp, in_app_iff; auto.
Qed.

(** A Fourier frame made under an error bound, or with a requested number of frequencies (other than one), holds the
    bins of largest modulus of the transform it was made from, in decreasing order. *)
Theorem C63_largest_stored : forall e p norm eps data bound bytes f,
  transforms_ok (e_fft e) -> std_heap (freq_cmp norm) (fe_pops (e_fft e)) -> norm_within eps norm -> no_overflow e ->
  data <> [] -> Z.of_nat (length data) <= 131072 -> Forall supported data ->
  compress_bounded e p FFT data bound = Ok bytes -> decode_unwrap dec_fft bytes = Ok f ->
  exists d a b, fft_padded data d a b /\ largest_bins eps (fe_fft (e_fft e) (as_signal d)) (ff_freqs f).
Proof.
  intros e p norm eps data bound bytes f Ht Hh Hn [No1 _] Hne Hl Hs Hb Hd.
  assert (He : env_ok e) by (split; [intros l; apply Hh|exact Ht]). assert (Hm : in_memory data) by (unfold in_memory; lia).
  assert (Hbnd : Forall (bnd 63) data) by (eapply Forall_impl; [|exact Hs]; apply supported_bnd).
  destruct (bounded_shape e p data bound He Hne Hm) as (st & c & Hst & Hr' & Hc & Hmx & Hmn & Hcase).
  rewrite Hb in Hc. apply ok_inj in Hc. subst bytes.
  exists (gibbs_data data), (fst (trim_sizes (length data))), (snd (trim_sizes (length data))). split; [apply gibbs_padded; [exact Hne|lia]|].
  set (t := fe_fft (e_fft e) (as_signal (gibbs_data data))).
  assert (Nil : largest_bins eps t []).
  { split; [split; [apply Forall_nil|intros _; split; [constructor|apply Forall_nil]]|]. split; [constructor|]. intros q g k []. }
  destruct Hcase as [(E & Hq & He0)|(Hnc & Hp)].
  - rewrite decode_fft in Hd by (rewrite Hq; split; [apply Forall_nil|cbn; lia]). apply ok_inj in Hd. subst f. cbn [no_error ff_freqs]. rewrite Hq. exact Nil.
  - destruct (bounded_stored e data bound st c He Hne Hm Hp) as (_ & _ & Hok & _). rewrite (decode_fft c Hok) in Hd. apply ok_inj in Hd. subst f.
    cbn [no_error ff_freqs]. destruct Hp as (err & _ & [(Hf & _)|(budget & idata & Hbud & Htr & _)]); [rewrite Hf; exact Nil|].
    assert (Hdf := default_freqs_ge (length data)). assert (Hgl := gibbs_data_length data Hne).
    assert (Hn1 : (1 <= length data)%nat) by (destruct data; [congruence|cbn; lia]).
    assert (L18 : Z.of_nat (length (gibbs_data data)) <= 2 ^ 18).
    { destruct (gibbs_padded data Hne ltac:(lia)) as [_ [(_ & E1 & E2)|(H128 & _ & Hsm)]]; [lia|]. apply padded_ratio in Hsm; lia. }
    assert (Lt : length t = length (gibbs_data data)) by apply signal_length, Ht.
    apply (trim_largest (e_fft e) norm eps t budget); auto.
    + apply No1; [unfold as_signal; rewrite map_length; exact L18|]. apply bounded_signal, gibbs_forall; auto.
    + intros E. rewrite E in Lt. cbn in Lt. lia.
    + lia.
Qed.
Print Assumptions C63_largest_stored.

Theorem C63_largest_requested : forall e norm eps data m bytes f,
  transforms_ok (e_fft e) -> std_heap (freq_cmp norm) (fe_pops (e_fft e)) -> norm_within eps norm -> no_overflow e ->
  data <> [] -> Z.of_nat (length data) <= 131072 -> Forall supported data -> m <> 1%nat ->
  fft_set (e_fft e) data m = Ok bytes -> decode_unwrap dec_fft bytes = Ok f ->
  largest_bins eps (fe_fft (e_fft e) (as_signal data)) (ff_freqs f).
Proof.
  intros e norm eps data m bytes f Ht Hh Hn [No1 _] Hne Hl Hs Hm1 H Hd. assert (Hok : heap_ok (e_fft e)) by (intros l; apply Hh).
  assert (Hbnd : Forall (bnd 63) data) by (eapply Forall_impl; [|exact Hs]; apply supported_bnd).
  unfold fft_set in H. destruct data as [|x l] eqn:Ed; [congruence|]. cbn [fft_minmax bind] in H. rewrite <- Ed in *.
  set (mm := fold_left minmax_step data (x, x)) in *. unfold fft_compress_hinted in H. set (t := fe_fft (e_fft e) (as_signal data)).
  destruct (f32_eq (ff_max (fft_new (fst mm) (snd mm))) (ff_min (fft_new (fst mm) (snd mm)))) eqn:E; cbn [bind] in H.
  - apply ok_inj in H. subst bytes. rewrite decode_fft in Hd by (split; [apply Forall_nil|cbn; lia]). apply ok_inj in Hd. subst f. cbn [no_error fft_new ff_freqs].
    split; [split; [apply Forall_nil|intros _; split; [constructor|apply Forall_nil]]|]. split; [constructor|]. intros q g k [].
  - assert (Hsl := signal_length e data Ht). fold t in Hsl.
    assert (Hn1 : (1 <= length data)%nat) by (rewrite Ed; cbn; lia).
    assert (Hsn : t <> []) by (intros E'; rewrite E' in Hsl; cbn in Hsl; lia).
    change (fft_optimize data) with (as_signal data) in H. fold t in H.
    destruct (fft_trim_total (e_fft e) Hok (half_spectrum t) m) as (fs & Hf & _).
    { rewrite half_length; lia. }
    rewrite Hf in H. cbn [bind] in H. apply ok_inj in H. subst bytes. destruct (trim_stored (e_fft e) _ m fs Hok Hsn Hm1 Hf) as (H1 & H2 & H3).
    rewrite decode_fft in Hd.
    2:{ cbn [with_freqs ff_freqs]. destruct H1 as [H1 _]. split; [|lia].
        eapply Forall_impl; [|exact H1]. intros q (k & (_ & _ & ->) & _). unfold in_u. apply Z.mod_pos_bound. lia. }
    apply ok_inj in Hd. subst f. cbn [no_error with_freqs ff_freqs].
    apply (trim_largest (e_fft e) norm eps t m); auto.
    apply No1; [unfold as_signal; rewrite map_length; lia|]. now apply bounded_signal.
Qed.
Print Assumptions C63_largest_requested.

(** ** The hypotheses can be met *)
(** A heap: pops in the order of an insertion sort. *)
Fixpoint insert_by {A} (cmp : A -> A -> comparison) (x : A) (l : list A) : list A :=
  match l with
  | [] => [x]
  | y :: l' => match cmp x y with Lt => y :: insert_by cmp x l' | _ => x :: l end
  end.
Definition sort_by {A} (cmp : A -> A -> comparison) (l : list A) : list A := fold_right (insert_by cmp) [] l.

Lemma insert_perm {A} (cmp : A -> A -> comparison) x l : Permutation (insert_by cmp x l) (x :: l).
Proof.
  induction l as [|y l IH]; cbn; [apply Permutation_refl|]. destruct (cmp x y); try apply Permutation_refl.
  eapply Permutation_trans; [apply perm_skip, IH|apply perm_swap].
Qed.
Lemma sort_is_heap {A} (cmp : A -> A -> comparison) : std_heap cmp (sort_by cmp).
Proof.
  assert (P : forall l, Permutation (sort_by cmp l) l).
  { induction l as [|x l IH]; cbn; [constructor|]. eapply Permutation_trans; [apply insert_perm|now apply perm_skip]. }
  intros l. split; [apply P|]. intros [T1 T2].
  assert (Tr : forall x y z, In x l -> In y l -> In z l -> cmp x y <> Lt -> cmp y z <> Lt -> cmp x z <> Lt).
  { intros x y z Hx Hy Hz H1 H2 H3. assert (Q : cmp z x = Gt) by (rewrite (T1 x z Hx Hz), H3; reflexivity).
    apply (T2 z y x Hz Hy Hx); [rewrite (T1 y z Hy Hz)|rewrite (T1 x y Hx Hy)|exact Q]; [destruct (cmp y z)|destruct (cmp x y)]; cbn; congruence. }
  assert (G : forall s, incl s l -> StronglySorted (fun x y => cmp x y <> Lt) (sort_by cmp s)); [|apply G, incl_refl].
  induction s as [|x s IH]; intros Hi; cbn; [constructor|]. specialize (IH ltac:(intros z Hz; apply Hi; now right)).
  assert (Hx : In x l) by (apply Hi; now left).
  assert (Hs : incl (sort_by cmp s) l) by (intros z Hz; apply Hi; right; apply (Permutation_in z (P s)), Hz).
  clear - T1 Tr IH Hx Hs. fold (sort_by cmp s). induction IH as [|y m Hm IHm Hy]; cbn; [repeat constructor|].
  assert (Hyl : In y l) by (apply Hs; now left). assert (Hml : incl m l) by (intros z Hz; apply Hs; now right). rewrite Forall_forall in Hy.
  destruct (cmp x y) eqn:E.
  - constructor; [constructor; [exact Hm|now apply Forall_forall]|]. constructor; [congruence|]. apply Forall_forall. intros z Hz.
    apply (Tr x y z); auto; congruence.
  - constructor; [now apply IHm|]. apply Forall_forall. intros z Hz. apply (Permutation_in z (insert_perm cmp x m)) in Hz.
    destruct Hz as [<-|Hz]; [rewrite (T1 x y Hx Hyl), E; discriminate|now apply Hy].
  - constructor; [constructor; [exact Hm|now apply Forall_forall]|]. constructor; [congruence|]. apply Forall_forall. intros z Hz.
    apply (Tr x y z); auto; congruence.
Qed.

(** A norm good to 1/3: the larger part's magnitude. *)
Definition larger_part (c : c32) : f32 :=
  let a := Binary.Babs 24 128 unop_nan_pl32 (fst c) in let b := Binary.Babs 24 128 unop_nan_pl32 (snd c) in
  if f32_gt a b then a else b.
Lemma larger_part_within : norm_within (/ 3) larger_part.
Proof.
  intros c [[F1 _] [F2 _]]. unfold larger_part.
  set (a := Binary.Babs 24 128 unop_nan_pl32 (fst c)). set (b := Binary.Babs 24 128 unop_nan_pl32 (snd c)).
  assert (Fa : fin32 a = true) by (unfold fin32, a; rewrite Binary.is_finite_Babs; exact F1).
  assert (Fb : fin32 b = true) by (unfold fin32, b; rewrite Binary.is_finite_Babs; exact F2).
  assert (Ra : R32 a = Rabs (R32 (fst c))) by apply Binary.B2R_Babs. assert (Rb : R32 b = Rabs (R32 (snd c))) by apply Binary.B2R_Babs.
  assert (P : (0 < bpow radix2 (-150))%R) by apply bpow_gt_0. assert (M := modulus_nneg c). destruct (modulus_ge c) as [M1 M2].
  assert (Sq : (modulus c * modulus c = R32 a * R32 a + R32 b * R32 b)%R).
  { unfold modulus. rewrite sqrt_sqrt, Ra, Rb, <- !Rabs_mult.
    - rewrite !Rabs_pos_eq; [reflexivity|apply Rle_0_sqr|apply Rle_0_sqr].
    - assert (Q1 := Rle_0_sqr (R32 (fst c))). assert (Q2 := Rle_0_sqr (R32 (snd c))). unfold Rsqr in *. lra. }
  rewrite <- Ra in M1. rewrite <- Rb in M2.
  assert (A0 : (0 <= R32 a)%R) by (rewrite Ra; apply Rabs_pos). assert (B0 : (0 <= R32 b)%R) by (rewrite Rb; apply Rabs_pos).
  assert (K : forall big small, (0 <= small <= big)%R -> (big <= modulus c)%R -> (modulus c * modulus c = big * big + small * small)%R ->
    (Rabs (big - modulus c) <= / 3 * modulus c + bpow radix2 (-150))%R).
  { intros big small H1 H2 H3. rewrite Rabs_left1 by lra. assert (modulus c <= 3 / 2 * big)%R; [|lra].
    destruct (Rle_or_lt (modulus c) (3 / 2 * big)) as [|G]; [assumption|]. exfalso. nra. }
  unfold f32_gt. rewrite f32_cmp_R by assumption. destruct (Rcompare_spec (R32 a) (R32 b)).
  - split; [exact Fb|]. apply (K (R32 b) (R32 a)); lra.
  - split; [exact Fb|]. apply (K (R32 b) (R32 a)); lra.
  - split; [exact Fa|]. apply (K (R32 a) (R32 b)); lra.
Qed.

(** Untouched "transforms" with that heap and norm; of the bins 5, 1, 7, 3 of a series of six, the requested two are 7 and 5. *)
Definition sorted_env : env :=
  {| e_idw := fun _ _ _ => f0; e_fft := {| fe_fft := fun l => l; fe_ifft := fun l => l; fe_pops := sort_by (freq_cmp larger_part) |} |}.
Example C63_example : transforms_ok (e_fft sorted_env) /\ std_heap (freq_cmp larger_part) (fe_pops (e_fft sorted_env)) /\
  norm_within (/ 3) larger_part /\ (0 <= / 3 < / 2)%R /\ no_overflow sorted_env /\
  (do b <- fft_set (e_fft sorted_env) (map int_as_f64 [5; 1; 7; 3; 2; 2]) 2; do f <- decode_unwrap dec_fft b;
   Ok (map (fun q => (fq_pos q, f32_to_bits (fq_re q))) (ff_freqs f)))
  = Ok [(2, f32_to_bits (int_as_f32 7)); (0, f32_to_bits (int_as_f32 5))].
Proof.
  split; [split; reflexivity|]. split; [apply sort_is_heap|]. split; [exact larger_part_within|]. split; [lra|]. split.
  - assert (P63 : (bpow radix2 63 <= bpow radix2 100)%R) by (apply bpow_le; lia). split.
    + intros l _ H. eapply Forall_impl; [|exact H]. intros c [[A1 A2] [A3 A4]]. split; (split; [assumption|lra]).
    + intros l _ H. eapply Forall_impl; [|exact H]. intros c [[A1 _] _]. exact A1.
  - vm_compute. reflexivity.
Qed.
(** Frequencies of equal norm compare equal although their values differ: 5 and -5. *)
Example C63_equal_norm : let q z := {| fq_pos := 0; fq_re := int_as_f32 z; fq_im := f32_zero |} in
  freq_eq larger_part (q 5) (q (-5)) = true /\ freq_cmp larger_part (q 5) (q (-5)) = Eq /\ freq_cmp larger_part (q 5) (q 6) = Lt /\ freq_cmp larger_part (q 6) (q (-5)) = Gt.
Proof. vm_compute. auto. Qed.
