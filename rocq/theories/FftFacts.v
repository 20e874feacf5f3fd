(** Facts about the FFT compressor, for arbitrary transforms. *)
From Coq Require Import List ZArith Bool Lia Permutation Sorted ZifyBool.
From Verif Require Import Base Model_Float Model_Bincode BincodeFacts Spec FloatFacts Model_Utils UtilsFacts Model_Stats
  Model_Compressors Model_Polynomial Model_Fft.
Import ListNotations.
Open Scope Z_scope.

(** *** Wire format *)
Lemma codec_freq : codec enc_freq dec_freq (fun f => in_u 16 (fq_pos f)).
Proof.
  split.
  - intros [ps re im] rest H. unfold enc_freq, dec_freq. cbn [fq_pos fq_re fq_im] in *. rewrite <- !app_assoc.
    rewrite (bind_round _ _ _ _ _ _ codec_u16) by exact H.
    rewrite (bind_round _ _ _ _ _ _ codec_f32) by exact I.
    rewrite (bind_round _ _ _ _ _ _ codec_f32) by exact I. reflexivity.
  - intros [ps re im] q H Hp. unfold enc_freq in Hp. cbn [fq_pos fq_re fq_im] in *. unfold dec_freq.
    eapply bind_prefix; [exact codec_u16|exact H|exact Hp|]. intros q1 Hq1.
    eapply bind_prefix; [exact codec_f32|exact I|exact Hq1|]. intros q2 Hq2.
    rewrite <- (app_nil_r (enc_f32 im)) in Hq2.
    eapply bind_prefix; [exact codec_f32|exact I|exact Hq2|]. intros q3 Hq3. now apply strict_prefix_nil in Hq3.
  - intros f H. unfold enc_freq. destruct (enc_u16 (fq_pos f)) eqn:E; [|discriminate].
    exfalso. exact (cd_nonempty _ _ _ codec_u16 _ H E).
  - intros f H. unfold enc_freq, bytes_ok. rewrite !Forall_app. split; [|split].
    + exact (cd_bytes _ _ _ codec_u16 _ H).
    + exact (cd_bytes _ _ _ codec_f32 _ I).
    + exact (cd_bytes _ _ _ codec_f32 _ I).
Qed.

Definition freqs_ok (l : list freq) : Prop := Forall (fun f => in_u 16 (fq_pos f)) l /\ Z.of_nat (length l) < 2 ^ 64.
Definition no_error (c : fft_c) : fft_c := {| ff_freqs := ff_freqs c; ff_max := ff_max c; ff_min := ff_min c; ff_error := None |}.

Lemma decode_fft c : freqs_ok (ff_freqs c) -> decode_unwrap dec_fft (enc_fft c) = Ok (no_error c).
Proof.
  intros H. apply (decode_unwrap_ok _ _ _ []). rewrite <- (app_nil_r (enc_fft c)). unfold enc_fft, dec_fft. rewrite <- !app_assoc.
  rewrite (bind_round _ _ _ _ _ _ codec_u8) by (unfold byte_ok, FFT_COMPRESSOR_ID; lia).
  rewrite (bind_round _ _ _ _ _ _ (codec_vec _ _ _ codec_freq)) by exact H.
  rewrite (bind_round _ _ _ _ _ _ codec_f32) by exact I.
  rewrite (bind_round _ _ _ _ _ _ codec_f32) by exact I. reflexivity.
Qed.

Lemma enc_fft_bytes c : freqs_ok (ff_freqs c) -> bytes_ok (enc_fft c).
Proof.
  intros H. unfold enc_fft, bytes_ok. rewrite !Forall_app. repeat split.
  - apply (cd_bytes _ _ _ codec_u8). unfold byte_ok, FFT_COMPRESSOR_ID. lia.
  - exact (cd_bytes _ _ _ (codec_vec _ _ _ codec_freq) _ H).
  - exact (cd_bytes _ _ _ codec_f32 _ I).
  - exact (cd_bytes _ _ _ codec_f32 _ I).
Qed.

(** *** Bins *)
Lemma bins_length b : length (bins b) = length b.
Proof. unfold bins. rewrite map_length, combine_length, seq_length. lia. Qed.

Lemma nth_error_combine {A B} (l1 : list A) (l2 : list B) k a b :
  nth_error l1 k = Some a -> nth_error l2 k = Some b -> nth_error (combine l1 l2) k = Some (a, b).
Proof.
  revert l2 k. induction l1 as [|x l1 IH]; intros [|y l2] [|k] H1 H2; try discriminate; cbn in *.
  - injection H1 as ->. injection H2 as ->. reflexivity.
  - now apply IH.
Qed.
Lemma nth_error_seq a n k : (k < n)%nat -> nth_error (seq a n) k = Some (a + k)%nat.
Proof.
  revert a k. induction n as [|n IH]; intros a k Hk; [lia|]. destruct k as [|k]; cbn; [f_equal; lia|]. rewrite IH by lia. f_equal. lia.
Qed.

Lemma nth_lt {A} (l : list A) k x : nth_error l k = Some x -> (k < length l)%nat.
Proof. intros H. apply nth_error_Some. congruence. Qed.

Lemma bins_nth b k re im : nth_error b k = Some (re, im) ->
  nth_error (bins b) k = Some {| fq_pos := Z.of_nat k mod 65536; fq_re := re; fq_im := im |}.
Proof.
  intros H. unfold bins. rewrite nth_error_map.
  rewrite (nth_error_combine _ _ k k (re, im)); [reflexivity| |exact H].
  rewrite nth_error_seq; [reflexivity|]. exact (nth_lt _ _ _ H).
Qed.

Lemma bins_in b f : In f (bins b) -> exists k re im, nth_error b k = Some (re, im) /\
  f = {| fq_pos := Z.of_nat k mod 65536; fq_re := re; fq_im := im |}.
Proof.
  intros H. apply In_nth_error in H. destruct H as [k Hk].
  assert (Hl : (k < length b)%nat) by (rewrite <- bins_length; apply nth_error_Some; congruence).
  destruct (nth_error b k) as [[re im]|] eqn:E; [|apply nth_error_None in E; lia].
  rewrite (bins_nth b k re im E) in Hk. injection Hk as <-. eauto 6.
Qed.

Lemma list_ext_nth {A} (l1 l2 : list A) : (forall k, nth_error l1 k = nth_error l2 k) -> l1 = l2.
Proof.
  revert l2. induction l1 as [|a l1 IH]; intros [|b l2] H; [reflexivity|specialize (H 0%nat); discriminate..|].
  f_equal; [specialize (H 0%nat); cbn in H; congruence|]. apply IH. intros k. exact (H (S k)).
Qed.

Lemma bins_pos_nodup b : Z.of_nat (length b) <= 65536 -> NoDup (map fq_pos (bins b)).
Proof.
  intros Hl. assert (E : map fq_pos (bins b) = map (fun k => Z.of_nat k) (seq 0 (length b))).
  { apply list_ext_nth. intros k. rewrite !nth_error_map.
    destruct (nth_error b k) as [[re im]|] eqn:E.
    - assert (Hk : (k < length b)%nat) by exact (nth_lt _ _ _ E).
      rewrite (bins_nth b k re im E), nth_error_seq by assumption. cbn. f_equal. rewrite Z.mod_small by lia. reflexivity.
    - apply nth_error_None in E. rewrite (proj2 (nth_error_None (bins b) k)) by (rewrite bins_length; exact E).
      rewrite (proj2 (nth_error_None (seq 0 (length b)) k)) by (rewrite seq_length; exact E). reflexivity. }
  rewrite E. apply FinFun.Injective_map_NoDup; [intros x y; lia|apply seq_NoDup].
Qed.

(** *** Popping *)
Lemma pop_freqs_prefix n pops : exists rest, pops = pop_freqs n pops ++ rest.
Proof.
  revert pops. induction n as [|n IH]; intros [|f pops]; cbn [pop_freqs]; [eexists; reflexivity..|].
  destruct (freq_is_zero f); [eexists; reflexivity|]. destruct (IH pops) as [rest Hr]. exists rest. cbn [app]. now rewrite <- Hr.
Qed.
Lemma pop_freqs_length n pops : (length (pop_freqs n pops) <= n)%nat.
Proof.
  revert pops. induction n as [|n IH]; intros [|f pops]; cbn [pop_freqs length]; try lia.
  destruct (freq_is_zero f); cbn [length]; [lia|]. specialize (IH pops). lia.
Qed.
Lemma pop_freqs_nonzero n pops : Forall (fun f => freq_is_zero f = false) (pop_freqs n pops).
Proof.
  revert pops. induction n as [|n IH]; intros [|f pops]; cbn [pop_freqs]; try constructor.
  destruct (freq_is_zero f) eqn:E; constructor; auto.
Qed.
(** Why popping stops early. *)
Lemma pop_freqs_stop n pops : length (pop_freqs n pops) = n \/ pop_freqs n pops = pops \/
  exists z rest, pops = pop_freqs n pops ++ z :: rest /\ freq_is_zero z = true.
Proof.
  revert pops. induction n as [|n IH]; intros [|f pops]; cbn [pop_freqs]; auto.
  destruct (freq_is_zero f) eqn:E; [right; right; exists f, pops; auto|].
  destruct (IH pops) as [H|[H|(z & rest & H & Hz)]]; [left; cbn; auto|right; left; congruence|].
  right. right. exists z, rest. split; [cbn [app]; now rewrite <- H|exact Hz].
Qed.

Section Env.
Variable env : fft_env.
Definition heap_ok : Prop := forall l, Permutation (fe_pops env l) l.
Definition transforms_ok : Prop := (forall l, length (fe_fft env l) = length l) /\ (forall l, length (fe_ifft env l) = length l).
Hypothesis Hheap : heap_ok.

Lemma half_length b : (1 <= length b)%nat -> length (half_spectrum b) = (length b / 2 + 1)%nat.
Proof. intros H. unfold half_spectrum. rewrite firstn_length. pose proof (Nat.div_lt (length b) 2). lia. Qed.

Lemma fft_trim_total b m : (1 <= length b)%nat -> exists fs, fft_trim env b m = Ok fs /\
  Forall (fun f => exists k re im, nth_error b k = Some (re, im) /\ f = {| fq_pos := Z.of_nat k mod 65536; fq_re := re; fq_im := im |}) fs /\
  (length fs <= Nat.max m 1)%nat /\ (length fs <= length b)%nat /\
  (m <> 1%nat -> Forall (fun f => freq_is_zero f = false) fs) /\
  (Z.of_nat (length b) <= 65536 -> NoDup (map fq_pos fs)).
Proof.
  intros Hb. unfold fft_trim. destruct (Nat.eqb_spec m 1) as [->|Hm].
  - destruct b as [|[re im] b]; [cbn in Hb; lia|]. eexists. split; [reflexivity|]. split; [|split; [|split; [|split]]].
    + apply Forall_cons; [|apply Forall_nil]. exists 0%nat, re, im. split; reflexivity.
    + cbn. lia.
    + cbn. lia.
    + intros H. congruence.
    + intros _. cbn. constructor; [intros []|constructor].
  - eexists. split; [reflexivity|]. destruct (pop_freqs_prefix m (fe_pops env (bins b))) as [rest Hr].
    set (fs := pop_freqs m (fe_pops env (bins b))) in *.
    assert (Hin : forall f, In f fs -> In f (bins b)).
    { intros f Hf. apply (Permutation_in f (Hheap (bins b))). rewrite Hr. apply in_app_iff. now left. }
    split; [|split; [|split; [|split]]].
    + apply Forall_forall. intros f Hf. now apply bins_in, Hin.
    + pose proof (pop_freqs_length m (fe_pops env (bins b))). fold fs in H. lia.
    + assert (length (fe_pops env (bins b)) = length b) by (rewrite (Permutation_length (Hheap (bins b))); apply bins_length).
      rewrite Hr, app_length in H. lia.
    + intros _. apply pop_freqs_nonzero.
    + intros Hl. pose proof (bins_pos_nodup b Hl) as Hn.
      apply (Permutation_NoDup (Permutation_map fq_pos (Permutation_sym (Hheap (bins b))))) in Hn.
      rewrite Hr, map_app in Hn. clear -Hn. induction (map fq_pos fs) as [|x l IH]; [constructor|].
      cbn [app] in Hn. inversion Hn; subst. constructor; [intros Hx; apply H1, in_app_iff; now left|now apply IH].
Qed.

(** *** Mirroring *)
Lemma set_nth_ok {A} i (v : A) l : (i < length l)%nat -> exists l', set_nth i v l = Ok l' /\ length l' = length l /\
  forall k, nth_error l' k = if (k =? i)%nat then Some v else nth_error l k.
Proof.
  revert i. induction l as [|x l IH]; intros i Hi; [cbn in Hi; lia|]. destruct i as [|i]; cbn [set_nth].
  - eexists. split; [reflexivity|]. split; [reflexivity|]. intros [|k]; reflexivity.
  - cbn [length] in Hi. destruct (IH i ltac:(lia)) as (l' & H1 & H2 & H3). rewrite H1. cbn [bind]. eexists. split; [reflexivity|].
    split; [cbn; congruence|]. intros [|k]; [reflexivity|]. cbn. apply H3.
Qed.
Lemma set_nth_panic {A} i (v : A) l : (length l <= i)%nat -> set_nth i v l = Panic PIndex.
Proof.
  revert i. induction l as [|x l IH]; intros i Hi; [destruct i; reflexivity|]. destruct i as [|i]; cbn in *; [lia|]. rewrite IH by lia. reflexivity.
Qed.

Definition zero_c : c32 := (f32_zero, f32_zero).
(** What a bin of the mirrored spectrum holds. *)
Definition mirrored_at (fs : list freq) (len : nat) (spec : list c32) (k : nat) : Prop :=
  let low := (exists f, In f fs /\ fq_pos f = Z.of_nat k /\ nth_error spec k = Some (to_complex f) /\
                nth_error spec (len - k) = Some (to_inv_complex f)) in
  low \/ ((forall f, In f fs -> fq_pos f <> Z.of_nat k) /\ nth_error spec k = Some zero_c /\ nth_error spec (len - k) = Some zero_c).
Definition dc_at (fs : list freq) (spec : list c32) : Prop :=
  (exists f, In f fs /\ fq_pos f = 0 /\ nth_error spec 0 = Some (to_complex f)) \/
  ((forall f, In f fs -> fq_pos f <> 0) /\ nth_error spec 0 = Some zero_c).
Definition nyquist_at (fs : list freq) (len : nat) (spec : list c32) : Prop :=
  (exists f, In f fs /\ fq_pos f = Z.of_nat (len / 2) /\ nth_error spec (len / 2) = Some (to_inv_complex f)) \/
  ((forall f, In f fs -> fq_pos f <> Z.of_nat (len / 2)) /\ nth_error spec (len / 2) = Some zero_c).

Definition positions_within (len : nat) (fs : list freq) : Prop := Forall (fun f => 0 <= fq_pos f <= Z.of_nat len / 2) fs.

Lemma nth_error_repeat {A} (x : A) n k : (k < n)%nat -> nth_error (repeat x n) k = Some x.
Proof. revert k. induction n as [|n IH]; intros [|k] H; try lia; cbn; auto. apply IH. lia. Qed.

Definition mirror_inv (len : nat) (done : list freq) (spec : list c32) : Prop :=
  length spec = len /\ dc_at done spec /\ (forall k, (0 < k)%nat -> (2 * k < len)%nat -> mirrored_at done len spec k) /\
  ((0 < len)%nat -> (len mod 2 = 0)%nat -> nyquist_at done len spec).

Lemma mirror_loop fs : forall len done spec, (1 <= len)%nat -> positions_within len fs -> mirror_inv len done spec ->
  exists spec', fold_res (mirror_step len) fs spec = Ok spec' /\ mirror_inv len (done ++ fs) spec'.
Proof.
  induction fs as [|f fs IH]; intros len done spec Hlen Hp Hinv.
  - exists spec. split; [reflexivity|]. now rewrite app_nil_r.
  - inversion Hp as [|? ? Hf Hp']; subst. cbn [fold_res]. destruct Hinv as (Hl & Hdc & Hm & Hny).
    set (ps := Z.to_nat (fq_pos f)).
    assert (Hps : (2 * ps <= len)%nat /\ Z.of_nat ps = fq_pos f).
    { unfold ps. pose proof (Z.mul_div_le (Z.of_nat len) 2 ltac:(lia)). lia. }
    destruct Hps as [Hps Hpz].
    assert (Hlt : (ps < length spec)%nat) by lia.
    destruct (set_nth_ok ps (to_complex f) spec Hlt) as (s1 & E1 & L1 & N1).
    assert (Hstep : exists s2, mirror_step len spec f = Ok s2 /\ length s2 = len /\
      forall k, nth_error s2 k = if (k =? len - ps)%nat && negb (ps =? 0)%nat then Some (to_inv_complex f) else if (k =? ps)%nat then Some (to_complex f) else nth_error spec k).
    { unfold mirror_step. fold ps. rewrite E1. cbn [bind]. destruct (Nat.eqb_spec ps 0) as [E|E].
      - exists s1. split; [reflexivity|]. split; [lia|]. intros k. rewrite N1, andb_false_r. reflexivity.
      - destruct (set_nth_ok (len - ps) (to_inv_complex f) s1 ltac:(lia)) as (s2 & E2 & L2 & N2). exists s2. split; [exact E2|]. split; [lia|].
        intros k. rewrite N2, N1, andb_true_r. reflexivity. }
    destruct Hstep as (s2 & Es & L2 & N2). rewrite Es. cbn [bind].
    replace (done ++ f :: fs) with ((done ++ [f]) ++ fs) by (rewrite <- app_assoc; reflexivity).
    apply IH; [exact Hlen|exact Hp'|].
    assert (Hinl : forall g, In g (done ++ [f]) <-> In g done \/ g = f).
    { intros g. rewrite in_app_iff. cbn [In]. split; intros [H|H]; auto; [destruct H as [H|[]]; auto]. }
    split; [exact L2|]. split; [|split].
    + unfold dc_at in *. destruct (Nat.eqb_spec ps 0) as [E|E].
      * left. exists f. rewrite Hinl. split; [now right|]. split; [lia|]. rewrite N2.
        cbn [negb]. rewrite andb_false_r. now rewrite (proj2 (Nat.eqb_eq 0 ps)) by lia.
      * assert (E0 : nth_error s2 0 = nth_error spec 0).
        { rewrite N2. rewrite (proj2 (Nat.eqb_neq 0 (len - ps))) by lia. cbn [andb]. now rewrite (proj2 (Nat.eqb_neq 0 ps)) by lia. }
        rewrite E0. destruct Hdc as [(g & Hg & Hg2 & Hg3)|[Hg Hg3]].
        -- left. exists g. rewrite Hinl. auto.
        -- right. split; [|exact Hg3]. intros g. rewrite Hinl. intros [H|H]; [auto|]. subst g. lia.
    + intros k Hk Hk2. unfold mirrored_at in *. destruct (Nat.eqb_spec k ps) as [E|E].
      * left. exists f. rewrite Hinl. split; [now right|]. split; [lia|]. rewrite !N2. subst k.
        rewrite Nat.eqb_refl. rewrite (proj2 (Nat.eqb_neq ps (len - ps))) by lia. cbn [andb]. split; [reflexivity|].
        rewrite Nat.eqb_refl. rewrite (proj2 (Nat.eqb_neq ps 0)) by lia. reflexivity.
      * assert (E1' : nth_error s2 k = nth_error spec k).
        { rewrite N2. rewrite (proj2 (Nat.eqb_neq k (len - ps))) by lia. cbn [andb]. now rewrite (proj2 (Nat.eqb_neq k ps)) by lia. }
        assert (E2' : nth_error s2 (len - k) = nth_error spec (len - k)).
        { rewrite N2. rewrite (proj2 (Nat.eqb_neq (len - k) (len - ps))) by lia. cbn [andb]. now rewrite (proj2 (Nat.eqb_neq (len - k) ps)) by lia. }
        rewrite E1', E2'. destruct (Hm k Hk Hk2) as [(g & Hg & Hg2)|[Hg Hg2]].
        -- left. exists g. rewrite Hinl. auto.
        -- right. split; [|exact Hg2]. intros g. rewrite Hinl. intros [H|H]; [auto|]. subst g. lia.
    + intros H0 Hev. specialize (Hny H0 Hev). unfold nyquist_at in *. assert (Hh : (2 * (len / 2) = len)%nat) by (pose proof (Nat.div_mod len 2); lia).
      destruct (Nat.eqb_spec ps (len / 2)) as [E|E].
      * left. exists f. rewrite Hinl. split; [now right|]. split; [lia|]. rewrite N2.
        rewrite (proj2 (Nat.eqb_eq (len / 2) (len - ps))) by lia. rewrite (proj2 (Nat.eqb_neq ps 0)) by lia. reflexivity.
      * assert (E0 : nth_error s2 (len / 2) = nth_error spec (len / 2)).
        { rewrite N2. rewrite (proj2 (Nat.eqb_neq (len / 2) (len - ps))) by lia. cbn [andb]. now rewrite (proj2 (Nat.eqb_neq (len / 2) ps)) by lia. }
        rewrite E0. destruct Hny as [(g & Hg & Hg2 & Hg3)|[Hg Hg3]].
        -- left. exists g. rewrite Hinl. auto.
        -- right. split; [|exact Hg3]. intros g. rewrite Hinl. intros [H|H]; [auto|]. subst g. lia.
Qed.

Lemma mirrored_spec c len : (1 <= len)%nat -> positions_within len (ff_freqs c) ->
  exists spec, get_mirrored_freqs c len = Ok spec /\ mirror_inv len (ff_freqs c) spec.
Proof.
  intros Hlen Hp. unfold get_mirrored_freqs.
  destruct (mirror_loop (ff_freqs c) len [] (repeat (f32_zero, f32_zero) len) Hlen Hp) as (spec & H1 & H2).
  - split; [apply repeat_length|]. split; [|split].
    + right. split; [intros f []|]. apply nth_error_repeat. lia.
    + intros k H0 Hk. right. split; [intros f []|]. split; apply nth_error_repeat; lia.
    + intros H0 Hev. right. split; [intros f []|]. apply nth_error_repeat. apply Nat.div_lt; lia.
  - exists spec. split; [exact H1|exact H2].
Qed.

(** *** Gibbs padding *)
Lemma gibbs_added_spec n : (1 <= n)%nat -> Z.of_nat n < 2 ^ 62 ->
  Z.of_nat (n + gibbs_added n) = next_size (Z.of_nat n) /\ (1 <= gibbs_added n <= n)%nat.
Proof.
  intros Hn Hb. destruct (next_size_spec (Z.of_nat n) ltac:(lia)) as (H1 & H2 & _ & H3). specialize (H3 ltac:(lia)).
  unfold gibbs_added. lia.
Qed.

Lemma gibbs_sizing_eq data first : last_opt data <> None -> nth_error data 0 = Some first -> exists lst, last_opt data = Some lst /\
  gibbs_sizing data = repeat first (gibbs_added (length data) / 2) ++ data ++ repeat lst (gibbs_added (length data) - gibbs_added (length data) / 2).
Proof.
  intros H1 H2. destruct (last_opt data) as [lst|] eqn:E; [|congruence]. exists lst. split; [reflexivity|].
  unfold gibbs_sizing. destruct data as [|a l]; [discriminate|]. rewrite E. cbn in H2. injection H2 as ->. reflexivity.
Qed.

Lemma last_opt_nonempty {A} (l : list A) : l <> [] -> last_opt l <> None.
Proof. intros H. unfold last_opt. destruct (rev l) eqn:E; [|discriminate]. intros _. apply H. rewrite <- (rev_involutive l), E. reflexivity. Qed.

Lemma gibbs_sizing_length data : data <> [] -> length (gibbs_sizing data) = (length data + gibbs_added (length data))%nat.
Proof.
  intros H. destruct data as [|a l] eqn:E; [congruence|]. rewrite <- E in *.
  destruct (gibbs_sizing_eq data a) as (lst & _ & ->); [now apply last_opt_nonempty|now rewrite E|].
  rewrite !app_length, !repeat_length. pose proof (Nat.div_le_upper_bound (gibbs_added (length data)) 2 (gibbs_added (length data)) ltac:(lia)). lia.
Qed.

Lemma gibbs_data_length data : data <> [] ->
  length (gibbs_data data) = (length data + fst (trim_sizes (length data)) + snd (trim_sizes (length data)))%nat.
Proof.
  intros H. unfold gibbs_data, trim_sizes. destruct (gibbs_applies (length data)); cbn [fst snd]; [|lia].
  rewrite gibbs_sizing_length by assumption.
  pose proof (Nat.div_le_upper_bound (gibbs_added (length data)) 2 (gibbs_added (length data)) ltac:(lia)). lia.
Qed.

(** *** The compressor *)
Hypothesis Htr : transforms_ok.

Lemma optimize_length data : length (fft_optimize data) = length data.
Proof. apply map_length. Qed.

(** Frequencies come from the given half spectrum and fit the frame. *)
Definition from_spectrum (b : list c32) (fs : list freq) : Prop :=
  Forall (fun f => exists k re im, nth_error b k = Some (re, im) /\ f = {| fq_pos := Z.of_nat k mod 65536; fq_re := re; fq_im := im |}) fs.

Lemma from_spectrum_within b len fs : (length b <= len / 2 + 1)%nat -> from_spectrum b fs -> positions_within len fs.
Proof.
  intros Hb H. unfold from_spectrum, positions_within in *. eapply Forall_impl; [|exact H]. intros f (k & re & im & Hk & ->). cbn [fq_pos].
  assert (k < length b)%nat by exact (nth_lt _ _ _ Hk).
  pose proof (Z.mod_pos_bound (Z.of_nat k) 65536 ltac:(lia)). pose proof (Z.mod_le (Z.of_nat k) 65536 ltac:(lia) ltac:(lia)).
  assert (Z.of_nat (len / 2) = Z.of_nat len / 2) by (rewrite Nat2Z.inj_div; reflexivity). lia.
Qed.

Lemma from_spectrum_ok b fs : from_spectrum b fs -> (length fs <= length b)%nat -> Z.of_nat (length b) < 2 ^ 64 -> freqs_ok fs.
Proof.
  intros H Hl Hb. split; [|lia]. eapply Forall_impl; [|exact H]. intros f (k & re & im & _ & ->). cbn [fq_pos]. unfold in_u.
  apply Z.mod_pos_bound. lia.
Qed.

Definition same_range (c c' : fft_c) : Prop := ff_max c' = ff_max c /\ ff_min c' = ff_min c.

(** The increment accumulated after [it] rounds, and the number of frequencies asked for in the last one. *)
Definition jump_at (max_freq : nat) (it : Z) : nat :=
  (Z.to_nat (Z.min it 17) * Nat.max (max_freq / 2) 1 + Z.to_nat (it - 17) * Nat.max (max_freq / 10) 1)%nat.
Definition last_budget (max_freq : nat) : nat := (max_freq + 17 * Nat.max (max_freq / 2) 1 + 5 * Nat.max (max_freq / 10) 1)%nat.
Lemma last_budget_eq mf : (mf + jump_at mf 22 = last_budget mf)%nat.
Proof. unfold jump_at, last_budget. change (Z.to_nat (Z.min 22 17)) with 17%nat. change (Z.to_nat (22 - 17)) with 5%nat. lia. Qed.
Lemma jump_at_mono mf it : 0 <= it <= 22 -> (jump_at mf it <= jump_at mf 22)%nat.
Proof. intros H. unfold jump_at. apply Nat.add_le_mono; apply Nat.mul_le_mono_r; lia. Qed.
Lemma jump_at_step mf it inc : 0 <= it -> fft_jump_increment (it + 1) mf = Some inc -> (jump_at mf it + inc = jump_at mf (it + 1))%nat.
Proof.
  intros H Hi. unfold fft_jump_increment in Hi. unfold jump_at. destruct (it + 1 <=? 17) eqn:E1.
  - assert (Hi' : forall a b : nat, Some a = Some b -> a = b) by (intros ? ? X; congruence); apply Hi' in Hi; subst inc. replace (Z.to_nat (Z.min (it + 1) 17)) with (S (Z.to_nat (Z.min it 17))) by lia.
    replace (Z.to_nat (it + 1 - 17)) with 0%nat by lia. replace (Z.to_nat (it - 17)) with 0%nat by lia. ring.
  - destruct (it + 1 <=? 22) eqn:E2; [|discriminate]. assert (Hi' : forall a b : nat, Some a = Some b -> a = b) by (intros ? ? X; congruence); apply Hi' in Hi; subst inc.
    replace (Z.to_nat (Z.min (it + 1) 17)) with (Z.to_nat (Z.min it 17)) by lia.
    replace (Z.to_nat (it + 1 - 17)) with (S (Z.to_nat (it - 17))) by lia. ring.
Qed.
Lemma last_budget_le mf : (3 <= mf)%nat -> (last_budget mf <= 11 * mf)%nat.
Proof.
  intros H. unfold last_budget. pose proof (Nat.div_mod mf 2 ltac:(lia)). pose proof (Nat.div_mod mf 10 ltac:(lia)).
  pose proof (Nat.mod_upper_bound mf 2 ltac:(lia)). lia.
Qed.

(** The error loop: ends, and leaves either the untouched frame or one trimmed from the spectrum. *)
Lemma fft_loop_spec g_data spectrum max_err max_freq : (1 <= length g_data)%nat -> (2 <= max_freq)%nat ->
  length spectrum = (length g_data / 2 + 1)%nat ->
  forall fuel it c err, 0 <= it <= 22 -> Z.of_nat fuel = 24 - it ->
  exists c' err', fft_loop env fuel g_data spectrum max_err c err max_freq (jump_at max_freq it) it = Ok (c', err') /\ same_range c c' /\
    ((c' = c /\ err' = err /\ permille max_err <? permille err = false) \/
     exists budget idata, (max_freq <= budget <= last_budget max_freq)%nat /\ fft_trim env spectrum budget = Ok (ff_freqs c') /\
       get_mirrored_freqs c' (length g_data) = Ok idata /\
       calculate_error g_data (fft_scale c' (length g_data) (fe_ifft env idata)) = Ok err' /\
       (permille err' <= permille max_err \/ budget = last_budget max_freq)).
Proof.
  intros Hg Hmf Hsp. induction fuel as [|fuel IH]; intros it c err Hit Hfuel; [lia|].
  cbn [fft_loop]. destruct (permille max_err <? permille err) eqn:Ec; cbn [negb].
  2:{ exists c, err. repeat split; auto. }
  cbv zeta. destruct (fft_trim_total spectrum (max_freq + jump_at max_freq it) ltac:(lia)) as (fs & E1 & E2 & _ & El & _ & _). rewrite E1. cbn [bind].
  assert (Hw : positions_within (length g_data) fs) by (eapply from_spectrum_within; [|exact E2]; lia).
  destruct (mirrored_spec (with_freqs c fs) (length g_data) Hg Hw) as (idata & E3 & E4). rewrite E3. cbn [bind].
  assert (Hlen : length (fft_scale (with_freqs c fs) (length g_data) (fe_ifft env idata)) = length g_data).
  { unfold fft_scale. rewrite map_length, (proj2 Htr). apply E4. }
  destruct (calculate_error g_data (fft_scale (with_freqs c fs) (length g_data) (fe_ifft env idata))) as [e1|] eqn:E5.
  2:{ exfalso. unfold calculate_error, method_error, error_mape in E5. rewrite Hlen, Nat.eqb_refl in E5. discriminate. }
  assert (Hbud : (max_freq <= max_freq + jump_at max_freq it <= last_budget max_freq)%nat).
  { rewrite <- last_budget_eq. pose proof (jump_at_mono max_freq it ltac:(lia)). lia. }
  cbn [bind]. destruct (fft_jump_increment (it + 1) max_freq) as [inc|] eqn:Ej.
  - assert (Hinc : it + 1 <= 22).
    { unfold fft_jump_increment in Ej. destruct (it + 1 <=? 17) eqn:Ea; [lia|]. destruct (it + 1 <=? 22) eqn:Eb; [lia|discriminate]. }
    rewrite (jump_at_step max_freq it inc ltac:(lia) Ej).
    destruct (IH (it + 1) (with_freqs c fs) e1 ltac:(lia) ltac:(lia)) as (c' & err' & Hr & Hsr & Hcase).
    exists c', err'. split; [exact Hr|]. split; [exact Hsr|]. right.
    destruct Hcase as [(-> & -> & Hx)|Hcase]; [|exact Hcase]. exists (max_freq + jump_at max_freq it)%nat, idata. repeat split; auto; try lia.
  - exists (with_freqs c fs), e1. split; [reflexivity|]. split; [split; reflexivity|]. right. exists (max_freq + jump_at max_freq it)%nat, idata.
    assert (it = 22). { unfold fft_jump_increment in Ej. destruct (it + 1 <=? 17) eqn:Ea; [discriminate|]. destruct (it + 1 <=? 22) eqn:Eb; [discriminate|]. lia. }
    subst it. repeat split; auto; try lia. right. apply last_budget_eq.
Qed.

Lemma default_freqs_ge n : (3 <= default_freqs n)%nat.
Proof. unfold default_freqs. destruct (n / 100 <=? 3)%nat eqn:E; [lia|]. apply Nat.leb_gt in E. lia. Qed.

Lemma gibbs_data_nonempty data : data <> [] -> (1 <= length (gibbs_data data))%nat.
Proof. intros H. rewrite gibbs_data_length by assumption. destruct data; [congruence|]. cbn [length]. lia. Qed.

Definition spectrum_of (data : list f64) : list c32 := half_spectrum (fe_fft env (fft_optimize data)).
Lemma spectrum_length data : data <> [] -> length (spectrum_of data) = (length data / 2 + 1)%nat.
Proof.
  intros H. unfold spectrum_of. rewrite half_length; rewrite (proj1 Htr), optimize_length; [reflexivity|]. destruct data; [congruence|]. cbn. lia.
Qed.

Definition fft_bounded_post (c c' : fft_c) (data : list f64) (max_err : f64) : Prop :=
  exists err, ff_error c' = Some err /\
  ((ff_freqs c' = ff_freqs c /\ err = fadd max_err f1 /\ permille max_err <? permille err = false) \/
   exists budget idata, (default_freqs (length data) <= budget <= last_budget (default_freqs (length data)))%nat /\
     fft_trim env (spectrum_of (gibbs_data data)) budget = Ok (ff_freqs c') /\
     get_mirrored_freqs c' (length (gibbs_data data)) = Ok idata /\
     calculate_error (gibbs_data data) (fft_scale c' (length (gibbs_data data)) (fe_ifft env idata)) = Ok err /\
     (permille err <= permille max_err \/ budget = last_budget (default_freqs (length data)))).

Lemma fft_compress_bounded_spec c data max_err : data <> [] ->
  (f32_eq (ff_max c) (ff_min c) = true /\ fft_compress_bounded env c data max_err = Ok c) \/
  (f32_eq (ff_max c) (ff_min c) = false /\ exists c', fft_compress_bounded env c data max_err = Ok c' /\ same_range c c' /\ fft_bounded_post c c' data max_err).
Proof.
  intros Hne. unfold fft_compress_bounded. destruct (f32_eq (ff_max c) (ff_min c)) eqn:E; [now left|right]. split; [reflexivity|].
  assert (Hg := gibbs_data_nonempty data Hne).
  assert (Hgn : gibbs_data data <> []) by (intros H; rewrite H in Hg; cbn in Hg; lia).
  destruct (fft_loop_spec (gibbs_data data) (spectrum_of (gibbs_data data)) max_err (default_freqs (length data)) Hg) with (fuel := 24%nat) (it := 0) (c := c) (err := fadd max_err f1)
    as (c' & err & Hr & Hsr & Hcase); try lia.
  { pose proof (default_freqs_ge (length data)). lia. }
  { now apply spectrum_length. }
  cbv zeta. fold (spectrum_of (gibbs_data data)). change (jump_at (default_freqs (length data)) 0) with 0%nat in Hr. rewrite Hr. cbn [bind]. eexists. split; [reflexivity|]. split; [exact Hsr|].
  exists err. split; [reflexivity|]. destruct Hcase as [(-> & -> & Hx)|Hcase]; [left; auto|right]. exact Hcase.
Qed.

(** *** Expansion *)
Lemma fft_expand_spec c n : f32_eq (ff_max c) (ff_min c) = false -> (1 <= n)%nat ->
  positions_within (n + fst (trim_sizes n) + snd (trim_sizes n)) (ff_freqs c) ->
  exists spec, get_mirrored_freqs c (n + fst (trim_sizes n) + snd (trim_sizes n)) = Ok spec /\
    fft_expand env c n = Ok (firstn n (skipn (fst (trim_sizes n)) (fft_scale c (n + fst (trim_sizes n) + snd (trim_sizes n)) (fe_ifft env spec)))) /\
    length (fe_ifft env spec) = (n + fst (trim_sizes n) + snd (trim_sizes n))%nat.
Proof.
  intros E Hn Hp. destruct (mirrored_spec c (n + fst (trim_sizes n) + snd (trim_sizes n)) ltac:(lia) Hp) as (spec & H1 & H2).
  exists spec. split; [exact H1|]. unfold fft_expand. rewrite E. destruct (trim_sizes n) as [a b] eqn:Et. cbn [fst snd] in *.
  rewrite H1. cbn [bind]. assert (Hl : length (fe_ifft env spec) = (n + a + b)%nat) by (etransitivity; [apply (proj2 Htr)|apply H2]).
  split; [|exact Hl]. rewrite Hl. unfold fft_scale. rewrite <- firstn_map, <- skipn_map. repeat f_equal. lia.
Qed.

Lemma fft_expand_length c n : (1 <= n)%nat ->
  positions_within (n + fst (trim_sizes n) + snd (trim_sizes n)) (ff_freqs c) ->
  exists out, fft_expand env c n = Ok out /\ length out = n.
Proof.
  intros Hn Hp. destruct (f32_eq (ff_max c) (ff_min c)) eqn:E.
  - unfold fft_expand. rewrite E. eexists. split; [reflexivity|]. apply repeat_length.
  - destruct (fft_expand_spec c n E Hn Hp) as (spec & _ & H & Hl). eexists. split; [exact H|].
    set (m := (n + fst (trim_sizes n) + snd (trim_sizes n))%nat) in *.
    assert (L : length (fft_scale c m (fe_ifft env spec)) = m) by (unfold fft_scale; etransitivity; [apply map_length|exact Hl]).
    rewrite firstn_length, skipn_length, L. unfold m. lia.
Qed.

(** Which bins are kept, for any order in which the heap returns them. *)
Lemma fft_trim_order (le : freq -> freq -> Prop) b m fs :
  (forall l, StronglySorted (fun x y => le y x) (fe_pops env l)) -> m <> 1%nat -> fft_trim env b m = Ok fs ->
  (forall f g, In f fs -> In g (bins b) -> ~ In g fs -> le g f) /\
  (length fs = m \/ (forall g, In g (bins b) -> In g fs) \/
   exists z, freq_is_zero z = true /\ forall g, In g (bins b) -> In g fs \/ g = z \/ le g z).
Proof.
  intros Hs Hm H. unfold fft_trim in H. destruct (Nat.eqb_spec m 1) as [|_]; [congruence|]. apply ok_inj in H.
  assert (Hin : forall g, In g (bins b) -> In g (fe_pops env (bins b))) by (intros g; apply Permutation_in, Permutation_sym, Hheap).
  specialize (Hs (bins b)). set (ps := fe_pops env (bins b)) in *. split.
  - destruct (pop_freqs_prefix m ps) as [rest Hr]. rewrite H in Hr. intros f g Hf Hg Hn. apply Hin in Hg. rewrite Hr in Hg, Hs.
    apply in_app_iff in Hg. destruct Hg as [Hg|Hg]; [contradiction|]. clear -Hs Hf Hg.
    induction fs as [|x fs IH]; [destruct Hf|]. cbn [app] in Hs. apply StronglySorted_inv in Hs. destruct Hs as [Hs1 Hs2].
    destruct Hf as [->|Hf]; [|now apply IH]. rewrite Forall_forall in Hs2. apply Hs2. apply in_app_iff. now right.
  - destruct (pop_freqs_stop m ps) as [E|[E|(z & rest & E & Hz)]]; rewrite H in E.
    + now left.
    + right. left. intros g Hg. rewrite E. now apply Hin.
    + right. right. exists z. split; [exact Hz|]. intros g Hg. apply Hin in Hg. rewrite E in Hg, Hs.
      apply in_app_iff in Hg. destruct Hg as [Hg|[Hg|Hg]]; [now left|right; left; congruence|right; right].
      clear -Hs Hg. induction fs as [|x fs IH]; cbn [app] in Hs; apply StronglySorted_inv in Hs; destruct Hs as [Hs1 Hs2].
      * rewrite Forall_forall in Hs2. now apply Hs2.
      * now apply IH.
Qed.
End Env.

(** *** Padding *)
Lemma last_opt_nth {A} (l : list A) y : last_opt l = Some y -> nth_error l (length l - 1) = Some y.
Proof.
  unfold last_opt. intros H. assert (E : l = rev (rev l)) by (symmetry; apply rev_involutive).
  destruct (rev l) as [|x r]; [discriminate|]. injection H as ->. rewrite E. cbn [rev]. rewrite app_length. cbn [length].
  rewrite nth_error_app2 by lia. replace (length (rev r) + 1 - 1 - length (rev r))%nat with 0%nat by lia. reflexivity.
Qed.

Lemma gibbs_padded data : data <> [] -> Z.of_nat (length data) < 2 ^ 62 ->
  fft_padded data (gibbs_data data) (fst (trim_sizes (length data))) (snd (trim_sizes (length data))).
Proof.
  intros Hne Hb. destruct data as [|x l] eqn:Ed; [congruence|]. rewrite <- Ed in *.
  assert (Hn : (1 <= length data)%nat) by (rewrite Ed; cbn; lia).
  assert (H0 : nth_error data 0 = Some x) by (rewrite Ed; reflexivity).
  destruct (gibbs_sizing_eq data x (last_opt_nonempty data Hne) H0) as (y & Hy & Hg).
  assert (Hy' := last_opt_nth data y Hy). unfold gibbs_data, trim_sizes, gibbs_applies. destruct (128 <=? length data)%nat eqn:E.
  - cbn [fst snd]. split; [exists x, y; auto|]. right. split; [lia|]. destruct (gibbs_added_spec (length data) Hn Hb) as [H1 H2].
    split.
    { pose proof (Nat.div_mod (gibbs_added (length data)) 2 ltac:(lia)). pose proof (Nat.mod_upper_bound (gibbs_added (length data)) 2 ltac:(lia)). lia. }
    rewrite gibbs_sizing_length by exact Hne. rewrite H1. destruct (next_size_spec (Z.of_nat (length data)) ltac:(lia)) as (N1 & N2 & N3 & _).
    split; [lia|]. split; [exact N2|]. intros k Hk Hs. destruct (Z.le_gt_cases (next_size (Z.of_nat (length data))) k) as [|Hlt]; [assumption|].
    exfalso. exact (N3 k (conj Hk Hlt) Hs).
  - cbn [fst snd]. split; [|left; lia]. exists x, y. split; [exact H0|]. split; [exact Hy'|]. cbn [repeat app]. now rewrite app_nil_r.
Qed.
