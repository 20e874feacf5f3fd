(** C10 - C12: chunk planning, cleaning, size helpers. *)
From Coq Require Import List ZArith Bool Lia ZifyBool Permutation.
From Verif Require Import Base Model_Float Model_Utils Model_Polynomial Model_Stream Spec
  FloatFacts UtilsFacts PlanFacts.
Import ListNotations.
Open Scope Z_scope.

(** *** C10 *)
(** Sum of the sizes. *)
Definition total (l : list Z) : Z := fold_right Z.add 0 l.

Theorem C10_chunk_sizes : forall n, exists sizes,
  get_chunks_sizes n = Ok sizes /\
  total sizes = Z.of_nat n /\
  Forall (fun c => 1 <= c <= 131072) sizes /\
  (forall before c after, sizes = before ++ c :: after ->
     power_of_two c \/ (after = [] /\ c <= 512)).
Proof.
  intros n. destruct (get_chunks_sizes_spec n) as (l & H1 & H2 & H3). exists l.
  split; [exact H1|]. split; [exact H2|]. split; [exact (good_chunks_pos l H3)|].
  intros before c after. exact (good_chunks_split l before c after H3).
Qed.
Print Assumptions C10_chunk_sizes.

(** The finite samples of a series, in order: what is left when NaN and infinities go. *)
Definition finite_samples (data : list f64) : list f64 := filter fis_finite data.
Lemma clean_is data : clean_data data = finite_samples data.
Proof.
  unfold clean_data, finite_samples. apply filter_ext. intros [| | |]; reflexivity.
Qed.

(** For every series and every compressor choice, planning and execution never go out of
    bounds: the slices handed out have the planned sizes, carry the chosen compressor and
    concatenate to the finite samples of the series. *)
Theorem C10_plan_partitions : forall data c, exists pl work,
  make_plan data = Ok pl /\
  get_execution (set_compressor pl c) = Ok work /\
  concat (map snd work) = finite_samples data /\
  map (fun w => Z.of_nat (length (snd w))) work = pn_chunks pl /\
  Forall (fun w => fst w = c) work /\
  get_chunks_sizes (length (finite_samples data)) = Ok (pn_chunks pl).
Proof.
  intros data c. rewrite <- clean_is. destruct (plan_spec data c) as (pl & H1 & H2 & H3 & H4 & H5 & H6 & H7).
  exists pl, (map (fun d => (c, d)) (cut (clean_data data) (pn_chunks pl))).
  assert (Hp : Forall (fun c => 1 <= c) (pn_chunks pl)).
  { eapply Forall_impl; [|apply good_chunks_pos, H5]. cbn. intros; lia. }
  destruct (cut_concat (clean_data data) (pn_chunks pl) Hp H4) as [Hc Hl].
  split; [exact H1|]. split; [exact H7|]. rewrite !map_map. cbn [snd]. rewrite map_id.
  split; [exact Hc|]. split; [exact Hl|]. split; [|exact H3].
  apply Forall_map, Forall_forall. reflexivity.
Qed.
Print Assumptions C10_plan_partitions.
Example C10_example : get_chunks_sizes (Z.to_nat 1000) = Ok [512; 488] /\
  get_chunks_sizes (Z.to_nat 1500) = Ok [1024; 476] /\
  chunks_loop 10 300000 = Some [131072; 131072; 32768; 4096; 512; 480].
Proof. vm_compute. repeat split. Qed.

(** Default assignment (no compressor forced): one compressor per chunk as well. *)
Theorem C10_one_compressor_per_chunk : forall data, exists pl,
  make_plan data = Ok pl /\ length (pn_compressors pl) = length (pn_chunks pl).
Proof. intros data. destruct (plan_spec data FFT) as (pl & H1 & _ & _ & _ & _ & H6 & _). eauto. Qed.
Print Assumptions C10_one_compressor_per_chunk.

(** *** C11 *)
Theorem C11_cleaning_keeps_finite : forall data, subsequence_of finite data (clean_data data).
Proof. exact clean_data_spec. Qed.
Print Assumptions C11_cleaning_keeps_finite.
Theorem C11_clean_series_unchanged : forall data, Forall finite data -> clean_data data = data.
Proof. exact clean_data_id. Qed.
Print Assumptions C11_clean_series_unchanged.
(** Cleaning twice is cleaning once. *)
Theorem C11_cleaning_idempotent : forall data, clean_data (clean_data data) = clean_data data.
Proof. intros. apply clean_data_id, clean_data_finite. Qed.
Print Assumptions C11_cleaning_idempotent.
(** The specification determines the result: a series has only one subsequence of its finite samples. *)
Theorem C11_specification_unique : forall data s1 s2,
  subsequence_of finite data s1 -> subsequence_of finite data s2 -> s1 = s2.
Proof.
  intros data s1 s2 H1. revert s2. induction H1 as [|x l s Hx H1 IH|x l s Hx H1 IH]; intros s2 H2;
    inversion H2; subst; try contradiction; [reflexivity|f_equal; now apply IH|now apply IH].
Qed.
Print Assumptions C11_specification_unique.
Example C11_example :
  map to_bits (clean_data [int_as_f64 1; from_bits 9218868437227405312; int_as_f64 2; from_bits 9221120237041090560])
  = map to_bits [int_as_f64 1; int_as_f64 2].
Proof. vm_compute. reflexivity. Qed.

(** *** C12 *)
Theorem C12_prev_power_of_two : forall n, 1 <= n < 2 ^ 64 ->
  power_of_two (prev_power_of_two n) /\ prev_power_of_two n <= n /\
  (forall m, power_of_two m -> m <= n -> m <= prev_power_of_two n).
Proof.
  intros n Hn. rewrite prev_power_of_two_pos by lia. pose proof (Z.log2_nonneg n).
  destruct (Z.log2_spec n ltac:(lia)) as [H1 H2].
  split; [now exists (Z.log2 n)|]. split; [exact H1|].
  intros m (k & Hk & ->) Hm. apply Z.pow_le_mono_r; [lia|]. apply Z.log2_le_pow2; lia.
Qed.
Print Assumptions C12_prev_power_of_two.
Theorem C12_prev_power_of_two_zero : prev_power_of_two 0 = 0.
Proof. exact prev_power_of_two_0. Qed.

(** next_size for every 64-bit n and both build profiles: the least 2^a 3^b strictly above n
    when one exists below 2^64; otherwise overflow panic (checked build) or endless loop. *)
Theorem C12_next_size : forall p n, 0 <= n < 2 ^ 64 ->
  (exists m, next_size_full p n = NSOk m /\ n < m < 2 ^ 64 /\ smooth3 m /\
     forall k, smooth3 k -> n < k -> m <= k) \/
  ((forall k, n < k < 2 ^ 64 -> ~ smooth3 k) /\
     next_size_full p n = match p with Dev => NSOverflow | Release => NSHang end).
Proof.
  intros p n Hn. destruct (next_size_full_spec p n Hn) as [(m & H1 & H2 & H3 & H4)|[H1 H2]].
  - left. exists m. split; [exact H1|]. split; [exact H2|]. split; [exact H3|].
    intros k Hk Hnk. destruct (Z_le_gt_dec m k); [assumption|]. exfalso. apply (H4 k); [lia|exact Hk].
  - right. split; [exact H1|exact H2].
Qed.
Print Assumptions C12_next_size.

(** On every realistic sample count it returns, and at most doubles the size. *)
Theorem C12_next_size_terminates : forall p n, 0 <= n < 2 ^ 62 -> exists m,
  next_size_full p n = NSOk m /\ n < m /\ (1 <= n -> m <= 2 * n) /\ smooth3 m /\
  forall k, smooth3 k -> n < k -> m <= k.
Proof.
  intros p n Hn.
  assert (Hex : exists k, 0 <= k /\ n < 2 ^ k /\ (1 <= n -> 2 ^ k <= 2 * n) /\ 2 ^ k < 2 ^ 64).
  { destruct (Z.eq_dec n 0) as [->|Hne]; [exists 0; cbn; lia|].
    exists (Z.log2 n + 1). pose proof (Z.log2_nonneg n). destruct (Z.log2_spec n ltac:(lia)) as [H1 H2].
    rewrite Z.pow_succ_r in H2 by lia. rewrite Z.pow_add_r, Z.pow_1_r by lia. repeat split; try lia. }
  destruct Hex as (k & Hk & Hlt & Hle & H64).
  assert (Hsm : smooth3 (2 ^ k)) by (exists k, 0; repeat split; [exact Hk|lia|cbn; lia]).
  destruct (C12_next_size p n ltac:(lia)) as [(m & H1 & H2 & H3 & H4)|[H1 _]].
  - exists m. split; [exact H1|]. split; [lia|]. split; [|split; [exact H3|exact H4]].
    intros Hn1. specialize (H4 _ Hsm Hlt). lia.
  - exfalso. apply (H1 (2 ^ k)); [lia|exact Hsm].
Qed.
Print Assumptions C12_next_size_terminates.
(** The full claim "the search always terminates" fails at the top of the range: above the
    largest 3-smooth 64-bit number there is nothing left to find. *)
Theorem C12_next_size_max_refuted :
  next_size_full Dev (2 ^ 64 - 1) = NSOverflow /\ next_size_full Release (2 ^ 64 - 1) = NSHang.
Proof. split; vm_compute; reflexivity. Qed.
Print Assumptions C12_next_size_max_refuted.
Example C12_example : next_size_full Dev 131072 = NSOk 139968 /\ next_size_full Release 500 = NSOk 512 /\ prev_power_of_two 1000 = 512.
Proof. vm_compute. repeat split. Qed.
