(** C05 - C09: the lossless-style compressors and the series statistics. *)
From Coq Require Import List ZArith Bool Lia Reals Lra ZifyBool.
From Flocq Require Import Core IEEE754.Binary.
From Verif Require Import Base Model_Float Model_Bincode Model_Stats Model_Compressors Model_Utils
  Model_Polynomial Model_Fft Model_Stream Spec FloatFacts BincodeFacts StatsFacts StreamFacts CompressorFacts.
Import ListNotations.
Open Scope Z_scope.

(** A Vec<f64> cannot hold more than isize::MAX bytes. *)
Definition in_memory (data : list f64) : Prop := Z.of_nat (length data) < 2 ^ 60.

(** *** C05 *)
(** What the no-op compressor turns a sample into. *)
Definition noop_result (x y : f64) : Prop :=
  (finite x /\ (IZR (- 2 ^ 63) <= R64 x < IZR (2 ^ 63))%R /\
     exists z, nearest_away (R64 x) z /\ is_int y z) \/
  (finite x /\ (IZR (2 ^ 63) <= R64 x)%R /\ is_int y (2 ^ 63)) \/
  (finite x /\ (R64 x < IZR (- 2 ^ 63))%R /\ is_int y (- 2 ^ 63)) \/
  (x = B754_infinity 53 1024 false /\ is_int y (2 ^ 63)) \/
  (x = B754_infinity 53 1024 true /\ is_int y (- 2 ^ 63)) \/
  (fis_nan x = true /\ is_int y 0).

Lemma is_int_2_63 : is_int (int_as_f64 (2 ^ 63 - 1)) (2 ^ 63).
Proof.
  pose proof (noop_value_big (int_as_f64 (2 ^ 63))) as H.
  change (noop_value (int_as_f64 (2 ^ 63))) with (int_as_f64 (f64_as_i64 (fround (int_as_f64 (2 ^ 63))))) in H.
  replace (f64_as_i64 (fround (int_as_f64 (2 ^ 63)))) with (2 ^ 63 - 1) in H by (vm_compute; reflexivity).
  apply H; [reflexivity|].
  destruct (int_as_f64_correct (2 ^ 63)) as (H1 & _); [vm_compute; discriminate|]. rewrite H1.
  rewrite IZR_pow2 by lia. rewrite round_generic; [lra|apply valid_rnd_N|apply generic_format_bpow; cbv; discriminate].
Qed.
Lemma is_int_m2_63 : is_int (int_as_f64 (- 2 ^ 63)) (- 2 ^ 63).
Proof.
  destruct (int_as_f64_correct (- 2 ^ 63)) as (H1 & H2 & _); [vm_compute; discriminate|]. split; [exact H2|].
  rewrite H1. rewrite opp_IZR, IZR_pow2 by lia. apply round_generic; [apply valid_rnd_N|].
  apply generic_format_opp, generic_format_bpow. cbv; discriminate.
Qed.

Lemma noop_result_holds x : noop_result x (noop_value x).
Proof.
  destruct (noop_value_special x) as [Hf|[[Hn He]|[[Hx He]|[Hx He]]]].
  - unfold noop_result. destruct (Rle_or_lt (IZR (2 ^ 63)) (R64 x)) as [H|H].
    + right; left. split; [exact Hf|]. split; [exact H|]. now apply noop_value_big.
    + destruct (Rlt_or_le (R64 x) (IZR (- 2 ^ 63))) as [H2|H2].
      * right; right; left. split; [exact Hf|]. split; [exact H2|]. now apply noop_value_small.
      * left. split; [exact Hf|]. split; [split; assumption|]. apply noop_value_in_range; [exact Hf|split; assumption].
  - do 5 right. split; [exact Hn|]. rewrite He. split; [reflexivity|]. apply f0_R.
  - do 3 right. left. split; [exact Hx|]. rewrite He. exact is_int_2_63.
  - do 4 right. left. split; [exact Hx|]. rewrite He. exact is_int_m2_63.
Qed.

Theorem C05_noop_nearest_integers : forall e p data,
  data <> [] -> in_memory data ->
  exists bytes out,
    compress e Noop data = Ok bytes /\
    decompress e p Noop (length data) bytes = Ok out /\
    Forall2 noop_result data out.
Proof.
  intros e p data Hne Hm. unfold compress, decompress.
  destruct (data_stats_total data Hne) as [st Hst]. rewrite Hst. cbn [bind].
  exists (noop data), (map noop_value data). split; [reflexivity|]. split.
  - apply noop_roundtrip. unfold in_memory in Hm. lia.
  - clear. induction data; cbn; constructor; [apply noop_result_holds|assumption].
Qed.
Print Assumptions C05_noop_nearest_integers.

(** Integer-valued samples below 2^63 in magnitude come back numerically equal. *)
Theorem C05_noop_integers_exact : forall e p data,
  data <> [] -> in_memory data ->
  Forall (fun x => exists z, is_int x z /\ - 2 ^ 63 <= z < 2 ^ 63) data ->
  exists bytes out,
    compress e Noop data = Ok bytes /\
    decompress e p Noop (length data) bytes = Ok out /\ same_series out data.
Proof.
  intros e p data Hne Hm Hd. destruct (C05_noop_nearest_integers e p data Hne Hm) as (b & out & H1 & H2 & HF).
  exists b, out. split; [exact H1|]. split; [exact H2|].
  clear - HF Hd. unfold same_series. revert Hd. induction HF as [|x y l l' Hxy HF IH]; intros Hd; constructor.
  - inversion Hd; subst. destruct H1 as (z & [Hfx Hz] & Hr).
    assert (Hrr : (IZR (- 2 ^ 63) <= R64 x < IZR (2 ^ 63))%R).
    { rewrite Hz. split; [apply IZR_le; lia|apply IZR_lt; lia]. }
    destruct Hxy as [(_ & _ & z' & [Hn1 _] & [Hy1 Hy2])|[(_ & Hb & _)|[(_ & Hb & _)|[(Hb & _)|[(Hb & _)|(Hb & _)]]]]];
      try lra; try (subst x; discriminate); try (destruct x; discriminate).
    assert (z' = z).
    { rewrite Hz in Hn1. rewrite <- minus_IZR, <- abs_IZR in Hn1.
      assert (Z.abs (z - z') < 1) by (apply lt_IZR; lra). lia. }
    subst z'. repeat split; [exact Hy1|exact Hfx|congruence].
  - apply IH. now inversion Hd.
Qed.
Print Assumptions C05_noop_integers_exact.
Example C05_example : forall e p,
  (* [2.5, -0.5, 1e19, NaN] -> [3, -1, 2^63, 0] *)
  let data := [from_bits 4612811918334230528; from_bits 13826050856027422720;
               int_as_f64 (10 ^ 19); from_bits 9221120237041090560] in
  (do b <- compress e Noop data; do o <- decompress e p Noop 4 b; Ok (map to_bits o))
  = Ok (map to_bits [int_as_f64 3; int_as_f64 (-1); int_as_f64 (2 ^ 63); int_as_f64 0]).
Proof. intros. vm_compute. reflexivity. Qed.

(** *** C06 *)
Theorem C06_constant_lossless : forall e p data c,
  data <> [] -> supported c -> Forall (fun x => same_value x c) data ->
  exists bytes out,
    compress e Constant data = Ok bytes /\
    decompress e p Constant (length data) bytes = Ok out /\ same_series out data.
Proof.
  intros e p data c Hne Hc Hd. destruct (constant_lossless data c Hne Hc Hd) as (st & out & H1 & H2 & H3).
  unfold compress, decompress. rewrite H1. cbn [bind]. eauto.
Qed.
Print Assumptions C06_constant_lossless.
(** Non-trivial instance: 0.1 a thousand times. *)
Definition f_tenth : f64 := from_bits 4591870180066957722.

Lemma supported_range x : finite x -> (bpow radix2 (-64) <= Rabs (R64 x))%R -> (Rabs (R64 x) < IZR (2 ^ 63))%R -> supported x.
Proof.
  intros H1 H2 H3. split; [exact H1|]. split; [now right|]. apply Rabs_lt_inv in H3. rewrite opp_IZR. lra.
Qed.
Lemma supported_fin s m e H : -116 <= e -> 2 ^ 52 <= Zpos m -> e <= 10 -> supported (B754_finite 53 1024 s m e H).
Proof.
  intros He Hm He2. apply supported_range; [reflexivity| |].
  - rewrite finite_R, Rabs_mult, (Rabs_pos_eq (bpow radix2 e)) by apply bpow_ge_0.
    apply Rle_trans with (bpow radix2 52 * bpow radix2 (-116))%R; [rewrite <- bpow_plus; apply Rle_refl|].
    apply Rmult_le_compat; try apply bpow_ge_0.
    + rewrite <- IZR_Zpower by lia. rewrite <- abs_IZR. apply IZR_le. change (Zpower radix2 52) with (2 ^ 52).
      unfold signed. destruct s; lia.
    + apply bpow_le. lia.
  - rewrite finite_R, Rabs_mult, (Rabs_pos_eq (bpow radix2 e)) by apply bpow_ge_0.
    destruct (finite_bounds m e H) as (_ & Hm2 & _).
    apply Rlt_le_trans with (bpow radix2 53 * bpow radix2 10)%R.
    + apply Rlt_le_trans with (bpow radix2 53 * bpow radix2 e)%R.
      * apply Rmult_lt_compat_r; [apply bpow_gt_0|]. rewrite <- IZR_Zpower by lia. rewrite <- abs_IZR. apply IZR_lt.
        change (Zpower radix2 53) with (2 ^ 53). unfold signed. destruct s; lia.
      * apply Rmult_le_compat_l; [apply bpow_ge_0|]. apply bpow_le. lia.
    + rewrite <- bpow_plus, IZR_pow2 by lia. apply bpow_le. lia.
Qed.
Lemma supported_tenth : supported f_tenth.
Proof.
  replace f_tenth with (B754_finite 53 1024 false 7205759403792794 (-56) eq_refl) by (apply to_bits_inj; vm_compute; reflexivity).
  apply supported_fin; lia.
Qed.
Example C06_example : forall e p, exists bytes out,
  compress e Constant (repeat f_tenth 1000) = Ok bytes /\
  decompress e p Constant 1000 bytes = Ok out /\ same_series out (repeat f_tenth 1000).
Proof.
  intros e p. pose proof (C06_constant_lossless e p (repeat f_tenth 1000) f_tenth ltac:(discriminate) supported_tenth) as H.
  rewrite repeat_length in H. apply H. apply Forall_forall. intros x Hx. apply repeat_spec in Hx. subst x.
  repeat split; apply supported_tenth.
Qed.
(** Outside the range it is wrong: the constant 2^64 comes back as 255, the constant 2^-65 as 0. *)
Theorem C06_out_of_range_refuted : forall e p,
  (do b <- compress e Constant [int_as_f64 (2 ^ 64)]; do o <- decompress e p Constant 1 b; Ok (map to_bits o))
    = Ok (map to_bits [int_as_f64 255]) /\
  (do b <- compress e Constant [from_bits 4314448443020935168]; do o <- decompress e p Constant 1 b; Ok (map to_bits o))
    = Ok (map to_bits [int_as_f64 0]) /\
  R64 (from_bits 4314448443020935168) = bpow radix2 (-65).
Proof.
  intros. split; [vm_compute; reflexivity|]. split; [vm_compute; reflexivity|].
  replace (from_bits 4314448443020935168) with (B754_finite 53 1024 false 4503599627370496 (-117) eq_refl)
    by (apply to_bits_inj; vm_compute; reflexivity).
  rewrite finite_R. unfold signed. change 4503599627370496 with (2 ^ 52). rewrite IZR_pow2 by lia.
  rewrite <- bpow_plus. reflexivity.
Qed.
Print Assumptions C06_out_of_range_refuted.

(** *** C07 *)
Theorem C07_rle_lossless : forall e p data,
  data <> [] -> in_memory data -> Forall supported data ->
  exists bytes out,
    compress e RLE data = Ok bytes /\
    decompress e p RLE (length data) bytes = Ok out /\ same_series out data.
Proof.
  intros e p data Hne Hm Hs. destruct (data_stats_total data Hne) as [st Hst].
  destruct (rle_lossless data st) as (out & H1 & H2); [unfold in_memory in Hm; lia|exact Hs|exact Hst|].
  unfold compress, decompress. rewrite Hst. cbn [bind]. eauto.
Qed.
Print Assumptions C07_rle_lossless.

(** Even outside the range, a series recognised as fractional is returned exactly: bit for bit
    when no two neighbouring samples compare equal, and always up to the sign of zero. *)
Theorem C07_rle_fractional_exact : forall e p data st,
  in_memory data -> data_stats data = Ok st -> st_fractional st = true ->
  exists bytes out,
    compress e RLE data = Ok bytes /\
    decompress e p RLE (length data) bytes = Ok out /\
    Forall2 (fun y x => feq y x = true \/ y = x) out data.
Proof.
  intros e p data st Hm Hst Hf.
  assert (Hb : st_bitdepth st = BF64).
  { destruct data as [|d l]; [discriminate|]. unfold data_stats in Hst. apply ok_inj in Hst. subst st.
    cbn [st_fractional st_bitdepth] in *. now rewrite Hf. }
  destruct (rle_lossless_f64 data st) as (out & H1 & H2); [unfold in_memory in Hm; lia|exact Hb|].
  unfold compress, decompress. rewrite Hst. cbn [bind]. eauto.
Qed.
Print Assumptions C07_rle_fractional_exact.
Example C07_example : forall e p,
  let data := [f_tenth; f_tenth; int_as_f64 3; f_tenth; int_as_f64 3; int_as_f64 3] in
  Forall supported data /\
  (do b <- compress e RLE data; do o <- decompress e p RLE 6 b; Ok (map to_bits o)) = Ok (map to_bits data).
Proof.
  intros e p data. split; [|vm_compute; reflexivity].
  assert (H3 : supported (int_as_f64 3)).
  { replace (int_as_f64 3) with (B754_finite 53 1024 false 6755399441055744 (-51) eq_refl) by (apply to_bits_inj; vm_compute; reflexivity).
    apply supported_fin; lia. }
  unfold data. repeat (apply Forall_cons; [first [exact supported_tenth|exact H3]|]). apply Forall_nil.
Qed.
(** Outside the range data is silently corrupted: [1.0, 2^63] comes back as [1.0, 255.0]. *)
Theorem C07_out_of_range_refuted : forall e p,
  (do b <- compress e RLE [int_as_f64 1; int_as_f64 (2 ^ 63)]; do o <- decompress e p RLE 2 b; Ok (map to_bits o))
  = Ok (map to_bits [int_as_f64 1; int_as_f64 255]).
Proof. intros. vm_compute. reflexivity. Qed.
Print Assumptions C07_out_of_range_refuted.

(** *** C08 *)
(** Integer range of the recommended storage width. *)
Definition fits (b : bitdepth) (z : Z) : Prop :=
  match b with
  | BU8 => 0 <= z < 2 ^ 8
  | BI16 => - 2 ^ 15 <= z < 2 ^ 15
  | BI32 => - 2 ^ 31 <= z < 2 ^ 31
  | BF64 => False
  end.
Theorem C08_width_safe : forall data st,
  Forall supported data -> data_stats data = Ok st -> st_bitdepth st <> BF64 ->
  Forall (fun x => exists z, is_int x z /\ fits (st_bitdepth st) z) data.
Proof.
  intros data st Hs Hst Hb. eapply Forall_impl; [|exact (bitdepth_safe data st Hs Hst Hb)].
  intros x (z & Hz & Hw). exists z. split; [exact Hz|]. destruct (st_bitdepth st); cbn in *; [congruence|lia..].
Qed.
Print Assumptions C08_width_safe.

(** Any sample with a fractional part forces f64; and the fractional flag is set exactly then. *)
Theorem C08_fractional_forces_f64 : forall data st,
  Forall supported data -> data_stats data = Ok st ->
  (st_fractional st = true <-> Exists (fun x => forall z, ~ is_int x z) data) /\
  (Exists (fun x => forall z, ~ is_int x z) data -> st_bitdepth st = BF64).
Proof.
  intros data st Hs Hst.
  assert (Hfin : Forall finite data) by (eapply Forall_impl; [|exact Hs]; apply supported_finite).
  destruct (data_stats_ok data st Hfin Hst) as (_ & _ & Hf & Hb).
  split; [rewrite Hf; now apply exists_frac_true|].
  intros He. apply exists_frac_true in He; [|exact Hs]. rewrite He in Hb. exact Hb.
Qed.
Print Assumptions C08_fractional_forces_f64.

(** The width is also the smallest of the four that holds the range (so compression is not
    accidentally lost): u8 iff all in [0,255], and so on. *)
Theorem C08_width_smallest : forall data st,
  Forall supported data -> data_stats data = Ok st ->
  Forall (fun x => exists z, is_int x z /\ - 2 ^ 31 <= z < 2 ^ 31) data ->
  (Forall (fun x => exists z, is_int x z /\ fits BU8 z) data -> st_bitdepth st = BU8) /\
  (Forall (fun x => exists z, is_int x z /\ fits BI16 z) data -> st_bitdepth st = BU8 \/ st_bitdepth st = BI16) /\
  st_bitdepth st <> BF64.
Proof.
  intros data st Hs Hst Hd.
  assert (Hfin : Forall finite data) by (eapply Forall_impl; [|exact Hs]; apply supported_finite).
  destruct (data_stats_ok data st Hfin Hst) as (Hmax & Hmin & _ & Hb).
  assert (Hfr : existsb frac data = false).
  { destruct (existsb frac data) eqn:E; [|reflexivity]. apply exists_frac_true in E; [|exact Hs].
    apply Exists_exists in E. destruct E as (x & Hx & Hn). rewrite Forall_forall in Hd.
    destruct (Hd x Hx) as (z & Hz & _). destruct (Hn z Hz). }
  rewrite Hfr in Hb.
  apply max_at_in in Hmax. apply min_at_in in Hmin.
  rewrite Forall_forall in Hd, Hs.
  destruct (Hd _ Hmax) as (hi & Hhi & Hhir). destruct (Hd _ Hmin) as (lo & Hlo & Hlor).
  destruct (split_n_supported _ (Hs _ Hmax)) as [_ H1]. rewrite (H1 _ Hhi) in Hb.
  destruct (split_n_supported _ (Hs _ Hmin)) as [_ H2]. rewrite (H2 _ Hlo) in Hb.
  assert (G : forall b, Forall (fun x => exists z, is_int x z /\ fits b z) data -> fits b hi /\ fits b lo).
  { intros b HF. rewrite Forall_forall in HF. destruct (HF _ Hmax) as (z1 & Hz1 & Hf1). destruct (HF _ Hmin) as (z2 & Hz2 & Hf2).
    rewrite (is_int_inj _ _ _ Hhi Hz1), (is_int_inj _ _ _ Hlo Hz2). split; assumption. }
  rewrite Hb. unfold bitdepth_of.
  split; [|split].
  - intros HF. apply G in HF. cbn in HF.
    assert (hi <=? 255 = true) as -> by lia. assert ((0 <=? lo) && (lo <=? 255) = true) as -> by lia. reflexivity.
  - intros HF. apply G in HF. cbn in HF.
    assert (hi <=? 32767 = true) as -> by lia. assert (-32768 <=? lo = true) as -> by lia.
    destruct (hi <=? 255), ((0 <=? lo) && (lo <=? 255)); cbn; auto.
  - assert (hi <=? 2147483647 = true) as -> by lia. assert (-2147483648 <=? lo = true) as -> by lia.
    destruct (hi <=? 255), ((0 <=? lo) && (lo <=? 255)), (hi <=? 32767), (-32768 <=? lo); cbn; discriminate.
Qed.
Print Assumptions C08_width_smallest.
Example C08_example : exists st,
  data_stats [int_as_f64 (-3); int_as_f64 200; int_as_f64 7] = Ok st /\ st_bitdepth st = BI16.
Proof. eexists. split; [reflexivity|]. vm_compute. reflexivity. Qed.

(** *** C09 *)
Theorem C09_statistics_correct : forall data,
  data <> [] -> Forall finite data ->
  exists st, data_stats data = Ok st /\
    max_at data (st_max st) (st_max_loc st) /\ min_at data (st_min st) (st_min_loc st).
Proof.
  intros data Hne Hf. destruct (data_stats_total data Hne) as [st Hst]. exists st. split; [exact Hst|].
  destruct (data_stats_ok data st Hf Hst) as (H1 & H2 & _). split; assumption.
Qed.
Print Assumptions C09_statistics_correct.
Example C09_example : exists st,
  data_stats [int_as_f64 5; int_as_f64 9; int_as_f64 2; int_as_f64 9; int_as_f64 2] = Ok st /\
  st_max_loc st = 1%nat /\ st_min_loc st = 2%nat.
Proof. eexists. split; [reflexivity|]. vm_compute. split; reflexivity. Qed.
