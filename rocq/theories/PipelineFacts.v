(** Every compressor on every chunk: the payload is a byte string of bounded size, and
    decompression returns as many samples as went in. *)
From Coq Require Import List ZArith Bool Lia ZifyBool Permutation.
From Verif Require Import Base Model_Float Model_Bincode BincodeFacts Spec Model_Utils UtilsFacts Model_Stats
  Model_Compressors Model_Polynomial Model_Fft Model_Stream StatsFacts CompressorFacts StreamFacts PolyFacts PolyLoopFacts
  PolyApiFacts FftFacts Props_Lossless Props_Poly Props_Fft.
Import ListNotations.
Open Scope Z_scope.

Definition zlen {A} (l : list A) : Z := Z.of_nat (length l).
Lemma zlen_app {A} (l l' : list A) : zlen (l ++ l') = zlen l + zlen l'.
Proof. unfold zlen. rewrite app_length. lia. Qed.
Lemma zlen_nonneg {A} (l : list A) : 0 <= zlen l. Proof. unfold zlen. lia. Qed.

Lemma varint_len z : 1 <= zlen (enc_varint z) <= 9.
Proof.
  unfold enc_varint, zlen. destruct (z <=? 250); [cbn; lia|].
  destruct (z <? 2 ^ 16); [cbn [length]; rewrite le_bytes_length; lia|].
  destruct (z <? 2 ^ 32); cbn [length]; rewrite le_bytes_length; lia.
Qed.
Lemma varint_len32 z : z < 2 ^ 32 -> zlen (enc_varint z) <= 5.
Proof.
  intros H. unfold enc_varint, zlen. destruct (z <=? 250); [cbn; lia|].
  destruct (z <? 2 ^ 16); [cbn [length]; rewrite le_bytes_length; lia|].
  destruct (z <? 2 ^ 32) eqn:E; [cbn [length]; rewrite le_bytes_length; lia|lia].
Qed.
Lemma varint_len16 z : z < 2 ^ 16 -> zlen (enc_varint z) <= 3.
Proof.
  intros H. unfold enc_varint, zlen. destruct (z <=? 250); [cbn; lia|].
  destruct (z <? 2 ^ 16) eqn:E; [cbn [length]; rewrite le_bytes_length; lia|lia].
Qed.

Lemma flat_map_len {A} (f : A -> list Z) k l : Forall (fun a => zlen (f a) <= k) l -> zlen (flat_map f l) <= k * zlen l.
Proof.
  induction 1 as [|a l H _ IH]; [cbn; unfold zlen; cbn; lia|].
  cbn [flat_map]. rewrite zlen_app. change (zlen (a :: l)) with (Z.of_nat (S (length l))). unfold zlen in *. lia.
Qed.
Lemma flat_map_len_ge {A} (f : A -> list Z) k l : Forall (fun a => k <= zlen (f a)) l -> k * zlen l <= zlen (flat_map f l).
Proof.
  induction 1 as [|a l H _ IH]; [cbn; unfold zlen; cbn; lia|].
  cbn [flat_map]. rewrite zlen_app. change (zlen (a :: l)) with (Z.of_nat (S (length l))). unfold zlen in *. lia.
Qed.
Lemma enc_vec_len {A} (f : A -> list Z) k l : Forall (fun a => zlen (f a) <= k) l -> zlen (enc_vec f l) <= 9 + k * zlen l.
Proof.
  intros H. unfold enc_vec. rewrite zlen_app. assert (V := varint_len (Z.of_nat (length l))).
  assert (F := flat_map_len f k l H). unfold enc_u64. lia.
Qed.

Lemma f64_as_int_range lo hi x : lo <= 0 <= hi -> lo <= f64_as_int lo hi x <= hi.
Proof.
  intros H. unfold f64_as_int. destruct x as [s|s|s pl E|s m e E]; try lia; try (destruct s; lia).
Qed.

Lemma sample_len b x : 1 <= zlen (enc_sample b x) <= 8.
Proof.
  destruct b; cbn [enc_sample].
  - unfold enc_f64, zlen. rewrite le_bytes_length. lia.
  - unfold enc_i32, enc_int. split; [apply varint_len|].
    assert (H : - 2 ^ 31 <= f64_as_i32 x <= 2 ^ 31 - 1) by (apply f64_as_int_range; lia).
    pose proof (varint_len32 (zigzag (f64_as_i32 x))) as V. unfold zigzag in *. destruct (f64_as_i32 x <? 0) eqn:E; lia.
  - unfold enc_i16, enc_int. split; [apply varint_len|].
    assert (H : - 2 ^ 15 <= f64_as_i16 x <= 2 ^ 15 - 1) by (apply f64_as_int_range; lia).
    pose proof (varint_len16 (zigzag (f64_as_i16 x))) as V. unfold zigzag in *. destruct (f64_as_i16 x <? 0) eqn:E; lia.
  - unfold enc_u8, zlen. cbn. lia.
Qed.

(** What a payload of [n] samples guarantees. *)
Definition payload_ok (e : env) (p : profile) (c : compressor) (n : nat) (bytes : list Z) : Prop :=
  bytes_ok bytes /\ 1 <= zlen bytes <= 26 * Z.of_nat n + 400 /\
  exists out, decompress e p c n bytes = Ok out /\ length out = n.

Lemma noop_bytes data : Z.of_nat (length data) < 2 ^ 64 -> bytes_ok (noop data).
Proof.
  intros Hl. unfold noop, bytes_ok. apply Forall_app. split; [repeat constructor; unfold byte_ok, NOOP_COMPRESSOR_ID; lia|].
  apply (cd_bytes _ _ _ (codec_vec _ _ _ codec_i64)). unfold noop_optimize. split; [|now rewrite map_length].
  apply Forall_map. apply Forall_forall. intros x _. apply noop_in_range.
Qed.
Lemma noop_len data : 1 <= zlen (noop data) <= 10 + 9 * zlen data.
Proof.
  unfold noop. rewrite zlen_app. change (zlen (enc_u8 NOOP_COMPRESSOR_ID)) with 1.
  assert (H := enc_vec_len enc_i64 9 (noop_optimize data)).
  assert (E : zlen (noop_optimize data) = zlen data) by (unfold zlen, noop_optimize; now rewrite map_length).
  rewrite E in H. assert (N := zlen_nonneg (enc_vec enc_i64 (noop_optimize data))).
  specialize (H ltac:(apply Forall_forall; intros x _; apply varint_len)). lia.
Qed.

Lemma bitdepth_len b : zlen (enc_bitdepth b) = 1. Proof. destruct b; reflexivity. Qed.
Lemma sample_bytes b x : bytes_ok (enc_sample b x).
Proof. rewrite <- enc_sample_conv. apply (cd_bytes _ _ _ (codec_sample b)). apply conv_idem. Qed.

Lemma constant_bytes b x : bytes_ok (enc_constant b x) /\ 1 <= zlen (enc_constant b x) <= 10.
Proof.
  unfold enc_constant. split.
  - apply Forall_app. split; [repeat constructor; unfold byte_ok, CONSTANT_COMPRESSOR_ID; lia|].
    apply Forall_app. split; [apply (cd_bytes _ _ _ codec_bitdepth); exact I|apply sample_bytes].
  - rewrite !zlen_app, bitdepth_len. change (zlen (enc_u8 CONSTANT_COMPRESSOR_ID)) with 1.
    assert (H := sample_len b x). lia.
Qed.

Lemma rle_bytes b data : Z.of_nat (length data) < 2 ^ 64 -> bytes_ok (enc_rle b (rle_new data)).
Proof.
  intros Hl. rewrite <- enc_rle_conv. unfold enc_rle. apply Forall_app. split; [repeat constructor; unfold byte_ok, RLE_COMPRESSOR_ID; lia|].
  apply Forall_app. split; [apply (cd_bytes _ _ _ codec_bitdepth); exact I|].
  apply (cd_bytes _ _ _ (codec_vec _ _ _ (codec_rle_entry b))). now apply rle_map_ok.
Qed.

Lemma rle_entries_len b (l : list (f64 * list Z)) : Forall (fun e => snd e <> []) l ->
  zlen (flat_map (enc_rle_entry b) l) <= 26 * zlen (flat l).
Proof.
  induction 1 as [|[v idx] l Hn _ IH]; [cbn; unfold zlen; cbn; lia|].
  cbn [flat_map]. unfold flat in *. cbn [flat_map]. rewrite !zlen_app.
  assert (E : zlen (map (fun i : Z => (i, v)) idx) = zlen idx) by (unfold zlen; now rewrite map_length). rewrite E.
  unfold enc_rle_entry at 1. cbn [fst snd] in *. rewrite zlen_app.
  assert (S := sample_len b v).
  assert (V := enc_vec_len enc_usize 9 idx ltac:(apply Forall_forall; intros x _; apply varint_len)).
  assert (1 <= zlen idx) by (destruct idx; [congruence|unfold zlen; cbn; lia]). lia.
Qed.

Lemma rle_len b data : 1 <= zlen (enc_rle b (rle_new data)) <= 11 + 26 * zlen data.
Proof.
  rewrite <- enc_rle_conv. set (l := map _ _).
  assert (Hne : Forall (fun e : f64 * list Z => snd e <> []) l).
  { unfold l, rle_new. rewrite map_map. apply Forall_map.
    pose proof (rle_scan_nonempty data 0 0 [] ltac:(constructor)) as H.
    eapply Forall_impl; [|exact H]. intros [k x]. exact (fun y => y). }
  pose proof (Permutation_length (flat_decoded b data)) as HP. fold l in HP. rewrite map_length in HP.
  pose proof (runs_length data 0 0) as Hr.
  assert (F := rle_entries_len b l Hne).
  unfold enc_rle, enc_vec. rewrite !zlen_app, bitdepth_len. change (zlen (enc_u8 RLE_COMPRESSOR_ID)) with 1.
  assert (V := varint_len (Z.of_nat (length l))). unfold enc_u64.
  assert (N := zlen_nonneg (flat_map (enc_rle_entry b) l)).
  assert (zlen (flat l) <= zlen data) by (unfold zlen; lia). lia.
Qed.

Lemma poly_bytes c : Z.of_nat (length (pl_points c)) < 2 ^ 64 -> 0 <= pl_step c < 256 -> bytes_ok (enc_poly c).
Proof.
  intros Hl Hs. unfold enc_poly, bytes_ok. rewrite !Forall_app. repeat split.
  - destruct (pl_id c); repeat constructor; unfold byte_ok; lia.
  - apply (cd_bytes _ _ _ codec_bitdepth); exact I.
  - rewrite <- enc_vec_conv. apply (cd_bytes _ _ _ (codec_vec _ _ _ (codec_sample (pl_bitdepth c)))).
    split; [apply Forall_map, Forall_forall; intros x _; apply conv_idem|now rewrite map_length].
  - apply le_bytes_ok.
  - apply le_bytes_ok.
  - repeat constructor; unfold byte_ok; lia.
Qed.
Lemma poly_len c : 1 <= zlen (enc_poly c) <= 28 + 8 * zlen (pl_points c).
Proof.
  unfold enc_poly. rewrite !zlen_app, bitdepth_len.
  assert (V := enc_vec_len (enc_sample (pl_bitdepth c)) 8 (pl_points c) ltac:(apply Forall_forall; intros x _; apply sample_len)).
  assert (N := zlen_nonneg (enc_vec (enc_sample (pl_bitdepth c)) (pl_points c))).
  assert (E1 : zlen (enc_ptype (pl_id c)) = 1) by (destruct (pl_id c); reflexivity).
  assert (E2 : forall x, zlen (enc_f64 x) = 8) by (intros; unfold zlen, enc_f64; rewrite le_bytes_length; reflexivity).
  rewrite E1, !E2. change (zlen (enc_u8 (pl_step c))) with 1. lia.
Qed.

Lemma fft_bytes c : freqs_ok (ff_freqs c) -> bytes_ok (enc_fft c).
Proof.
  intros H. unfold enc_fft, bytes_ok. rewrite !Forall_app. repeat split; try apply le_bytes_ok.
  - repeat constructor; unfold byte_ok, FFT_COMPRESSOR_ID; lia.
  - apply (cd_bytes _ _ _ (codec_vec _ _ _ codec_freq)). exact H.
Qed.
Lemma fft_len c : Forall (fun q => fq_pos q < 65536) (ff_freqs c) -> 1 <= zlen (enc_fft c) <= 18 + 11 * zlen (ff_freqs c).
Proof.
  intros H. unfold enc_fft. rewrite !zlen_app.
  assert (E2 : forall x, zlen (enc_f32 x) = 4) by (intros; unfold zlen, enc_f32; rewrite le_bytes_length; reflexivity).
  assert (V := enc_vec_len enc_freq 11 (ff_freqs c)).
  assert (N := zlen_nonneg (enc_vec enc_freq (ff_freqs c))).
  rewrite !E2. change (zlen (enc_u8 FFT_COMPRESSOR_ID)) with 1.
  enough (zlen (enc_vec enc_freq (ff_freqs c)) <= 9 + 11 * zlen (ff_freqs c)) by lia. apply V.
  eapply Forall_impl; [|exact H]. intros q Hq. unfold enc_freq. cbn beta in Hq. rewrite !zlen_app, !E2. assert (W := varint_len16 (fq_pos q) ltac:(lia)). unfold enc_u16. lia.
Qed.

Section Chunk.
Variable e : env.
Variable p : profile.
Variable data : list f64.
Hypothesis He : env_ok e.
Hypothesis Hne : data <> [].
Hypothesis Hsize : Z.of_nat (length data) <= 2 ^ 53.

Let Hmem : in_memory data. Proof. unfold in_memory. lia. Qed.
Let Hlen : 1 <= len data <= 2 ^ 53. Proof. split; [now apply nonempty_len|exact Hsize]. Qed.

Lemma noop_payload : payload_ok e p Noop (length data) (noop data).
Proof.
  split; [apply noop_bytes; lia|]. split; [assert (H := noop_len data); unfold zlen in *; lia|].
  eexists. split; [cbn [decompress]; apply noop_roundtrip; lia|]. now rewrite map_length.
Qed.
Lemma constant_payload st : data_stats data = Ok st -> payload_ok e p Constant (length data) (cr_data (constant_compressor data st)).
Proof.
  intros Hst. unfold constant_compressor. cbn [cr_data]. destruct (constant_bytes (st_bitdepth st) (st_min st)) as [H1 H2].
  split; [exact H1|]. split; [lia|]. eexists. split; [cbn [decompress]; apply (constant_roundtrip data st _ Hst)|].
  apply repeat_length.
Qed.
Lemma rle_payload st : payload_ok e p RLE (length data) (cr_data (rle_compressor data st)).
Proof.
  split; [apply rle_bytes; lia|]. split; [assert (H := rle_len (st_bitdepth st) data); unfold rle_compressor, cr_data; unfold zlen in *; lia|].
  eexists. split; [cbn [decompress]; apply rle_roundtrip; lia|].
  unfold rle_expand. rewrite rle_fill_length. apply repeat_length.
Qed.

Lemma poly_expand c : 1 <= pl_step c -> exists out, poly_to_data (e_idw e) p c (length data) = Ok out /\ length out = length data.
Proof.
  intros Hs. unfold poly_to_data. destruct (feq (pl_max c) (pl_min c)).
  - eexists. split; [reflexivity|apply repeat_length].
  - apply method_total; [exact Hs|unfold len in Hlen; lia|lia].
Qed.
Lemma frame0_payload c st : interpolating c -> payload_ok e p c (length data) (enc_poly (frame0 st (ptype_of c))).
Proof.
  intros Hi. split; [apply poly_bytes; cbn; lia|]. split.
  - assert (H := poly_len (frame0 st (ptype_of c))). change (zlen (pl_points (frame0 st (ptype_of c)))) with 0 in H. lia.
  - rewrite decompress_interp by exact Hi. unfold polynomial_decompress. rewrite decode_frame0. cbn [bind]. apply poly_expand. cbn. lia.
Qed.
Lemma holds_payload c c0 f s : interpolating c -> holds data c0 f s -> payload_ok e p c (length data) (enc_poly f).
Proof.
  intros Hi Hh. destruct Hh as [Hs Hf] eqn:EH. clear EH.
  assert (Hg := grid_length (len data) s ltac:(lia) ltac:(lia)).
  assert (Hp : zlen (pl_points f) <= len data) by (subst f; unfold zlen; cbn [with_points pl_points]; unfold pick; rewrite map_length; exact Hg).
  assert (Hst : pl_step f = s) by (subst f; reflexivity).
  split; [apply poly_bytes; unfold zlen in Hp; lia|]. split; [assert (H := poly_len f); unfold len in *; lia|].
  rewrite decompress_interp by exact Hi. unfold polynomial_decompress. rewrite (decode_holds data c0 f s Hlen Hh). cbn [bind].
  apply poly_expand. cbn [conv_poly pl_step]. lia.
Qed.
Lemma poly_payload c bytes : interpolating c -> produced e p c data bytes -> payload_ok e p c (length data) bytes.
Proof.
  intros Hi H. destruct (data_stats_total data Hne) as [st Hst].
  destruct (produced_shape e p c data bytes st Hi Hst Hlen H) as (f & -> & [->|[s Hs]]).
  - now apply frame0_payload.
  - now apply (holds_payload c (frame0 st (ptype_of c)) f s).
Qed.

Lemma fft_bounded_payload bound bytes : compress_bounded e p FFT data bound = Ok bytes -> payload_ok e p FFT (length data) bytes.
Proof.
  intros H. destruct (bounded_shape e p data bound He Hne Hmem) as (st & c & Hst & _ & Hc & Hmx & Hmn & Hcase).
  rewrite Hc in H. apply ok_inj in H. subst bytes.
  assert (Hok : freqs_ok (ff_freqs c) /\ zlen (ff_freqs c) <= 33 + zlen data).
  { destruct Hcase as [(_ & -> & _)|(_ & Hp)]; [split; [split; [apply Forall_nil|cbn; lia]|unfold zlen; cbn [length]; lia]|].
    destruct (bounded_stored e data bound st c He Hne Hmem Hp) as (_ & Hn & Hk & _). split; [exact Hk|]. unfold zlen.
    assert (D : (100 * (length data / 100) <= length data)%nat) by (apply Nat.mul_div_le; lia). lia. }
  destruct Hok as [Hok Hn]. split; [now apply fft_bytes|]. split.
  - assert (L := fft_len c ltac:(eapply Forall_impl; [|exact (proj1 Hok)]; intros q [_ Hq]; exact Hq)). unfold zlen in *. lia.
  - destruct (C24_padding_undone e p data bound (enc_fft c) He Hne Hmem Hc) as (f & d & a & b & out & _ & _ & Hd & Hl & _). eauto.
Qed.

Lemma fft_unbounded_payload bytes : compress e FFT data = Ok bytes -> payload_ok e p FFT (length data) bytes.
Proof.
  intros H. destruct (data_stats_total data Hne) as [st Hst]. unfold compress in H. rewrite Hst in H. cbn [bind] in H. clear st Hst.
  unfold fft in H. destruct (fft_minmax data) as [mm|] eqn:Em; [|discriminate]. cbn [bind] in H.
  destruct (fft_compress (e_fft e) (fft_new (fst mm) (snd mm)) data) as [c|] eqn:Ec; [|discriminate]. cbn [bind] in H.
  apply ok_inj in H. subst bytes. unfold fft_compress, fft_compress_hinted in Ec.
  assert (Hn : (1 <= length data)%nat) by (destruct data; [congruence|cbn; lia]).
  assert (Hok : freqs_ok (ff_freqs c) /\ zlen (ff_freqs c) <= 3 + zlen data /\ positions_within (length data + fst (trim_sizes (length data)) + snd (trim_sizes (length data))) (ff_freqs c)).
  { destruct (f32_eq (ff_max (fft_new (fst mm) (snd mm))) (ff_min (fft_new (fst mm) (snd mm)))).
    - apply ok_inj in Ec. subst c. cbn [fft_new ff_freqs]. split; [split; [apply Forall_nil|cbn; lia]|]. split; [unfold zlen; cbn [length]; lia|apply Forall_nil].
    - destruct He as [Hh Ht]. assert (Hsl := signal_length e data Ht). change (fft_optimize data) with (as_signal data) in Ec.
      assert (Hsn : fe_fft (e_fft e) (as_signal data) <> []) by (intros E'; rewrite E' in Hsl; cbn in Hsl; lia).
      destruct (fft_trim (e_fft e) (half_spectrum (fe_fft (e_fft e) (as_signal data))) (default_freqs (length data))) as [fs|] eqn:Et; [|discriminate].
      cbn [bind] in Ec. apply ok_inj in Ec. subst c. cbn [with_freqs ff_freqs]. assert (Hd3 := default_freqs_ge (length data)).
      destruct (trim_stored (e_fft e) (fe_fft (e_fft e) (as_signal data)) (default_freqs (length data)) fs Hh Hsn ltac:(clear -Hd3; lia) Et) as ([H1 _] & _ & H3).
      rewrite Hsl in H3. split; [split|split].
      + eapply Forall_impl; [|exact H1]. intros q (k & (_ & _ & ->) & _). unfold in_u. apply Z.mod_pos_bound. lia.
      + lia.
      + unfold zlen. lia.
      + eapply Forall_impl; [|exact H1]. intros q (k & (Hk & _ & ->) & _). rewrite Hsl in Hk.
        assert (0 <= Z.of_nat k mod 65536 <= Z.of_nat k) by (split; [apply Z.mod_pos_bound; lia|apply Z.mod_le; lia]).
        split; [lia|]. apply Z.div_le_lower_bound; lia. }
  destruct Hok as (Hok & Hc & Hp). split; [now apply fft_bytes|]. split.
  - assert (L := fft_len c ltac:(eapply Forall_impl; [|exact (proj1 Hok)]; intros q [_ Hq]; exact Hq)). unfold zlen in *. lia.
  - cbn [decompress]. unfold fft_to_data. rewrite decode_fft by exact Hok. cbn [bind].
    apply fft_expand_length; [exact (proj2 He)|exact Hn|exact Hp].
Qed.

(** Every direct compressor. *)
Lemma compress_payload c : c <> Auto -> exists bytes, compress e c data = Ok bytes /\ payload_ok e p c (length data) bytes.
Proof.
  intros Hc. destruct (data_stats_total data Hne) as [st Hst]. destruct c; try congruence.
  - exists (noop data). split; [unfold compress; rewrite Hst; reflexivity|exact noop_payload].
  - assert (H : exists bytes, compress e FFT data = Ok bytes).
    { unfold compress. rewrite Hst. cbn [bind]. change (fft (e_fft e) data) with (fft_set (e_fft e) data (default_freqs (length data))).
      assert (Hd3 := default_freqs_ge (length data)).
      destruct (C23_requested_count e data (default_freqs (length data)) He Hne Hmem ltac:(lia)) as (bs & f & Hb & _). eauto. }
    destruct H as [bytes H]. exists bytes. split; [exact H|]. now apply fft_unbounded_payload.
  - assert (H : exists bytes, compress e Idw data = Ok bytes).
    { unfold compress. rewrite Hst. cbn [bind]. destruct (polynomial_shape data PIdw st Hst Hlen) as [[_ H]|[_ (x & H & _)]]; eauto. }
    destruct H as [bytes H]. exists bytes. split; [exact H|]. apply poly_payload; [now right|now left].
  - exists (cr_data (constant_compressor data st)). split; [unfold compress; rewrite Hst; reflexivity|now apply constant_payload].
  - assert (H : exists bytes, compress e Polynomial data = Ok bytes).
    { unfold compress. rewrite Hst. cbn [bind]. destruct (polynomial_shape data PPolynomial st Hst Hlen) as [[_ H]|[_ (x & H & _)]]; eauto. }
    destruct H as [bytes H]. exists bytes. split; [exact H|]. apply poly_payload; [now left|now left].
  - exists (cr_data (rle_compressor data st)). split; [unfold compress; rewrite Hst; reflexivity|apply rle_payload].
Qed.

Lemma results_payload c bound : c <> Auto -> exists r, compress_results e p c data bound = Ok r /\
  compress_bounded e p c data bound = Ok (cr_data r) /\ payload_ok e p c (length data) (cr_data r).
Proof.
  intros Hc. destruct (data_stats_total data Hne) as [st Hst]. destruct c; try congruence.
  - exists {| cr_data := noop data; cr_error := f0 |}. unfold compress_results, compress_bounded. rewrite Hst. cbn [bind cr_data].
    split; [reflexivity|]. split; [reflexivity|]. exact noop_payload.
  - destruct (bounded_shape e p data bound He Hne Hmem) as (st' & c & _ & Hr & Hb & _). eexists. split; [exact Hr|]. split; [exact Hb|].
    cbn [cr_data]. now apply (fft_bounded_payload bound).
  - assert (H : exists r, polynomial_allowed_error (e_idw e) p data bound PIdw = Ok r).
    { destruct (allowed_shape (e_idw e) p data bound PIdw st Hst Hlen) as [[_ H]|[_ (x & y & H & _)]]; eauto. }
    destruct H as [r H]. exists r.
    assert (Hb : compress_bounded e p Idw data bound = Ok (cr_data r)) by (unfold compress_bounded; rewrite Hst; cbn [bind]; rewrite H; reflexivity).
    split; [unfold compress_results; rewrite Hst; cbn [bind]; exact H|]. split; [exact Hb|].
    apply poly_payload; [now right|right; now exists bound].
  - exists (constant_compressor data st). unfold compress_results, compress_bounded. rewrite Hst. cbn [bind].
    split; [reflexivity|]. split; [reflexivity|]. now apply constant_payload.
  - assert (H : exists r, polynomial_allowed_error (e_idw e) p data bound PPolynomial = Ok r).
    { destruct (allowed_shape (e_idw e) p data bound PPolynomial st Hst Hlen) as [[_ H]|[_ (x & y & H & _)]]; eauto. }
    destruct H as [r H]. exists r.
    assert (Hb : compress_bounded e p Polynomial data bound = Ok (cr_data r)) by (unfold compress_bounded; rewrite Hst; cbn [bind]; rewrite H; reflexivity).
    split; [unfold compress_results; rewrite Hst; cbn [bind]; exact H|]. split; [exact Hb|].
    apply poly_payload; [now left|right; now exists bound].
  - exists (rle_compressor data st). unfold compress_results, compress_bounded. rewrite Hst. cbn [bind].
    split; [reflexivity|]. split; [reflexivity|]. apply rle_payload.
Qed.

Lemma rle_result bound : exists r, compress_results e p RLE data bound = Ok r /\ cr_error r = f0.
Proof.
  destruct (data_stats_total data Hne) as [st Hst]. unfold compress_results. rewrite Hst. cbn [bind]. eexists. split; reflexivity.
Qed.
End Chunk.

(** *** Automatic selection *)
Lemma min_by_len_none l : min_by_len l = None <-> l = [].
Proof.
  destruct l as [|x l]; [easy|]. cbn [min_by_len]. split; [|discriminate].
  destruct (min_by_len l) as [y|]; [|discriminate]. destruct (_ <=? _)%nat; discriminate.
Qed.
Lemma min_by_len_spec l x : min_by_len l = Some x ->
  In x l /\ (forall y, In y l -> (length (cr_data (fst x)) <= length (cr_data (fst y)))%nat).
Proof.
  revert x. induction l as [|a l IH]; intros x; [discriminate|]. cbn [min_by_len].
  destruct (min_by_len l) as [y|] eqn:E.
  - destruct (IH y eq_refl) as [H1 H2]. destruct (length (cr_data (fst a)) <=? length (cr_data (fst y)))%nat eqn:El.
    + intros H. assert (x = a) by congruence. subst x. split; [now left|]. intros z [<-|Hz]; [lia|]. specialize (H2 z Hz). lia.
    + intros H. assert (x = y) by congruence. subst x. split; [now right|]. intros z [<-|Hz]; [lia|]. now apply H2.
  - apply min_by_len_none in E. subst l. intros H. assert (x = a) by congruence. subst x. split; [now left|].
    intros z [<-|[]]. lia.
Qed.
(** Ties go to the earliest. *)
Lemma min_by_len_first l x : min_by_len l = Some x -> exists before after, l = before ++ x :: after /\
  Forall (fun y => (length (cr_data (fst x)) < length (cr_data (fst y)))%nat) before.
Proof.
  revert x. induction l as [|a l IH]; intros x; [discriminate|]. cbn [min_by_len].
  destruct (min_by_len l) as [y|] eqn:E.
  - destruct (length (cr_data (fst a)) <=? length (cr_data (fst y)))%nat eqn:El.
    + intros H. assert (x = a) by congruence. subst x. exists [], l. split; [reflexivity|constructor].
    + intros H. assert (x = y) by congruence. subst x. destruct (IH y eq_refl) as (b & t & -> & Hb).
      exists (a :: b), t. split; [reflexivity|]. constructor; [lia|exact Hb].
  - apply min_by_len_none in E. subst l. intros H. assert (x = a) by congruence. subst x. exists [], []. split; [reflexivity|constructor].
Qed.

Lemma run_candidates_ok e p data bound : env_ok e -> data <> [] -> Z.of_nat (length data) <= 2 ^ 53 ->
  exists rf rp rr, run_candidates e p data bound = Ok [(rf, FFT); (rp, Polynomial); (rr, RLE)] /\
    compress_results e p FFT data bound = Ok rf /\ compress_results e p Polynomial data bound = Ok rp /\
    compress_results e p RLE data bound = Ok rr /\ cr_error rr = f0.
Proof.
  intros He Hne Hs.
  destruct (results_payload e p data He Hne Hs FFT bound ltac:(discriminate)) as (rf & Hf & _).
  destruct (results_payload e p data He Hne Hs Polynomial bound ltac:(discriminate)) as (rp & Hp & _).
  destruct (rle_result e p data Hne bound) as (rr & Hr & E).
  exists rf, rp, rr. split; [|tauto]. unfold run_candidates, compressor_list, map_res. rewrite Hf, Hp, Hr. reflexivity.
Qed.

(** Number of samples looked at per sampling level. *)
Definition level_sample (level : Z) : Z :=
  match level with 0 => 2147483647 | 1 => 4096 | 2 => 2048 | 3 => 1024 | 4 => 512 | 5 => 256 | _ => 128 end.
Lemma level_index level : 0 <= level <= 6 -> index COMPRESSION_SPEED level = Ok (level_sample level).
Proof.
  intros H. assert (level = 0 \/ level = 1 \/ level = 2 \/ level = 3 \/ level = 4 \/ level = 5 \/ level = 6) as
    [->|[->|[->|[->|[->|[->| ->]]]]]] by lia; reflexivity.
Qed.
Lemma level_sample_ge level : 128 <= level_sample level.
Proof.
  unfold level_sample. destruct level as [|q|q]; try lia.
  destruct q as [[[?|?|]|[?|?|]|]|[[?|?|]|[?|?|]|]|]; lia.
Qed.

(** Order in which the candidates are tried. *)
Definition rank (c : compressor) : Z := match c with FFT => 0 | Polynomial => 1 | _ => 2 end.
(** The winner among the three candidates on [d]: within the bound, smallest, and strictly smaller than
    every eligible candidate tried before it. *)
Definition winner (e : env) (p : profile) (d : list f64) (bound : f64) (c : compressor) (r : cresult) : Prop :=
  In c [FFT; Polynomial; RLE] /\ compress_results e p c d bound = Ok r /\ fle (cr_error r) bound = true /\
  forall c' r', In c' [FFT; Polynomial; RLE] -> compress_results e p c' d bound = Ok r' -> fle (cr_error r') bound = true ->
    (length (cr_data r) <= length (cr_data r'))%nat /\ (rank c' < rank c -> (length (cr_data r) < length (cr_data r'))%nat).

Lemma cons_inj {A} (x y : A) l l' : x :: l = y :: l' -> x = y /\ l = l'.
Proof. intros H. split; congruence. Qed.
Lemma winner_exists e p d bound : env_ok e -> d <> [] -> Z.of_nat (length d) <= 2 ^ 53 -> fle f0 bound = true ->
  exists rs r c, run_candidates e p d bound = Ok rs /\ min_by_len (filter (within bound) rs) = Some (r, c) /\
    forallb (fun x => negb (within bound x)) rs = false /\ winner e p d bound c r.
Proof.
  intros He Hne Hs Hb. destruct (run_candidates_ok e p d bound He Hne Hs) as (rf & rp & rr & Hrs & Hf & Hp & Hr & Er).
  set (rs := [(rf, FFT); (rp, Polynomial); (rr, RLE)]) in *.
  assert (Hw : within bound (rr, RLE) = true) by (unfold within; cbn [fst]; rewrite Er; exact Hb).
  assert (Hin : In (rr, RLE) (filter (within bound) rs)) by (apply filter_In; split; [right; right; now left|exact Hw]).
  destruct (min_by_len (filter (within bound) rs)) as [[r c]|] eqn:Em.
  2:{ apply min_by_len_none in Em. rewrite Em in Hin. destruct Hin. }
  exists rs, r, c. split; [exact Hrs|]. split; [exact Em|]. split.
  { destruct (forallb (fun x => negb (within bound x)) rs) eqn:Ef; [|reflexivity].
    rewrite forallb_forall in Ef. specialize (Ef (rr, RLE) ltac:(right; right; now left)). rewrite Hw in Ef. discriminate. }
  destruct (min_by_len_spec _ _ Em) as [H1 H2]. apply filter_In in H1. destruct H1 as [H1 H1'].
  assert (Hrc : In c [FFT; Polynomial; RLE] /\ compress_results e p c d bound = Ok r).
  { unfold rs in H1. cbn [In] in H1. destruct H1 as [E|[E|[E|[]]]].
    - assert (r = rf) as -> by congruence. assert (c = FFT) as -> by congruence. cbn [In]. tauto.
    - assert (r = rp) as -> by congruence. assert (c = Polynomial) as -> by congruence. cbn [In]. tauto.
    - assert (r = rr) as -> by congruence. assert (c = RLE) as -> by congruence. cbn [In]. tauto. }
  destruct Hrc as [Hc1 Hc2]. split; [exact Hc1|]. split; [exact Hc2|]. split; [exact H1'|].
  intros c' r' Hc' Hr' Hw'. specialize (H2 (r', c')). cbn [fst] in H2.
  assert (Hin' : In (r', c') (filter (within bound) rs)).
  { apply filter_In. split; [|exact Hw']. unfold rs. cbn [In] in *. destruct Hc' as [<-|[<-|[<-|[]]]].
    - left. rewrite Hf in Hr'. apply ok_inj in Hr'. now subst.
    - right; left. rewrite Hp in Hr'. apply ok_inj in Hr'. now subst.
    - right; right; left. rewrite Hr in Hr'. apply ok_inj in Hr'. now subst. }
  split; [now apply H2|]. intros Hrank.
  destruct (min_by_len_first _ _ Em) as (bef & aft & Hsplit & Hbef).
  assert (Hsort : forall a b x y, a ++ x :: b = filter (within bound) rs -> In y (x :: b) -> rank (snd x) <= rank (snd y)).
  { intros a b x y Hab Hy. revert Hab. unfold rs. cbn [filter].
    destruct (within bound (rf, FFT)), (within bound (rp, Polynomial)), (within bound (rr, RLE));
    (destruct a as [|a1 [|a2 [|a3 [|]]]]; cbn [app]; intros Hab; try discriminate;
     repeat match goal with H : _ :: _ = _ :: _ |- _ => apply cons_inj in H; destruct H end; subst; cbn [In] in Hy;
     repeat (destruct Hy as [Hy|Hy]; [subst; cbn; lia|]); destruct Hy). }
  rewrite Hsplit in Hin'. apply in_app_or in Hin'. destruct Hin' as [Hin'|Hin'].
  - rewrite Forall_forall in Hbef. exact (Hbef _ Hin').
  - specialize (Hsort bef aft (r, c) (r', c') (eq_sym Hsplit) Hin'). cbn [snd] in Hsort. lia.
Qed.

Lemma compress_best_cases e p data me level st :
  env_ok e -> data <> [] -> Z.of_nat (length data) <= 2 ^ 53 -> 0 <= level <= 6 ->
  data_stats data = Ok st -> fle f0 (f32_as_f64 me) = true ->
  exists c r, compress_best e p data me level =
    Ok {| fr_size := CLOSED_SIZE; fr_samples := Z.of_nat (length data); fr_compressor := c; fr_data := cr_data r |} /\
    compress_results e p c data (f32_as_f64 me) = Ok r /\
    ((feq (st_min st) (st_max st) = true /\ c = Constant) \/
     (feq (st_min st) (st_max st) = false /\ Z.of_nat (length data) < level_sample level /\
        winner e p data (f32_as_f64 me) c r) \/
     (feq (st_min st) (st_max st) = false /\ level_sample level <= Z.of_nat (length data) /\
        exists rp, winner e p (firstn (Z.to_nat (level_sample level)) data) (f32_as_f64 me) c rp)).
Proof.
  intros He Hne Hs Hl Hst Hb. unfold compress_best. cbv zeta. rewrite (level_index level Hl). cbn [bind]. rewrite Hst. cbn [bind].
  destruct (feq (st_min st) (st_max st)) eqn:E.
  - destruct (results_payload e p data He Hne Hs Constant (f32_as_f64 me) ltac:(discriminate)) as (r & Hr & _).
    exists Constant, r. rewrite Hr. cbn [bind snd fst]. split; [reflexivity|]. split; [reflexivity|]. now left.
  - destruct (level_sample level <=? Z.of_nat (length data)) eqn:El.
    + set (d := firstn _ data).
      assert (Hk := level_sample_ge level).
      assert (Hd : d <> []) by (unfold d; destruct data; [congruence|]; destruct (Z.to_nat (level_sample level)) eqn:Ez; [lia|discriminate]).
      assert (Hdl : Z.of_nat (length d) <= 2 ^ 53) by (unfold d; rewrite firstn_length; lia).
      destruct (winner_exists e p d (f32_as_f64 me) He Hd Hdl Hb) as (rs & r & c & H1 & H2 & _ & Hw).
      rewrite H1. cbn [bind]. rewrite H2.
      assert (Hca : c <> Auto) by (destruct Hw as (Hw & _); cbn [In] in Hw; intros ->; intuition discriminate).
      destruct (results_payload e p data He Hne Hs c (f32_as_f64 me) Hca) as (r' & Hr' & _).
      exists c, r'. rewrite Hr'. cbn [bind fst snd]. split; [reflexivity|]. split; [reflexivity|]. right; right. split; [reflexivity|]. split; [lia|]. now exists r.
    + destruct (winner_exists e p data (f32_as_f64 me) He Hne Hs Hb) as (rs & r & c & H1 & H2 & H3 & Hw).
      rewrite H1. cbn [bind]. rewrite H3, H2. exists c, r. cbn [bind fst snd]. split; [reflexivity|].
      split; [exact (proj1 (proj2 Hw))|]. right; left. split; [reflexivity|]. split; [lia|exact Hw].
Qed.
