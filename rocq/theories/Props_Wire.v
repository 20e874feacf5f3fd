(** C56 - C58: the byte format on disk: what is written, what is accepted, and what frames of
    unknown origin decompress to. *)
From Coq Require Import List ZArith Bool Lia Permutation.
From Coq Require Import ZifyBool.
From Verif Require Import Base Model_Float Model_Bincode BincodeFacts Model_Stats Model_Compressors
  Model_Utils Model_Polynomial Model_Fft Model_Stream StreamFacts Spec CompressorFacts StatsFacts PolyFacts PolyLoopFacts
  PolyApiFacts SplineFacts FftFacts Spec_Wire WireFacts Props_Lossless Props_Stream Props_Poly Props_Fft PipelineFacts.
Import ListNotations.
Open Scope Z_scope.

(** *** C56 *)
(** The bytes of a stream are its one spelling in the written format. *)
Theorem C56_stream_written : forall s bytes, typed_stream s ->
  (stream_bytes Written s bytes <-> bytes = stream_to_bytes s).
Proof.
  intros s bytes Hs. apply typed_stream_ok in Hs. destruct Hs as (Hv & Hb & HF & HL).
  unfold stream_to_bytes, header_bytes.
  destruct (list4 _ (le_bytes_length 4 (h_version (s_header s)))) as (v0 & v1 & v2 & v3 & E).
  pose proof (le_bytes_ok 4 (h_version (s_header s))) as Hok. pose proof (le_val_le_bytes 4 _ Hv) as Hval.
  rewrite E in *. cbn [le_val] in Hval. split.
  - intros (w0 & w1 & w2 & w3 & rest & -> & Hw & Hver & Hf).
    apply (sequence_unique enc_frame _ _ _ frame_unique) in Hf. subst rest.
    change [w0; w1; w2; w3; h_frames (s_header s)] with ([w0; w1; w2; w3] ++ [h_frames (s_header s)]) in Hw. apply Forall_app in Hw.
    pose proof (le_bytes_le_val [w0; w1; w2; w3] (proj1 Hw)) as Hl. cbn [length le_val] in Hl.
    rewrite <- Hl. unfold BRRO. rewrite <- !app_assoc. do 4 f_equal. rewrite <- E, Hver. f_equal. lia.
  - intros ->. exists v0, v1, v2, v3, (enc_vec enc_frame (s_frames s)). unfold BRRO. rewrite <- !app_assoc.
    split; [reflexivity|]. split; [|split; [lia|]].
    + change [v0; v1; v2; v3; h_frames (s_header s)] with ([v0; v1; v2; v3] ++ [h_frames (s_header s)]). apply Forall_app.
      split; [exact Hok|]. constructor; [exact Hb|constructor].
    + apply (sequence_written enc_frame _ frame_ok); [exact frame_written|exact HF|exact HL].
Qed.
Print Assumptions C56_stream_written.

(** Example: the stream of Props_Stream. *)
Example C56_stream_example :
  stream_to_bytes ex_stream =
    [66; 82; 82; 79; 1; 0; 0; 0; 2;  2;
     41; 251; 44; 1; 3;  3; 30; 3; 1;
     41; 252; 112; 17; 1; 0; 6;  7; 250; 251; 252; 253; 254; 255; 0].
Proof. reflexivity. Qed.

(** What a compressor writes as the payload of a frame. *)
Definition written_payload (c : compressor) (data : list f64) (bytes : list Z) : Prop :=
  match c with
  | Noop => exists ints, noop_layout Written ints bytes /\ Forall2 (fun x z => z = f64_as_i64 (fround x)) data ints
  | Constant => exists b x, constant_layout Written b x bytes
  | RLE => exists b runs, rle_layout Written b runs bytes
  | FFT => exists fs mx mn, fft_layout Written fs mx mn bytes
  | Polynomial => exists b pts mn mx step, interpolation_layout Written PPolynomial b pts mn mx step bytes
  | Idw => exists b pts mn mx step, interpolation_layout Written PIdw b pts mn mx step bytes
  | Auto => False
  end.

Lemma poly_layout e p c data bytes : interpolating c -> data <> [] -> Z.of_nat (length data) <= 2 ^ 53 -> produced e p c data bytes ->
  exists b pts mn mx step, interpolation_layout Written (ptype_of c) b pts mn mx step bytes.
Proof.
  intros Hi Hne Hsize H. destruct (data_stats_total data Hne) as [st Hst].
  assert (Hlen : 1 <= len data <= 2 ^ 53) by (split; [now apply nonempty_len|exact Hsize]).
  destruct (produced_shape e p c data bytes st Hi Hst Hlen H) as (f & -> & [->|[s Hs]]).
  - exists (st_bitdepth st), [], (st_min st), (st_max st), 1.
    apply (poly_written (frame0 st (ptype_of c))); cbn; lia.
  - assert (Hid : pl_id f = ptype_of c) by (destruct Hs as [_ ->]; reflexivity).
    rewrite <- Hid. do 5 eexists. apply poly_written.
    + destruct Hs as [Hr ->]. cbn [with_points pl_points]. unfold pick. rewrite map_length.
      assert (Hg := grid_length (len data) s ltac:(lia) ltac:(lia)). lia.
    + destruct Hs as [Hr ->]. cbn [with_points pl_step]. lia.
Qed.

Lemma fft_layout_of e p data bytes : env_ok e -> data <> [] -> Z.of_nat (length data) <= 2 ^ 53 -> produced e p FFT data bytes ->
  exists fs mx mn, fft_layout Written fs mx mn bytes.
Proof.
  intros He Hne Hsize H. assert (Hm : in_memory data) by (unfold in_memory; lia).
  enough (exists c, bytes = enc_fft c /\ freqs_ok (ff_freqs c)) as (c & -> & Hok & Hl).
  { exists (ff_freqs c), (ff_max c), (ff_min c). now apply fft_written. }
  destruct H as [H|[bound H]].
  - destruct (data_stats_total data Hne) as [st Hst]. unfold compress in H. rewrite Hst in H. cbn [bind] in H. clear st Hst.
    unfold fft in H. destruct (fft_minmax data) as [mm|] eqn:Em; [|discriminate H]. cbn [bind] in H.
    destruct (fft_compress (e_fft e) (fft_new (fst mm) (snd mm)) data) as [c|] eqn:Ec; [|discriminate H]. cbn [bind] in H.
    apply ok_inj in H. exists c. split; [congruence|]. unfold fft_compress, fft_compress_hinted in Ec.
    destruct (f32_eq _ _).
    + apply ok_inj in Ec. subst c. cbn [fft_new ff_freqs]. split; [apply Forall_nil|cbn; lia].
    + destruct He as [Hh Ht]. assert (Hsl := signal_length e data Ht). change (fft_optimize data) with (as_signal data) in Ec.
      assert (Hn : (1 <= length data)%nat) by (destruct data; [congruence|cbn; lia]).
      assert (Hsn : fe_fft (e_fft e) (as_signal data) <> []) by (intros E'; rewrite E' in Hsl; cbn in Hsl; lia).
      destruct (fft_trim (e_fft e) (half_spectrum (fe_fft (e_fft e) (as_signal data))) (default_freqs (length data))) as [fs|] eqn:Et; [|discriminate Ec].
      cbn [bind] in Ec. apply ok_inj in Ec. subst c. cbn [with_freqs ff_freqs]. assert (Hd3 := default_freqs_ge (length data)).
      destruct (trim_stored (e_fft e) (fe_fft (e_fft e) (as_signal data)) (default_freqs (length data)) fs Hh Hsn ltac:(clear -Hd3; lia) Et) as ([H1 _] & _ & H3).
      rewrite Hsl in H3. split.
      * eapply Forall_impl; [|exact H1]. intros q (k & (_ & _ & ->) & _). unfold in_u. apply Z.mod_pos_bound. lia.
      * clear -H3 Hsize. lia.
  - destruct (bounded_shape e p data bound He Hne Hm) as (st & c & Hst & _ & Hc & Hmx & Hmn & Hcase).
    rewrite Hc in H. apply ok_inj in H. exists c. split; [congruence|].
    destruct Hcase as [(_ & -> & _)|(_ & Hp)]; [split; [apply Forall_nil|cbn; lia]|].
    destruct (bounded_stored e data bound st c He Hne Hm Hp) as (_ & _ & Hk & _). exact Hk.
Qed.

(** Whatever is compressed and however, the payload has the layout of its compressor. *)
Theorem C56_payload_written : forall e p c data bytes,
  env_ok e -> data <> [] -> Z.of_nat (length data) <= 2 ^ 53 ->
  (compress e c data = Ok bytes \/ exists bound, compress_bounded e p c data bound = Ok bytes) ->
  written_payload c data bytes.
Proof.
  intros e p c data bytes He Hne Hsize H.
  destruct (data_stats_total data Hne) as [st Hst].
  destruct c; cbn [written_payload].
  - assert (bytes = noop data) as ->.
    { destruct H as [H|[bd H]]; unfold compress, compress_bounded in H; rewrite Hst in H; cbn [bind] in H; apply ok_inj in H; congruence. }
    exists (noop_optimize data). split; [apply noop_written; lia|]. clear. unfold noop_optimize. induction data as [|x l IH]; cbn [map]; constructor; auto.
  - now apply (fft_layout_of e p data).
  - apply (poly_layout e p Idw data bytes); [now right|exact Hne|exact Hsize|exact H].
  - assert (bytes = cr_data (constant_compressor data st)) as ->.
    { destruct H as [H|[bd H]]; unfold compress, compress_bounded in H; rewrite Hst in H; cbn [bind] in H; apply ok_inj in H; congruence. }
    do 2 eexists. apply constant_written.
  - apply (poly_layout e p Polynomial data bytes); [now left|exact Hne|exact Hsize|exact H].
  - destruct H as [H|[bd H]]; unfold compress, compress_bounded in H; rewrite Hst in H; cbn [bind] in H; discriminate H.
  - assert (bytes = cr_data (rle_compressor data st)) as ->.
    { destruct H as [H|[bd H]]; unfold compress, compress_bounded in H; rewrite Hst in H; cbn [bind] in H; apply ok_inj in H; congruence. }
    do 2 eexists. apply rle_written. lia.
Qed.
Print Assumptions C56_payload_written.
Example C56_payload_example :
  compress id_env Noop (map int_as_f64 [3; -300; 70000]) = Ok [250; 3; 6; 251; 87; 2; 252; 224; 34; 2; 0] /\
  compress id_env Constant (map int_as_f64 [300; 300]) = Ok [30; 2; 251; 88; 2] /\
  compress id_env RLE (map int_as_f64 [7; 7; 9; 7]) = Ok [60; 3; 2; 7; 2; 0; 3; 9; 1; 2] /\
  compress id_env Polynomial (map int_as_f64 [1; 2; 4]) =
    Ok [0; 3; 3; 1; 2; 4; 0; 0; 0; 0; 0; 0; 240; 63; 0; 0; 0; 0; 0; 0; 16; 64; 1].
Proof. repeat split; vm_compute; reflexivity. Qed.

(** *** C57 *)
(** Parsing accepts exactly the byte strings that start with a stream, in any spelling of its
    numbers, of version 0 or 1, and returns that stream. *)
Theorem C57_stream_readable : forall bytes s, Forall is_byte bytes ->
  (stream_from_bytes bytes = Ok s <->
   h_version (s_header s) <= 1 /\ exists front rest, bytes = front ++ rest /\ stream_bytes Readable s front).
Proof. exact reads_stream. Qed.
Print Assumptions C57_stream_readable.

(** Everything accepted can be written again: the result parses to the same stream, and is not
    longer than what was read. *)
Theorem C57_accepted_can_be_rewritten : forall bytes s trailing, Forall is_byte bytes ->
  stream_from_bytes bytes = Ok s ->
  typed_stream s /\ stream_from_bytes (stream_to_bytes s ++ trailing) = Ok s /\
  (length (stream_to_bytes s) <= length bytes)%nat.
Proof.
  intros bytes s trailing Hb H. apply (C57_stream_readable bytes s Hb) in H.
  destruct H as (Hv & front & rest & -> & v0 & v1 & v2 & v3 & body & -> & Hw & Hver & Hf).
  assert (Hs : typed_stream s).
  { pose proof (sequence_forall _ _ frame_ok _ _ (frame_bytes_ok Readable) Hf) as [HF HL].
    change [v0; v1; v2; v3; h_frames (s_header s)] with ([v0; v1; v2; v3] ++ [h_frames (s_header s)]) in Hw. apply Forall_app in Hw.
    destruct Hw as [Hw Hn]. pose proof (le_val_range [v0; v1; v2; v3] Hw) as Hr. cbn [length le_val] in Hr.
    change (256 ^ Z.of_nat 4) with (2 ^ 32) in Hr.
    split; [lia|]. split; [exact (Forall_inv Hn)|]. split; [|exact HL].
    eapply Forall_impl; [|exact HF]. intros f (H1 & H2 & H3 & H4). repeat split; try apply H1; try apply H2; assumption. }
  split; [exact Hs|]. split; [now apply C01_stream_roundtrip|].
  apply frames_shortest in Hf. unfold stream_to_bytes. rewrite !app_length, header_bytes_length. cbn [length]. lia.
Qed.
Print Assumptions C57_accepted_can_be_rewritten.

(** The spelling itself need not survive: numbers may have been spelled longer. *)
Theorem C57_spelling_kept_refuted :
  ~ (forall bytes s, Forall is_byte bytes -> stream_from_bytes bytes = Ok s ->
     exists rest, bytes = stream_to_bytes s ++ rest).
Proof.
  intros H. destruct (H [66; 82; 82; 79; 1; 0; 0; 0; 0; 251; 0; 0] stream_new) as [rest Hr].
  - repeat (constructor; [unfold is_byte; lia|]). constructor.
  - reflexivity.
  - discriminate Hr.
Qed.
Print Assumptions C57_spelling_kept_refuted.

(** What payloads are read from. The frame's compressor decides how a payload is read, except
    that the kind of interpolation is taken from the payload. *)
Definition readable_payload (c : compressor) (bytes : list Z) : Prop :=
  match c with
  | Noop => exists ints, noop_layout Readable ints bytes
  | Constant => exists b x, constant_layout Readable b x bytes
  | RLE => exists b runs, rle_layout Readable b runs bytes
  | FFT => exists fs mx mn, fft_layout Readable fs mx mn bytes
  | Polynomial | Idw => exists k b pts mn mx step, interpolation_layout Readable k b pts mn mx step bytes
  | Auto => False
  end.

Lemma decode_reads {A} (d : decoder A) R bytes a : reads d R -> Forall is_byte bytes ->
  (decode_unwrap d bytes = Ok a <-> exists front rest, bytes = front ++ rest /\ R a front).
Proof.
  intros HR Hb. unfold decode_unwrap. split.
  - destruct (d bytes) as [x r|er] eqn:E; [|intros H; discriminate H]. intros H. apply ok_inj in H. subst x.
    destruct (rd_sound _ _ HR bytes a r Hb E) as (f & -> & Hf). now exists f, r.
  - intros (f & r & -> & Hf). now rewrite (rd_complete _ _ HR f a r Hf).
Qed.

Lemma bind_ok {A B} (x : res A) (f : A -> res B) b : bind x f = Ok b <-> exists a, x = Ok a /\ f a = Ok b.
Proof.
  destruct x as [a|w]; cbn [bind]; split.
  - intros H. now exists a.
  - intros (a' & H1 & H2). apply ok_inj in H1. now subst.
  - intros H. discriminate H.
  - intros (a' & H1 & _). discriminate H1.
Qed.

(** A payload that does not start with its layout is refused. *)
Theorem C57_malformed_payload_refused : forall e p c n bytes, Forall is_byte bytes ->
  (forall front rest, bytes = front ++ rest -> ~ readable_payload c front) ->
  refused (decompress e p c n bytes).
Proof.
  intros e p c n bytes Hb Hno. destruct (decompress e p c n bytes) as [out|w] eqn:H; [|now exists w]. exfalso.
  destruct c; cbn [decompress readable_payload] in *.
  - apply bind_ok in H. destruct H as (l & H & _). apply (decode_reads _ _ _ _ reads_noop Hb) in H.
    destruct H as (f & r & -> & Hf). apply (Hno f r eq_refl). now exists l.
  - apply bind_ok in H. destruct H as (c & H & _). apply (decode_reads _ _ _ _ reads_fft Hb) in H.
    destruct H as (f & r & -> & _ & Hf). apply (Hno f r eq_refl). eauto.
  - apply bind_ok in H. destruct H as (c & H & _). apply (decode_reads _ _ _ _ reads_poly Hb) in H.
    destruct H as (f & r & -> & _ & Hf). apply (Hno f r eq_refl). eauto 10.
  - apply bind_ok in H. destruct H as (x & H & _). apply (decode_reads _ _ _ _ reads_constant Hb) in H.
    destruct H as (f & r & -> & b & Hf). apply (Hno f r eq_refl). eauto.
  - apply bind_ok in H. destruct H as (c & H & _). apply (decode_reads _ _ _ _ reads_poly Hb) in H.
    destruct H as (f & r & -> & _ & Hf). apply (Hno f r eq_refl). eauto 10.
  - discriminate H.
  - apply bind_ok in H. destruct H as (l & H & _). apply (decode_reads _ _ _ _ reads_rle Hb) in H.
    destruct H as (f & r & -> & b & Hf). apply (Hno f r eq_refl). eauto.
Qed.
Print Assumptions C57_malformed_payload_refused.
Example C57_malformed_example : forall e p n, refused (decompress e p Constant n [30; 4; 1]).
Proof.
  intros e p n. apply C57_malformed_payload_refused; [repeat (constructor; [unfold is_byte; lia|]); constructor|].
  intros front rest E (b & x & m & tag & r & -> & _ & Hn & _).
  remember (width_tag b) as w eqn:Ew.
  destruct Hn; cbn [app] in E; injection E; intros; try lia. destruct b; cbn in Ew; lia.
Qed.

(** Noop and constant payloads of any origin: what comes out. *)
Theorem C57_noop_constant_read : forall e p n bytes out, Forall is_byte bytes ->
  (decompress e p Noop n bytes = Ok out <->
   exists ints front rest, bytes = front ++ rest /\ noop_layout Readable ints front /\ out = map int_as_f64 ints) /\
  (decompress e p Constant n bytes = Ok out <->
   exists b x front rest, bytes = front ++ rest /\ constant_layout Readable b x front /\ out = repeat x n).
Proof.
  intros e p n bytes out Hb. cbn [decompress]. split; split.
  - intros H. apply bind_ok in H. destruct H as (l & H & E). apply (decode_reads _ _ _ _ reads_noop Hb) in H.
    destruct H as (f & r & -> & Hf). apply ok_inj in E. exists l, f, r. auto.
  - intros (l & f & r & -> & Hf & ->). apply bind_ok. exists l. split; [|reflexivity].
    apply (decode_reads _ _ _ _ reads_noop Hb). eauto.
  - intros H. apply bind_ok in H. destruct H as (x & H & E). apply (decode_reads _ _ _ _ reads_constant Hb) in H.
    destruct H as (f & r & -> & b & Hf). apply ok_inj in E. exists b, x, f, r. auto.
  - intros (b & x & f & r & -> & Hf & ->). apply bind_ok. exists x. split; [|reflexivity].
    apply (decode_reads _ _ _ _ reads_constant Hb). eauto.
Qed.
Print Assumptions C57_noop_constant_read.

(** *** C58 *)
(** Whatever the payload of a frame contains, decompressing it panics or returns as many
    samples as the frame announces; except for the noop compressor, which returns the number of
    integers in its payload. *)
Theorem C58_announced_length : forall e p f out,
  (forall l, length (fe_ifft (e_fft e) l) = length l) ->
  fr_compressor f <> Noop ->
  frame_decompress e p f = Ok out -> length out = Z.to_nat (fr_samples f).
Proof.
  intros e p [sz n c d] out Ht Hc H. unfold frame_decompress in H. cbn [fr_compressor fr_samples fr_data] in *.
  generalize (Z.to_nat n) as k, H. clear H. intros k H.
  assert (Hpoly : polynomial_decompress (e_idw e) p k d = Ok out -> length out = k).
  { clear H. intros H. apply bind_ok in H. destruct H as (q & _ & H). unfold poly_to_data in H.
    destruct (feq (pl_max q) (pl_min q)); [apply ok_inj in H; subst out; apply repeat_length|].
    unfold method_to_data, polynomial_to_data, idw_to_data in H.
    destruct (pl_id q); apply bind_ok in H; destruct H as (pts & _ & H); apply ok_inj in H; subst out.
    - now rewrite sample_loop_length, range_length.
    - now rewrite map_length, range_length. }
  destruct c; try congruence; cbn [decompress] in H.
  - apply bind_ok in H. destruct H as (q & _ & H). unfold fft_expand in H.
    destruct (f32_eq (ff_max q) (ff_min q)); [apply ok_inj in H; subst out; apply repeat_length|].
    destruct (trim_sizes k) as [a b]. apply bind_ok in H. destruct H as (sp & Hsp & H). apply ok_inj in H. subst out.
    unfold fft_scale. rewrite map_length, firstn_length, skipn_length, Ht.
    assert (length sp = (k + a + b)%nat).
    { unfold get_mirrored_freqs in Hsp. revert Hsp.
      assert (G : forall fs l r, length l = (k + a + b)%nat -> fold_res (mirror_step (k + a + b)) fs l = Ok r -> length r = (k + a + b)%nat).
      { clear. induction fs as [|f fs IH]; intros l r Hl H; [apply ok_inj in H; now subst|].
        cbn [fold_res] in H. apply bind_ok in H. destruct H as (l' & H1 & H2). apply (IH l' r); [|exact H2].
        assert (SN : forall (i : nat) (v : c32) l l', set_nth i v l = Ok l' -> length l' = length l).
        { clear. induction i as [|i IH]; intros v [|x l] l' H; try discriminate H; cbn [set_nth] in H.
          - apply ok_inj in H. now subst.
          - apply bind_ok in H. destruct H as (r & H & E). apply ok_inj in E. subst l'. cbn [length]. f_equal. eapply IH, H. }
        unfold mirror_step in H1. apply bind_ok in H1. destruct H1 as (l1 & E1 & E2). apply SN in E1.
        destruct (_ =? 0)%nat; [apply ok_inj in E2; subst; lia|]. apply SN in E2. lia. }
      apply G. apply repeat_length. }
    lia.
  - exact (Hpoly H).
  - apply bind_ok in H. destruct H as (x & _ & H). apply ok_inj in H. subst out. apply repeat_length.
  - exact (Hpoly H).
  - discriminate H.
  - apply bind_ok in H. destruct H as (x & _ & H). apply ok_inj in H. subst out. unfold rle_expand. rewrite rle_fill_length. apply repeat_length.
Qed.
Print Assumptions C58_announced_length.

Theorem C58_noop_announced_length_refuted :
  ~ (forall e p f out, fr_compressor f = Noop -> frame_decompress e p f = Ok out -> length out = Z.to_nat (fr_samples f)).
Proof.
  intros H.
  set (f := {| fr_size := 41; fr_samples := 5; fr_compressor := Noop; fr_data := [250; 1; 6] |}).
  assert (E : decode_unwrap dec_noop (fr_data f) = Ok [3]) by (vm_compute; reflexivity).
  assert (D : frame_decompress id_env Dev f = Ok (map int_as_f64 [3])).
  { unfold frame_decompress, decompress, noop_to_data. change (fr_compressor f) with Noop. cbv iota. rewrite E. reflexivity. }
  specialize (H id_env Dev f _ eq_refl D). rewrite map_length in H. discriminate H.
Qed.
Print Assumptions C58_noop_announced_length_refuted.

(** A whole parsed stream: the announced numbers of samples add up. *)
Theorem C58_stream_length : forall e p s out,
  (forall l, length (fe_ifft (e_fft e) l) = length l) ->
  Forall (fun f => fr_compressor f <> Noop) (s_frames s) ->
  stream_decompress e p s = Ok out ->
  length out = list_sum (map (fun f => Z.to_nat (fr_samples f)) (s_frames s)).
Proof.
  intros e p [h fs] out Ht Hn H. unfold stream_decompress in H. cbn [s_frames] in *.
  apply bind_ok in H. destruct H as (l & Hl & H). apply ok_inj in H. subst out.
  revert l Hl. induction Hn as [|f fs Hf Hn IH]; intros l Hl; cbn [map_res] in Hl.
  - apply ok_inj in Hl. now subst l.
  - apply bind_ok in Hl. destruct Hl as (o & Ho & Hl). apply bind_ok in Hl. destruct Hl as (os & Hos & Hl).
    apply ok_inj in Hl. subst l. cbn [concat map]. rewrite app_length, (IH os Hos).
    rewrite (C58_announced_length e p f o Ht Hf Ho). reflexivity.
Qed.
Print Assumptions C58_stream_length.

(** A forged frame announcing 6 samples, with a payload no compressor wrote: positions out of
    order and out of range, the first samples uncovered. *)
Definition forged : frame :=
  {| fr_size := 0; fr_samples := 6; fr_compressor := RLE; fr_data := [99; 3; 2; 7; 2; 4; 200; 9; 1; 2; 77; 77] |}.
Example C58_example : forall e p,
  (do out <- frame_decompress e p forged; Ok (map to_bits out)) = Ok (map to_bits (map int_as_f64 [0; 0; 9; 9; 7; 7])).
Proof. intros e p. vm_compute. reflexivity. Qed.

(** Frames are independent: replacing one frame of a stream changes only the samples of that
    frame, and a frame that cannot be decompressed makes the whole stream fail. *)
Theorem C58_frames_independent : forall e p h before f after out,
  stream_decompress e p {| s_header := h; s_frames := before ++ f :: after |} = Ok out <->
  exists o1 o o2, out = o1 ++ o ++ o2 /\ frame_decompress e p f = Ok o /\
    (forall h', stream_decompress e p {| s_header := h'; s_frames := before |} = Ok o1) /\
    (forall h', stream_decompress e p {| s_header := h'; s_frames := after |} = Ok o2).
Proof.
  intros e p h before f after out. unfold stream_decompress. cbn [s_frames].
  assert (HA : forall l1 l2 r, map_res (frame_decompress e p) (l1 ++ l2) = Ok r <->
    exists r1 r2, r = r1 ++ r2 /\ map_res (frame_decompress e p) l1 = Ok r1 /\ map_res (frame_decompress e p) l2 = Ok r2).
  { induction l1 as [|a l1 IH]; intros l2 r.
    - cbn [app map_res]. split.
      + intros H. exists [], r. auto.
      + intros (r1 & r2 & -> & H1 & H2). apply ok_inj in H1. now subst r1.
    - cbn [app map_res]. rewrite bind_ok. split.
      + intros (o & Ho & H). apply bind_ok in H. destruct H as (os & Hos & H). apply IH in Hos.
        destruct Hos as (r1 & r2 & -> & H1 & H2). apply ok_inj in H. subst r. exists (o :: r1), r2.
        split; [reflexivity|]. rewrite Ho, H1. cbn [bind]. auto.
      + intros (r1 & r2 & -> & H1 & H2). apply bind_ok in H1. destruct H1 as (o & Ho & H1). apply bind_ok in H1.
        destruct H1 as (os & Hos & H1). apply ok_inj in H1. subst r1. exists o. split; [exact Ho|].
        apply bind_ok. exists (os ++ r2). split; [|reflexivity]. apply IH. exists os, r2. auto. }
  rewrite bind_ok. split.
  - intros (r & Hr & H). apply ok_inj in H. subst out. apply HA in Hr. destruct Hr as (r1 & r2 & -> & H1 & H2).
    cbn [map_res] in H2. apply bind_ok in H2. destruct H2 as (o & Ho & H2). apply bind_ok in H2. destruct H2 as (os & Hos & H2).
    apply ok_inj in H2. subst r2. exists (concat r1), o, (concat os). rewrite concat_app. cbn [concat].
    split; [reflexivity|]. split; [exact Ho|]. rewrite H1, Hos. cbn [bind]. auto.
  - intros (o1 & o & o2 & -> & Ho & H1 & H2). specialize (H1 h). specialize (H2 h).
    apply bind_ok in H1. destruct H1 as (r1 & Hr1 & H1). apply ok_inj in H1.
    apply bind_ok in H2. destruct H2 as (r2 & Hr2 & H2). apply ok_inj in H2. subst o1 o2.
    exists (r1 ++ o :: r2). split.
    + apply HA. exists r1, (o :: r2). split; [reflexivity|]. split; [exact Hr1|]. cbn [map_res]. rewrite Ho, Hr2. reflexivity.
    + now rewrite concat_app.
Qed.
Print Assumptions C58_frames_independent.
