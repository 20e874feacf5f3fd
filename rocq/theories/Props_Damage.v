(** C67: what reading does not check: the frame counter, the recorded frame size, what follows the stream, values, and how many
    samples a small file announces. *)
From Coq Require Import List ZArith Bool Lia ZifyBool Reals.
From Verif Require Import Base Model_Float Model_Bincode BincodeFacts Spec Model_Utils Model_Stats StatsFacts Model_Compressors CompressorFacts Model_Polynomial Model_Fft Model_Stream StreamFacts PlanFacts PipelineFacts
  Props_Lossless Props_Poly Props_Stream Spec_Wire Props_Wire FloatFacts.
Import ListNotations.
Open Scope Z_scope.

(** The byte at position [i] replaced. *)
Definition with_byte (i : nat) (b : Z) (bytes : list Z) : list Z := firstn i bytes ++ [b] ++ skipn (S i) bytes.

Lemma skipn_twice {A} (l : list A) : forall a b, skipn a (skipn b l) = skipn (b + a) l.
Proof. induction l as [|x l IH]; intros a b; [now rewrite !skipn_nil|]. destruct b as [|b]; [reflexivity|]. cbn [skipn Nat.add]. apply IH. Qed.
Lemma with_byte_parts i b bytes : (i < length bytes)%nat -> length (with_byte i b bytes) = length bytes /\ (forall j, (j <= i)%nat -> firstn j (with_byte i b bytes) = firstn j bytes) /\
  (forall j, (i < j)%nat -> skipn j (with_byte i b bytes) = skipn j bytes).
Proof.
  intros H. unfold with_byte. split; [|split].
  - rewrite !app_length, firstn_length, skipn_length. cbn. lia.
  - intros j Hj. rewrite firstn_app, firstn_firstn, firstn_length. replace (Nat.min j i) with j by lia. replace (j - Nat.min i (length bytes))%nat with 0%nat by lia. cbn. apply app_nil_r.
  - intros j Hj. rewrite skipn_app, firstn_length. replace (Nat.min i (length bytes)) with i by lia. rewrite skipn_all2 by (rewrite firstn_length; lia). cbn [app].
    replace (j - i)%nat with (S (j - i - 1)) by lia. rewrite skipn_cons, skipn_twice. f_equal. lia.
Qed.

(** The frame counter in the header is not compared with the frames: whatever stands there, the samples are the same. *)
Theorem C67_frame_count_unchecked : forall e p bytes b, (9 <= length bytes)%nat ->
  decompress_data e p (with_byte 8 b bytes) = decompress_data e p bytes.
Proof.
  intros e p bytes b H. destruct (with_byte_parts 8 b bytes ltac:(lia)) as (L & F & K). unfold decompress_data, stream_from_bytes. rewrite L, K by lia.
  replace (length bytes <? 9)%nat with false by lia. unfold header_from_bytes.
  assert (E4 : forall l : list Z, firstn 4 (firstn 9 l) = firstn 4 l) by (intros l; rewrite firstn_firstn; reflexivity).
  assert (E8 : forall l : list Z, firstn 4 (skipn 4 (firstn 9 l)) = firstn 4 (skipn 4 (firstn 8 l))).
  { intros l. rewrite !skipn_firstn_comm. rewrite !firstn_firstn. reflexivity. }
  rewrite !E4, !E8, !F by lia. destruct (negb _); [reflexivity|]. destruct (CURRENT_VERSION <? _); [reflexivity|]. cbn [bind].
  destruct (decode_unwrap (dec_vec dec_frame) (skipn 9 bytes)) as [fs|]; reflexivity.
Qed.
Print Assumptions C67_frame_count_unchecked.

(** Nor is the recorded size of a frame. *)
Definition resized (f g : frame) : Prop := fr_samples g = fr_samples f /\ fr_compressor g = fr_compressor f /\ fr_data g = fr_data f.
Theorem C67_frame_size_unchecked : forall e p h h' fs gs, Forall2 resized fs gs ->
  stream_decompress e p {| s_header := h; s_frames := gs |} = stream_decompress e p {| s_header := h'; s_frames := fs |}.
Proof.
  intros e p h h' fs gs H. unfold stream_decompress. cbn [s_frames]. f_equal. induction H as [|f g fs gs (H1 & H2 & H3) _ IH]; [reflexivity|].
  cbn [map_res]. unfold frame_decompress at 1 3. rewrite H1, H2, H3, IH. reflexivity.
Qed.
Print Assumptions C67_frame_size_unchecked.

(** What follows a stream is ignored; of two streams one after the other (files appended to each other) only the first is read. *)
Theorem C67_trailing_ignored : forall e p bytes out extra, Forall is_byte bytes -> Forall is_byte extra ->
  decompress_data e p bytes = Ok out -> decompress_data e p (bytes ++ extra) = Ok out.
Proof.
  intros e p bytes out extra Hb Hx H. unfold decompress_data in *. destruct (stream_from_bytes bytes) as [s|] eqn:E; [|discriminate]. cbn [bind] in H.
  destruct (proj1 (C57_stream_readable bytes s Hb) E) as (Hv & front & rest & -> & R).
  replace (stream_from_bytes ((front ++ rest) ++ extra)) with (Ok s); [exact H|]. symmetry.
  apply C57_stream_readable; [now apply Forall_app|]. split; [exact Hv|]. exists front, (rest ++ extra). now rewrite app_assoc.
Qed.
Print Assumptions C67_trailing_ignored.

(** * A stream with one constant frame *)
Definition constant_stream (n : nat) (z : Z) : list Z :=
  magic ++ [1; 0; 0; 0] ++ [1] ++ [1] ++ [41] ++ enc_usize (Z.of_nat n) ++ [3] ++ [3; 30; 3; z].

Lemma u8_cast z : 0 <= z < 256 -> f64_as_u8 (int_as_f64 z) = z.
Proof.
  intros H. assert (A : forallb (fun k => f64_as_u8 (int_as_f64 (Z.of_nat k)) =? Z.of_nat k) (seq 0 256) = true) by (vm_compute; reflexivity).
  rewrite forallb_forall in A. specialize (A (Z.to_nat z) ltac:(apply in_seq; lia)). rewrite Z2Nat.id in A by lia. now apply Z.eqb_eq.
Qed.
Lemma u8_int z : 0 <= z < 256 -> supported (int_as_f64 z) /\ is_int (int_as_f64 z) z.
Proof. intros H. split; [apply supported_int; lia|]. destruct (int_as_f64_exact z ltac:(lia)) as [R F]. split; assumption. Qed.

Definition constant_frame (n : nat) (z : Z) : frame := {| fr_size := 41; fr_samples := Z.of_nat n; fr_compressor := Constant; fr_data := [30; 3; z] |}.
Definition one_frame (f : frame) : stream := {| s_header := {| h_version := 1; h_frames := 1 |}; s_frames := [f] |}.

Lemma constant_stream_bytes n z : constant_stream n z = stream_to_bytes (one_frame (constant_frame n z)).
Proof. unfold stream_to_bytes, one_frame. cbn [s_header s_frames]. unfold enc_vec. cbn [length flat_map]. unfold enc_frame. cbn [fr_size fr_samples fr_compressor fr_data constant_frame]. rewrite app_nil_r. reflexivity. Qed.

Lemma constant_stream_reads e p n z : Z.of_nat n < 2 ^ 64 -> 0 <= z < 256 -> decompress_data e p (constant_stream n z) = Ok (repeat (int_as_f64 z) n).
Proof.
  intros Hn Hz. unfold decompress_data. rewrite constant_stream_bytes, <- (app_nil_r (stream_to_bytes _)), stream_round.
  - cbn [bind]. unfold stream_decompress, one_frame. cbn [s_frames map_res]. unfold frame_decompress, constant_frame. cbn [fr_compressor fr_samples fr_data]. rewrite Nat2Z.id. cbn [decompress].
    assert (C : constant_to_data n [30; 3; z] = Ok (repeat (int_as_f64 z) n)) by reflexivity. rewrite C. cbn [bind concat]. now rewrite app_nil_r.
  - unfold stream_ok, one_frame, byte_ok. cbn [s_header s_frames h_version h_frames]. split; [lia|]. split; [lia|]. split; [|cbn; lia].
    apply Forall_cons; [|apply Forall_nil]. unfold frame_ok, constant_frame, in_u. cbn [fr_size fr_samples fr_data]. split; [lia|]. split; [lia|]. split; [|cbn; lia].
    repeat (apply Forall_cons; [unfold byte_ok; lia|]). apply Forall_nil.
  - cbn. lia.
Qed.

Lemma usize_length z : (1 <= length (enc_usize z) <= 9)%nat.
Proof. unfold enc_usize, enc_varint. destruct (z <=? 250); [cbn; lia|]. destruct (z <? 2 ^ 16); [cbn; lia|]. destruct (z <? 2 ^ 32); cbn; lia. Qed.
Lemma usize_bytes z : 0 <= z < 2 ^ 64 -> Forall is_byte (enc_usize z).
Proof.
  assert (L : forall k y, Forall is_byte (le_bytes k y)).
  { induction k as [|k IH]; intros y; cbn [le_bytes]; [apply Forall_nil|]. apply Forall_cons; [|apply IH]. unfold is_byte. apply Z.mod_pos_bound. lia. }
  intros H. unfold enc_usize, enc_varint, is_byte in *. destruct (z <=? 250) eqn:E; [apply Forall_cons; [lia|apply Forall_nil]|].
  destruct (z <? 2 ^ 16); [apply Forall_cons; [lia|apply L]|]. destruct (z <? 2 ^ 32); apply Forall_cons; try lia; apply L.
Qed.

(** Values carry no check: in the file of a constant series of bytes (0 to 255) every value of the last byte is accepted and gives another series. *)
Theorem C67_damaged_value_accepted : forall e p n z, (1 <= n)%nat -> Z.of_nat n < 2 ^ 64 -> 0 <= z < 256 ->
  exists s bytes, compress_chunk_with e p stream_new (repeat (int_as_f64 z) n) Constant = Ok s /\ stream_to_bytes s = bytes /\
    decompress_data e p bytes = Ok (repeat (int_as_f64 z) n) /\
    forall z', 0 <= z' < 256 -> decompress_data e p (with_byte (length bytes - 1) z' bytes) = Ok (repeat (int_as_f64 z') n).
Proof.
  intros e p n z H1 Hn Hz. exists (one_frame (constant_frame n z)), (constant_stream n z). split; [|split; [symmetry; apply constant_stream_bytes|]].
  - unfold compress_chunk_with, frame_compress, compress.
    assert (Hne : repeat (int_as_f64 z) n <> []) by (destruct n; [lia|discriminate]). destruct (data_stats_total _ Hne) as [st Hst]. rewrite Hst. cbn [bind].
    destruct (u8_int z Hz) as [Hs Hi].
    assert (Hall : Forall supported (repeat (int_as_f64 z) n)) by (apply Forall_forall; intros y Hy; apply repeat_spec in Hy; now subst y).
    assert (Hfin : Forall finite (repeat (int_as_f64 z) n)) by (eapply Forall_impl; [|exact Hall]; apply supported_finite).
    assert (Hb : st_bitdepth st = BU8).
    { apply (C08_width_smallest _ st Hall Hst); apply Forall_forall; intros y Hy; apply repeat_spec in Hy; subst y; exists z; (split; [exact Hi|]); [lia|unfold fits; lia]. }
    assert (Hm : st_min st = int_as_f64 z).
    { destruct (data_stats_ok _ st Hfin Hst) as (_ & Hmin & _). apply min_at_in in Hmin. now apply repeat_spec in Hmin. }
    unfold constant_compressor. cbn [cr_data]. rewrite Hb, Hm, repeat_length. unfold enc_constant. cbn [enc_sample]. unfold enc_u8 at 2. rewrite u8_cast by exact Hz.
    unfold push_frame, stream_new. cbn [s_header h_frames s_frames]. reflexivity.
  - split; [now apply constant_stream_reads|]. intros z' Hz'. replace (with_byte (length (constant_stream n z) - 1) z' (constant_stream n z)) with (constant_stream n z'); [now apply constant_stream_reads|].
    unfold constant_stream. set (l := magic ++ [1; 0; 0; 0] ++ [1] ++ [1] ++ [41] ++ enc_usize (Z.of_nat n) ++ [3] ++ [3; 30; 3]).
    assert (E : forall v, magic ++ [1; 0; 0; 0] ++ [1] ++ [1] ++ [41] ++ enc_usize (Z.of_nat n) ++ [3] ++ [3; 30; 3; v] = l ++ [v]).
    { intros v. unfold l. rewrite <- !app_assoc. reflexivity. }
    rewrite !E. unfold with_byte. rewrite app_length. cbn [length]. replace (length l + 1 - 1)%nat with (length l) by lia.
    rewrite (firstn_app_exact l [z] _ eq_refl). rewrite skipn_all2 by (rewrite app_length; cbn; lia). cbn [app]. reflexivity.
Qed.
Print Assumptions C67_damaged_value_accepted.

Lemma constant_stream_is_bytes n z : Z.of_nat n < 2 ^ 64 -> 0 <= z < 256 -> Forall is_byte (constant_stream n z).
Proof.
  intros Hn Hz. assert (U := usize_bytes (Z.of_nat n) ltac:(lia)). unfold constant_stream, magic.
  assert (K : forall k, 0 <= k < 256 -> is_byte k) by (intros k Hk; exact Hk).
  repeat (apply Forall_app; split); try exact U; repeat (apply Forall_cons; [apply K; lia|]); apply Forall_nil.
Qed.

(** 25 bytes announce any number of samples a frame header can hold, and decompression makes them all. *)
Theorem C67_small_file_any_count : forall e p n, Z.of_nat n < 2 ^ 64 ->
  exists bytes out, Forall is_byte bytes /\ (length bytes <= 25)%nat /\ decompress_data e p bytes = Ok out /\ length out = n.
Proof.
  intros e p n Hn. exists (constant_stream n 0), (repeat (int_as_f64 0) n). split; [|split; [|split; [apply constant_stream_reads; lia|apply repeat_length]]].
  - apply constant_stream_is_bytes; lia.
  - unfold constant_stream. rewrite !app_length. assert (U := usize_length (Z.of_nat n)). cbn [length magic]. lia.
Qed.
Print Assumptions C67_small_file_any_count.

(** Instances: a file of three samples; the value 7 turned into 8, the counter into 200, and another file appended. *)
Example C67_example : exists bytes, Forall is_byte bytes /\ (9 <= length bytes)%nat /\
  forall e p, decompress_data e p bytes = Ok (repeat (int_as_f64 7) 3) /\ decompress_data e p (with_byte 8 200 bytes) = Ok (repeat (int_as_f64 7) 3) /\
    decompress_data e p (bytes ++ constant_stream 2 5) = Ok (repeat (int_as_f64 7) 3).
Proof.
  exists (constant_stream 3 7). split; [apply constant_stream_is_bytes; lia|]. split; [cbn; lia|]. intros e p.
  assert (R : decompress_data e p (constant_stream 3 7) = Ok (repeat (int_as_f64 7) 3)) by (apply constant_stream_reads; lia).
  split; [exact R|]. split; [rewrite C67_frame_count_unchecked by (cbn; lia); exact R|]. apply C67_trailing_ignored; [apply constant_stream_is_bytes; lia|apply constant_stream_is_bytes; lia|exact R].
Qed.
