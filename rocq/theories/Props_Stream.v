(** C01 - C04: the byte format of streams. *)
From Coq Require Import List ZArith Bool Lia.
From Coq Require Import ZifyBool.
From Verif Require Import Base Model_Float Model_Bincode Model_Stats Model_Compressors Model_Utils
  Model_Polynomial Model_Fft Model_Stream BincodeFacts StreamFacts.
Import ListNotations.
Open Scope Z_scope.

(** Values that fit the Rust types of the fields: usize sizes, a Vec<u8> payload, a u32
    version, a u8 counter, a Vec of frames. *)
Definition typed_frame (f : frame) : Prop :=
  0 <= fr_size f < 2 ^ 64 /\ 0 <= fr_samples f < 2 ^ 64 /\
  Forall (fun b => 0 <= b < 256) (fr_data f) /\ Z.of_nat (length (fr_data f)) < 2 ^ 64.
Definition typed_stream (s : stream) : Prop :=
  0 <= h_version (s_header s) < 2 ^ 32 /\ 0 <= h_frames (s_header s) < 256 /\
  Forall typed_frame (s_frames s) /\ Z.of_nat (length (s_frames s)) < 2 ^ 64.

Lemma typed_stream_ok s : typed_stream s -> stream_ok s.
Proof.
  intros (H1 & H2 & H3 & H4). split; [exact H1|]. split; [exact H2|]. split; [|exact H4].
  eapply Forall_impl; [|exact H3]. intros f (Ha & Hb & Hc & Hd). repeat split; try apply Ha; try apply Hb; assumption.
Qed.

(** A concrete stream with two frames, a payload containing every marker byte. *)
Definition ex_stream : stream :=
  {| s_header := {| h_version := 1; h_frames := 2 |};
     s_frames := [ {| fr_size := 41; fr_samples := 300; fr_compressor := Constant;
                      fr_data := [30; 3; 1] |};
                   {| fr_size := 41; fr_samples := 70000; fr_compressor := RLE;
                      fr_data := [250; 251; 252; 253; 254; 255; 0] |} ] |}.
Example ex_stream_typed : typed_stream ex_stream.
Proof. repeat split; cbn; try lia; repeat constructor; cbn; lia. Qed.

(** *** C01 *)
(** Parsing the bytes of a stream, followed by anything, gives back the same header and the
    same frames. *)
Theorem C01_stream_roundtrip : forall s trailing,
  typed_stream s -> h_version (s_header s) <= 1 ->
  stream_from_bytes (stream_to_bytes s ++ trailing) = Ok s.
Proof. intros s trailing Hs Hv. exact (stream_round s trailing (typed_stream_ok s Hs) Hv). Qed.
Print Assumptions C01_stream_roundtrip.
Example C01_example : stream_from_bytes (stream_to_bytes ex_stream ++ [1; 2; 3]) = Ok ex_stream.
Proof. apply C01_stream_roundtrip; [exact ex_stream_typed|cbn; lia]. Qed.

(** Two different streams never have the same bytes. *)
Theorem C01_stream_bytes_injective : forall s1 s2,
  typed_stream s1 -> typed_stream s2 ->
  h_version (s_header s1) <= 1 -> h_version (s_header s2) <= 1 ->
  stream_to_bytes s1 = stream_to_bytes s2 -> s1 = s2.
Proof.
  intros s1 s2 H1 H2 Hv1 Hv2 He. apply ok_inj.
  rewrite <- (C01_stream_roundtrip s1 [] H1 Hv1), <- (C01_stream_roundtrip s2 [] H2 Hv2). now rewrite He.
Qed.
Print Assumptions C01_stream_bytes_injective.

(** The serialised form is a byte string. *)
Theorem C01_stream_bytes_are_bytes : forall s, typed_stream s ->
  Forall (fun b => 0 <= b < 256) (stream_to_bytes s).
Proof.
  intros s Hs. destruct (typed_stream_ok s Hs) as (H1 & H2 & H3).
  unfold stream_to_bytes, header_bytes. rewrite <- !app_assoc. apply Forall_app. split.
  - repeat constructor; lia.
  - apply Forall_app. split; [apply le_bytes_ok|]. apply Forall_app. split; [repeat constructor; apply H2|].
    exact (cd_bytes _ _ _ codec_frames _ H3).
Qed.
Print Assumptions C01_stream_bytes_are_bytes.

(** *** C02 *)
Definition refused {A} (r : res A) : Prop := exists why, r = Panic why.

(** "BRRO" in ASCII. *)
Definition magic : list Z := [66; 82; 82; 79].

Theorem C02_short_or_foreign_refused : forall bytes,
  ((length bytes < 9)%nat \/ firstn 4 bytes <> magic) -> refused (stream_from_bytes bytes).
Proof.
  intros b H. destruct (stream_from_bytes b) as [s|e] eqn:E; [|now exists e].
  exfalso. destruct (stream_from_bytes_inv b s E) as (H1 & H2 & _).
  destruct H as [H|H]; [lia|]. apply H. exact H2.
Qed.
Print Assumptions C02_short_or_foreign_refused.

(** A header version above 1 (little-endian u32 at offset 4) is refused, whatever follows. *)
Theorem C02_newer_version_refused : forall bytes b4 b5 b6 b7,
  firstn 4 (skipn 4 bytes) = [b4; b5; b6; b7] ->
  1 < b4 + 256 * (b5 + 256 * (b6 + 256 * b7)) -> refused (stream_from_bytes bytes).
Proof.
  intros b b4 b5 b6 b7 Hv Hgt. destruct (stream_from_bytes b) as [s|e] eqn:E; [|now exists e].
  exfalso. destruct (stream_from_bytes_inv b s E) as (_ & _ & H & _). rewrite Hv in H. cbn [le_val] in H. lia.
Qed.
Print Assumptions C02_newer_version_refused.

(** A torn stream (cut anywhere before its end) is refused. *)
Theorem C02_torn_stream_refused : forall s cut lost,
  typed_stream s -> stream_to_bytes s = cut ++ lost -> lost <> [] ->
  refused (stream_from_bytes cut).
Proof.
  intros s cut lost Hs He Hl. destruct lost as [|x t]; [congruence|].
  apply (stream_prefix s cut (typed_stream_ok s Hs)). exists x, t. exact He.
Qed.
Print Assumptions C02_torn_stream_refused.
Example C02_example :
  refused (stream_from_bytes (firstn 17 (stream_to_bytes ex_stream))) /\
  refused (stream_from_bytes [66; 82; 82; 79; 2; 0; 0; 0; 0; 0]).
Proof.
  split.
  - apply (C02_torn_stream_refused ex_stream _ (skipn 17 (stream_to_bytes ex_stream)));
      [exact ex_stream_typed|symmetry; apply firstn_skipn|discriminate].
  - apply (C02_newer_version_refused _ 2 0 0 0); [reflexivity|lia].
Qed.

(** *** C03 *)
(** [dec] inverts [enc] on the values satisfying [P] leaving exactly what follows, and
    refuses every proper prefix. *)
Definition inverts {A} (enc : A -> list Z) (dec : decoder A) (P : A -> Prop) : Prop :=
  (forall v rest, P v -> dec (enc v ++ rest) = DOk v rest) /\
  (forall v cut lost, P v -> enc v = cut ++ lost -> lost <> [] -> exists e, dec cut = DErr e) /\
  (forall v, P v -> Forall (fun b => 0 <= b < 256) (enc v)).

Lemma codec_inverts {A} enc dec (P : A -> Prop) : codec enc dec P -> inverts enc dec P.
Proof.
  intros [H1 H2 H3 H4]. repeat split; [exact H1| |exact H4].
  intros v cut lost Hv He Hl. apply (H2 v cut Hv). destruct lost as [|x t]; [congruence|]. now exists x, t.
Qed.

Theorem C03_wire_formats_roundtrip :
  inverts enc_u8 dec_u8 (fun z => 0 <= z < 2 ^ 8) /\
  inverts enc_u16 dec_u16 (fun z => 0 <= z < 2 ^ 16) /\
  inverts enc_u32 dec_u32 (fun z => 0 <= z < 2 ^ 32) /\
  inverts enc_u64 dec_u64 (fun z => 0 <= z < 2 ^ 64) /\
  inverts enc_usize dec_usize (fun z => 0 <= z < 2 ^ 64) /\
  inverts enc_i16 dec_i16 (fun z => - 2 ^ 15 <= z < 2 ^ 15) /\
  inverts enc_i32 dec_i32 (fun z => - 2 ^ 31 <= z < 2 ^ 31) /\
  inverts enc_i64 dec_i64 (fun z => - 2 ^ 63 <= z < 2 ^ 63) /\
  inverts enc_f32 dec_f32 (fun _ => True) /\
  inverts enc_f64 dec_f64 (fun _ => True) /\
  inverts enc_compressor dec_compressor (fun _ => True) /\
  inverts enc_bitdepth dec_bitdepth (fun _ => True) /\
  inverts enc_frame dec_frame typed_frame.
Proof.
  repeat split.
  all: try (eapply codec_inverts; first [exact codec_u8|exact codec_u16|exact codec_u32|exact codec_u64
    |exact codec_i16|exact codec_i32|exact codec_i64|exact codec_f32|exact codec_f64
    |exact codec_compressor|exact codec_bitdepth]).
  all: eapply (codec_inverts enc_frame dec_frame typed_frame); eapply codec_weaken; [exact codec_frame|];
    intros f (Ha & Hb & Hc & Hd); repeat split; try apply Ha; try apply Hb; assumption.
Qed.
Print Assumptions C03_wire_formats_roundtrip.

Theorem C03_vector_roundtrip : forall (A : Type) (enc : A -> list Z) (dec : decoder A) (P : A -> Prop),
  inverts enc dec P -> (forall v, P v -> enc v <> []) ->
  inverts (enc_vec enc) (dec_vec dec) (fun l => Forall P l /\ Z.of_nat (length l) < 2 ^ 64).
Proof.
  intros A enc dec P (H1 & H2 & H3) Hne. apply codec_inverts, codec_vec. split; try assumption.
  intros a p Ha (x & t & He). apply (H2 a p (x :: t) Ha He). discriminate.
Qed.
Print Assumptions C03_vector_roundtrip.

(** Lengths of the encodings. *)
Theorem C03_varint_length : forall z, 0 <= z < 2 ^ 64 ->
  length (enc_u64 z) = if z <=? 250 then 1%nat else if z <? 2 ^ 16 then 3%nat
                       else if z <? 2 ^ 32 then 5%nat else 9%nat.
Proof.
  intros z _. unfold enc_u64, enc_varint.
  destruct (z <=? 250); [reflexivity|]. destruct (z <? 2 ^ 16); [cbn [length]; now rewrite le_bytes_length|].
  destruct (z <? 2 ^ 32); cbn [length]; now rewrite le_bytes_length.
Qed.
Theorem C03_float_length : forall x y, length (enc_f64 x) = 8%nat /\ length (enc_f32 y) = 4%nat.
Proof. intros. split; apply le_bytes_length. Qed.
Print Assumptions C03_varint_length.
Print Assumptions C03_float_length.
Example C03_example : enc_vec enc_i64 [-1; 300] = [2; 1; 251; 88; 2].
Proof. reflexivity. Qed.

(** *** C04 *)
(** One call adding a chunk to a stream. *)
Inductive addition :=
| AddDefault (chunk : list f64)
| AddWith (chunk : list f64) (c : compressor)
| AddBounded (chunk : list f64) (c : compressor) (max_error : f32) (speed : Z).

Definition add (e : env) (p : profile) (s : stream) (a : addition) : res stream :=
  match a with
  | AddDefault chunk => compress_chunk e p s chunk
  | AddWith chunk c => compress_chunk_with e p s chunk c
  | AddBounded chunk c me sp => compress_chunk_bounded_with e p s chunk c me sp
  end.
(** A sequence of calls on a fresh stream. *)
Definition add_all (e : env) (p : profile) (l : list addition) : res stream :=
  fold_res (add e p) l stream_new.

(** The frame a call produces, before it is added. *)
Definition frame_of (e : env) (p : profile) (a : addition) : res frame :=
  match a with
  | AddDefault chunk => frame_compress e Noop chunk
  | AddWith chunk c => frame_compress e c chunk
  | AddBounded chunk Auto me sp => compress_best e p chunk me sp
  | AddBounded chunk c me sp => frame_compress_bounded e p c chunk me
  end.

Lemma add_frame_of e p s a : add e p s a = do f <- frame_of e p a; push_frame p s f.
Proof. destruct a as [chunk|chunk c|chunk c me sp]; reflexivity. Qed.

Lemma add_all_frames e p l s s' : fold_res (add e p) l s = Ok s' ->
  exists fs, length fs = length l /\ Forall2 (fun a f => frame_of e p a = Ok f) l fs /\
    push_all p s fs = Ok s'.
Proof.
  revert s. induction l as [|a l IH]; intros s H.
  - exists []. repeat split; [constructor|exact H].
  - cbn [fold_res] in H. rewrite add_frame_of in H.
    destruct (frame_of e p a) as [f|] eqn:Ef; cbn [bind] in H; [|discriminate].
    destruct (push_frame p s f) as [s1|] eqn:Ep; cbn [bind] in H; [|discriminate].
    destruct (IH s1 H) as (fs & Hl & HF & Hp). exists (f :: fs).
    split; [cbn; lia|]. split; [constructor; assumption|].
    unfold push_all in *. cbn [fold_res]. rewrite Ep. exact Hp.
Qed.

(** Whatever chunks were added with whatever compressors: the frames are the results of the
    calls, in order, and the counter is their number modulo 256. *)
Theorem C04_frame_counter : forall e p l s,
  add_all e p l = Ok s ->
  Forall2 (fun a f => frame_of e p a = Ok f) l (s_frames s) /\
  h_frames (s_header s) = Z.of_nat (length (s_frames s)) mod 256 /\
  h_version (s_header s) = 1.
Proof.
  intros e p l s H. destruct (add_all_frames e p l stream_new s H) as (fs & Hl & HF & Hp).
  destruct (Z_le_gt_dec (Z.of_nat (length fs)) 255) as [Hs|Hs].
  - rewrite push_all_small in Hp by (cbn [stream_new s_header h_frames]; lia).
    apply ok_inj in Hp. subst s. cbn [s_frames s_header h_frames h_version stream_new app].
    split; [exact HF|]. split; [|reflexivity]. rewrite Z.mod_small by lia. reflexivity.
  - destruct p.
    + rewrite push_all_dev in Hp by (cbn [stream_new s_header h_frames]; lia). discriminate.
    + rewrite push_all_release in Hp by (cbn [stream_new s_header h_frames]; lia).
      apply ok_inj in Hp. subst s. cbn [s_frames s_header h_frames h_version stream_new app].
      split; [exact HF|]. split; reflexivity.
Qed.
Print Assumptions C04_frame_counter.

(** At most 255 calls: no addition panics by itself; the counter is the number of frames. *)
Theorem C04_counter_exact_up_to_255 : forall e p l,
  (length l <= 255)%nat ->
  (forall a, In a l -> exists f, frame_of e p a = Ok f) ->
  exists s, add_all e p l = Ok s /\
    length (s_frames s) = length l /\ h_frames (s_header s) = Z.of_nat (length l).
Proof.
  intros e p l Hl Hok.
  assert (G : forall s, 0 <= h_frames (s_header s) -> h_frames (s_header s) + Z.of_nat (length l) <= 255 ->
     exists s', fold_res (add e p) l s = Ok s' /\
       length (s_frames s') = (length (s_frames s) + length l)%nat /\
       h_frames (s_header s') = h_frames (s_header s) + Z.of_nat (length l)).
  { clear Hl. induction l as [|a l IH]; intros s H0 H1.
    - exists s. cbn. repeat split; lia.
    - cbn [fold_res]. rewrite add_frame_of. destruct (Hok a (or_introl eq_refl)) as [f Hf]. rewrite Hf. cbn [bind].
      unfold push_frame, arith_u, in_ub. cbn [length] in H1.
      assert ((0 <=? h_frames (s_header s) + 1) && (h_frames (s_header s) + 1 <? 2 ^ 8) = true) as -> by lia.
      cbn [bind].
      destruct (IH (fun b Hb => Hok b (or_intror Hb))
        {| s_header := {| h_version := h_version (s_header s); h_frames := h_frames (s_header s) + 1 |};
           s_frames := s_frames s ++ [f] |}) as (s' & Hs' & Hl' & Hh'); cbn [s_header h_frames s_frames] in *; [lia|lia|].
      exists s'. split; [exact Hs'|]. rewrite app_length in Hl'. cbn [length] in *. split; lia. }
  destruct (G stream_new ltac:(cbn [stream_new s_header h_frames]; lia) ltac:(cbn [stream_new s_header h_frames]; lia))
    as (s & Hs & Hl' & Hh).
  exists s. split; [exact Hs|]. split; [exact Hl'|]. exact Hh.
Qed.
Print Assumptions C04_counter_exact_up_to_255.

(** The 256th addition panics with overflow checks on. *)
Theorem C04_overflow_panics_dev : forall e l,
  (256 <= length l)%nat -> refused (add_all e Dev l).
Proof.
  intros e l Hl. destruct (add_all e Dev l) as [s|w] eqn:E; [|now exists w]. exfalso.
  destruct (add_all_frames e Dev l stream_new s E) as (fs & Hfl & _ & Hp).
  rewrite push_all_dev in Hp by (cbn [stream_new s_header h_frames]; lia). discriminate.
Qed.
Print Assumptions C04_overflow_panics_dev.

(** In a release build the counter wraps, but the stream still serialises and parses back with
    all its frames: decompression, which never looks at the counter, sees every frame. *)
Theorem C04_wrap_release : forall e l s,
  add_all e Release l = Ok s -> Forall typed_frame (s_frames s) ->
  Z.of_nat (length l) < 2 ^ 64 ->
  stream_from_bytes (stream_to_bytes s) = Ok s /\
  (length (s_frames s) = length l) /\
  (length l = 256%nat -> h_frames (s_header s) = 0).
Proof.
  intros e l s H Hf Hl. destruct (C04_frame_counter e Release l s H) as (HF & Hh & Hv).
  assert (Hlen : length (s_frames s) = length l) by (symmetry; eapply forall2_length; exact HF).
  split; [|split].
  - rewrite <- (app_nil_r (stream_to_bytes s)). apply C01_stream_roundtrip; [|lia].
    split; [lia|]. split; [rewrite Hh; apply Z.mod_pos_bound; lia|]. split; [exact Hf|lia].
  - exact Hlen.
  - intros H256. rewrite Hh, Hlen, H256. reflexivity.
Qed.
Print Assumptions C04_wrap_release.

(** The hypotheses are met: 256 one-sample constant chunks. *)
Definition env_any : env :=
  {| e_idw := fun _ _ _ => f0; e_fft := {| fe_fft := fun l => l; fe_ifft := fun l => l; fe_pops := fun l => l |} |}.
Definition chunks256 : list addition := repeat (AddWith [int_as_f64 7] Constant) 256.
Example C04_example :
  match add_all env_any Release chunks256 with
  | Ok s => h_frames (s_header s) = 0 /\ length (s_frames s) = 256%nat
            /\ Forall typed_frame (s_frames s)
  | Panic _ => False
  end /\ add_all env_any Dev chunks256 = Panic POverflow.
Proof.
  assert (H : add_all env_any Release chunks256 =
    Ok {| s_header := {| h_version := 1; h_frames := 0 |};
          s_frames := repeat {| fr_size := 41; fr_samples := 1; fr_compressor := Constant; fr_data := [30; 3; 7] |} 256 |})
    by (vm_compute; reflexivity).
  rewrite H. split; [|vm_compute; reflexivity].
  cbn [s_header h_frames s_frames]. split; [reflexivity|]. split; [apply repeat_length|].
  apply Forall_forall. intros f Hf. apply repeat_spec in Hf. subst f.
  repeat split; cbn; try lia. repeat constructor; lia.
Qed.
