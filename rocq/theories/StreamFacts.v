(** Codecs of enumerations, frames and streams; header and frame counter. *)
From Coq Require Import List ZArith Bool Lia.
From Coq Require Import ZifyBool.
From Verif Require Import Base Model_Float Model_Bincode BincodeFacts Model_Stats Model_Compressors
  Model_Utils Model_Polynomial Model_Fft Model_Stream.
Import ListNotations.
Open Scope Z_scope.

Lemma bind_nonempty {A} (l : list A) l' : l <> [] -> l ++ l' <> [].
Proof. destruct l; [congruence|discriminate]. Qed.

Lemma forall2_length {A B} (P : A -> B -> Prop) l1 l2 : Forall2 P l1 l2 -> length l1 = length l2.
Proof. induction 1; cbn; congruence. Qed.

(** A tagged enumeration. *)
Lemma codec_tag {A} (tag : A -> Z) (dec : Z -> decoder A) :
  (forall a, 0 <= tag a <= 250) -> (forall a rest, dec (tag a) rest = DOk a rest) ->
  codec (fun a => enc_u32 (tag a)) (dlet t <- dec_u32; dec t) (fun _ => True).
Proof.
  intros Ht Hd. split.
  - intros a rest _. rewrite (bind_round _ _ _ _ _ _ codec_u32); [apply Hd|].
    specialize (Ht a). unfold in_u. lia.
  - intros a p _ Hp. assert (enc_u32 (tag a) = [tag a]) as Hr.
    { unfold enc_u32, enc_varint. specialize (Ht a). assert (tag a <=? 250 = true) as -> by lia. reflexivity. }
    rewrite Hr in Hp. apply strict_prefix_one in Hp. subst p. exists UnexpectedEnd. reflexivity.
  - intros a _. apply (cd_nonempty _ _ _ codec_u32). specialize (Ht a). unfold in_u. lia.
  - intros a _. apply (cd_bytes _ _ _ codec_u32). specialize (Ht a). unfold in_u. lia.
Qed.

Lemma codec_bitdepth : codec enc_bitdepth dec_bitdepth (fun _ => True).
Proof. apply codec_tag; intros []; cbn; try lia; reflexivity. Qed.

Lemma codec_compressor : codec enc_compressor dec_compressor (fun _ => True).
Proof. apply codec_tag; intros []; cbn; try lia; reflexivity. Qed.

(** A frame whose fields fit their Rust types. *)
Definition frame_ok (f : frame) : Prop :=
  in_u 64 (fr_size f) /\ in_u 64 (fr_samples f) /\ bytes_vec_ok (fr_data f).

Lemma codec_frame : codec enc_frame dec_frame frame_ok.
Proof.
  split.
  - intros [s n c d] rest (Hs & Hn & Hd). cbn [fr_size fr_samples fr_data] in *.
    unfold enc_frame, dec_frame. cbn [fr_size fr_samples fr_compressor fr_data].
    rewrite <- !app_assoc.
    rewrite (bind_round _ _ _ _ _ _ codec_usize) by assumption.
    rewrite (bind_round _ _ _ _ _ _ codec_usize) by assumption.
    rewrite (bind_round _ _ _ _ _ _ codec_compressor) by trivial.
    rewrite (bind_round _ _ _ _ _ _ codec_bytes) by assumption. reflexivity.
  - intros [s n c d] p (Hs & Hn & Hd) Hp. cbn [fr_size fr_samples fr_data] in *.
    unfold enc_frame in Hp. cbn [fr_size fr_samples fr_compressor fr_data] in Hp. unfold dec_frame.
    eapply (bind_prefix _ _ _ _ _ _ _ codec_usize Hs Hp). clear p Hp. intros p Hp.
    eapply (bind_prefix _ _ _ _ _ _ _ codec_usize Hn Hp). clear p Hp. intros p Hp.
    eapply (bind_prefix _ _ _ _ _ _ _ codec_compressor I Hp). clear p Hp. intros p Hp.
    rewrite <- (app_nil_r (enc_bytes d)) in Hp.
    eapply (bind_prefix _ _ _ _ _ _ _ codec_bytes Hd Hp). clear p Hp. intros p Hp.
    now apply strict_prefix_nil in Hp.
  - intros [s n c d] (Hs & _). unfold enc_frame. apply bind_nonempty, (cd_nonempty _ _ _ codec_usize), Hs.
  - intros [s n c d] (Hs & Hn & Hd). cbn [fr_size fr_samples fr_data] in *.
    unfold enc_frame, bytes_ok. cbn [fr_size fr_samples fr_compressor fr_data]. rewrite !Forall_app.
    repeat split.
    + apply (cd_bytes _ _ _ codec_usize), Hs.
    + apply (cd_bytes _ _ _ codec_usize), Hn.
    + apply (cd_bytes _ _ _ codec_compressor), I.
    + apply (cd_bytes _ _ _ codec_bytes), Hd.
Qed.

(** Streams. *)
Definition stream_ok (s : stream) : Prop :=
  0 <= h_version (s_header s) < 2 ^ 32 /\ byte_ok (h_frames (s_header s)) /\ vec_ok frame_ok (s_frames s).

Definition codec_frames := codec_vec enc_frame dec_frame frame_ok codec_frame.

Lemma header_bytes_length h : length (header_bytes h) = 9%nat.
Proof. reflexivity. Qed.

Lemma header_round h : 0 <= h_version h < 2 ^ 32 ->
  header_from_bytes (header_bytes h) =
  if CURRENT_VERSION <? h_version h then Panic PExplicit else Ok h.
Proof.
  intros Hv. unfold header_from_bytes. destruct h as [v n]. cbn [h_version h_frames] in *.
  change (firstn 4 (header_bytes {| h_version := v; h_frames := n |})) with BRRO.
  destruct (list_eq_dec Z.eq_dec BRRO BRRO) as [_|H]; [|congruence]. cbv iota. cbn [negb].
  change (firstn 4 (skipn 4 (header_bytes {| h_version := v; h_frames := n |}))) with (le_bytes 4 v).
  rewrite le_val_le_bytes by exact Hv.
  change (nth 8 (header_bytes {| h_version := v; h_frames := n |}) 0) with n. reflexivity.
Qed.

Lemma firstn_app_exact {A} (l1 l2 : list A) n : length l1 = n -> firstn n (l1 ++ l2) = l1.
Proof. intros <-. rewrite firstn_app, Nat.sub_diag, firstn_O, app_nil_r. apply firstn_all. Qed.
Lemma skipn_app_exact {A} (l1 l2 : list A) n : length l1 = n -> skipn n (l1 ++ l2) = l2.
Proof. intros <-. rewrite skipn_app, Nat.sub_diag, skipn_all. reflexivity. Qed.

Lemma stream_round s rest : stream_ok s -> h_version (s_header s) <= 1 ->
  stream_from_bytes (stream_to_bytes s ++ rest) = Ok s.
Proof.
  intros (Hv & Hb & Hf) Hv1. unfold stream_from_bytes, stream_to_bytes.
  rewrite <- app_assoc.
  destruct (length (header_bytes (s_header s) ++ enc_vec enc_frame (s_frames s) ++ rest) <? 9)%nat eqn:E.
  { apply Nat.ltb_lt in E. rewrite app_length, header_bytes_length in E. lia. }
  rewrite firstn_app_exact, skipn_app_exact by reflexivity.
  rewrite header_round by assumption.
  assert (CURRENT_VERSION <? h_version (s_header s) = false) as -> by (unfold CURRENT_VERSION; lia).
  cbn [bind]. rewrite (decode_unwrap_ok _ _ (s_frames s) rest).
  - destruct s; reflexivity.
  - apply (cd_round _ _ _ codec_frames). exact Hf.
Qed.

Lemma stream_version s rest : stream_ok s -> 1 < h_version (s_header s) ->
  stream_from_bytes (stream_to_bytes s ++ rest) = Panic PExplicit.
Proof.
  intros (Hv & Hb & Hf) Hv1. unfold stream_from_bytes, stream_to_bytes.
  rewrite <- app_assoc.
  destruct (length (header_bytes (s_header s) ++ enc_vec enc_frame (s_frames s) ++ rest) <? 9)%nat eqn:E.
  { apply Nat.ltb_lt in E. rewrite app_length, header_bytes_length in E. lia. }
  rewrite firstn_app_exact, skipn_app_exact by reflexivity.
  rewrite header_round by assumption.
  assert (CURRENT_VERSION <? h_version (s_header s) = true) as -> by (unfold CURRENT_VERSION; lia).
  reflexivity.
Qed.

(** What any successfully parsed input looks like. *)
Lemma stream_from_bytes_inv b s : stream_from_bytes b = Ok s ->
  (9 <= length b)%nat /\ firstn 4 b = BRRO /\ le_val (firstn 4 (skipn 4 b)) <= 1 /\
  h_version (s_header s) = le_val (firstn 4 (skipn 4 b)) /\ h_frames (s_header s) = nth 8 b 0.
Proof.
  unfold stream_from_bytes. destruct (length b <? 9)%nat eqn:E; [discriminate|].
  apply Nat.ltb_ge in E.
  unfold header_from_bytes.
  destruct b as [|b0 [|b1 [|b2 [|b3 [|b4 [|b5 [|b6 [|b7 [|b8 b]]]]]]]]]; cbn [length] in E; try lia.
  cbn [firstn skipn nth].
  destruct (list_eq_dec Z.eq_dec [b0; b1; b2; b3] BRRO) as [Hm|Hm]; cbn [negb bind]; [|discriminate].
  destruct (CURRENT_VERSION <? le_val [b4; b5; b6; b7]) eqn:Ev; cbn [bind]; [discriminate|].
  destruct (decode_unwrap (dec_vec dec_frame) b) as [fs|]; cbn [bind]; [|discriminate].
  intros H. apply ok_inj in H. subst s. cbn [s_header h_version h_frames].
  unfold CURRENT_VERSION in Ev. split; [cbn; lia|]. split; [exact Hm|]. split; [lia|]. split; reflexivity.
Qed.

(** Every strict prefix of a stream is refused. *)
Lemma stream_prefix s p : stream_ok s -> strict_prefix p (stream_to_bytes s) ->
  exists e, stream_from_bytes p = Panic e.
Proof.
  intros (Hv & Hb & Hf) Hp. unfold stream_to_bytes in Hp.
  apply strict_prefix_app in Hp. destruct Hp as [Hp|(q & -> & Hq)].
  - apply strict_prefix_length in Hp. rewrite header_bytes_length in Hp.
    unfold stream_from_bytes. assert ((length p <? 9)%nat = true) as -> by (apply Nat.ltb_lt; lia).
    eauto.
  - unfold stream_from_bytes.
    destruct (length (header_bytes (s_header s) ++ q) <? 9)%nat; [eauto|].
    rewrite firstn_app_exact, skipn_app_exact by reflexivity.
    rewrite header_round by assumption.
    destruct (CURRENT_VERSION <? h_version (s_header s)); cbn [bind]; [eauto|].
    destruct (cd_prefix _ _ _ codec_frames _ q Hf Hq) as [e He].
    unfold decode_unwrap. rewrite He. cbn [bind]. eauto.
Qed.

(** * The frame counter *)
Section Counter.
Variable e : env.

(** Frames pushed one after the other. *)
Definition push_all (p : profile) (s : stream) (fs : list frame) : res stream :=
  fold_res (push_frame p) fs s.

Lemma push_all_small p fs s :
  0 <= h_frames (s_header s) -> h_frames (s_header s) + Z.of_nat (length fs) <= 255 ->
  push_all p s fs =
  Ok {| s_header := {| h_version := h_version (s_header s);
                       h_frames := h_frames (s_header s) + Z.of_nat (length fs) |};
        s_frames := s_frames s ++ fs |}.
Proof.
  unfold push_all. revert s. induction fs as [|f fs IH]; intros s H0 H1.
  - cbn. destruct s as [[v n] l]. cbn. rewrite Z.add_0_r, app_nil_r. reflexivity.
  - cbn [length] in H1. rewrite Nat2Z.inj_succ in H1. cbn [fold_res].
    unfold push_frame at 1. unfold arith_u, in_ub.
    assert ((0 <=? h_frames (s_header s) + 1) && (h_frames (s_header s) + 1 <? 2 ^ 8) = true) as -> by lia.
    cbn [bind]. rewrite IH; cbn [s_header h_frames s_frames h_version]; [|lia..].
    do 2 f_equal; [|rewrite <- app_assoc; reflexivity].
    f_equal. cbn [length]. lia.
Qed.

Lemma push_all_release fs s :
  0 <= h_frames (s_header s) < 256 ->
  push_all Release s fs =
  Ok {| s_header := {| h_version := h_version (s_header s);
                       h_frames := (h_frames (s_header s) + Z.of_nat (length fs)) mod 256 |};
        s_frames := s_frames s ++ fs |}.
Proof.
  unfold push_all. revert s. induction fs as [|f fs IH]; intros s H0.
  - cbn. destruct s as [[v n] l]. cbn in *. rewrite Z.add_0_r, app_nil_r, Z.mod_small by lia. reflexivity.
  - cbn [fold_res]. unfold push_frame at 1.
    assert (Ha : arith_u Release 8 (h_frames (s_header s) + 1) = Ok ((h_frames (s_header s) + 1) mod 256)).
    { unfold arith_u, in_ub, wrap_u. change (2 ^ 8) with 256.
      destruct ((0 <=? h_frames (s_header s) + 1) && (h_frames (s_header s) + 1 <? 256)) eqn:E; [|reflexivity].
      rewrite Z.mod_small by lia. reflexivity. }
    rewrite Ha. cbn [bind]. rewrite IH; cbn [s_header h_frames s_frames h_version].
    + do 2 f_equal; [|rewrite <- app_assoc; reflexivity].
      f_equal. rewrite Zplus_mod_idemp_l. f_equal. cbn [length]. lia.
    + apply Z.mod_pos_bound. lia.
Qed.

Lemma push_all_dev fs s :
  0 <= h_frames (s_header s) <= 255 -> 255 < h_frames (s_header s) + Z.of_nat (length fs) ->
  push_all Dev s fs = Panic POverflow.
Proof.
  unfold push_all. revert s. induction fs as [|f fs IH]; intros s H0 H1.
  - cbn [length] in H1. lia.
  - cbn [fold_res]. unfold push_frame at 1. unfold arith_u, in_ub. change (2 ^ 8) with 256.
    destruct ((0 <=? h_frames (s_header s) + 1) && (h_frames (s_header s) + 1 <? 256)) eqn:E;
      cbn [bind]; [|reflexivity].
    apply IH; cbn [s_header h_frames]; cbn [length] in H1; lia.
Qed.
End Counter.
