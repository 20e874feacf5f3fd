(** C89: histories of library calls on one stream. *)
From Coq Require Import List ZArith Bool Lia ZifyBool Reals Lra Sorted.
From Flocq Require Import Core.
From Verif Require Import Base Model_Float Model_Bincode BincodeFacts Spec Spec_Metric FloatFacts Model_Utils UtilsFacts Model_Stats
  Model_Compressors Model_Polynomial Model_Fft Model_Stream StatsFacts CompressorFacts StreamFacts PlanFacts PolyLoopFacts PolyApiFacts PipelineFacts
  Props_Stream Props_Lossless Props_Plan Props_Poly Props_Fft Props_Pipeline Props_Accuracy Props_CliFft Props_CliIdw Model_History.
Import ListNotations.
Open Scope Z_scope.

(** *** The specification *)
(** Calls that cannot succeed: an empty chunk, automatic selection without an error bound, or a sampling level that does not exist. *)
Definition hopeless (a : addition) : bool :=
  match a with
  | AddDefault [] | AddWith [] _ | AddBounded [] _ _ _ => true
  | AddWith _ Auto => true
  | AddBounded _ Auto _ level => 7 <=? level
  | _ => false
  end.

(** The calls of a history that can succeed, in order. *)
Definition good_calls (l : list act) : list addition :=
  flat_map (fun x => match x with Call a => if hopeless a then [] else [a] | _ => [] end) l.

(** For some step, every [step]-th sample and the last one come back, up to the rounding to five decimals. *)
Definition knots_back (d out : list f64) : Prop :=
  exists step, 1 <= step <= 133 /\
    forall pos x, (step | pos) \/ pos = Z.of_nat (length d) - 1 -> sample_at d pos x ->
      exists y, sample_at out pos y /\ finite y /\ (Rabs (R64 y - R64 x) <= 6 / 1000000)%R /\ (five_decimals x -> same_value y x).
(** Everything that comes back is a NaN or between the extremes of the chunk, rounded to single precision. *)
Definition range_kept (d out : list f64) : Prop :=
  forall mn mx, least_value d mn -> greatest_value d mx ->
    let single r := round radix2 (FLT_exp (-149) 24) ZnearestE r in
    Forall (fun y => fis_nan y = true \/ (finite y /\ (single mn <= R64 y <= single mx)%R)) out.

(** What a call promises about the samples its chunk comes back as: the right number; and
    - nearest integers, for the no-op compressor and the default call;
    - the chunk, for run lengths on supported samples, and for the constant compressor on a constant chunk;
    - the error bound, for a bounded call with automatic selection, the polynomial or the inverse-distance compressor; for
      the Fourier compressor the error bound, or as many frequencies as are ever tried (or all there are);
    - every [step]-th sample and the last one, for a polynomial or inverse-distance call without bound;
    - the range of the chunk, for a Fourier call without bound. *)
Definition promise (e : env) (p : profile) (a : addition) (out : list f64) : Prop :=
  length out = length (chunk_of a) /\
  match a with
  | AddDefault d | AddWith d Noop | AddBounded d Noop _ _ => Forall2 noop_result d out
  | AddWith d RLE | AddBounded d RLE _ _ => Forall supported d -> same_series out d
  | AddWith d Constant | AddBounded d Constant _ _ =>
      forall c, supported c -> Forall (fun x => same_value x c) d -> same_series out d
  | AddBounded d Polynomial me _ =>
      Z.of_nat (length d) <= 131072 -> Forall supported d -> Forall (fun x => R64 x <> 0%R) d ->
      finite (f32_as_f64 me) -> (0 <= R64 (f32_as_f64 me) <= 3)%R ->
      nearly_equal d out \/ relative_error_within (R64 (f32_as_f64 me) + 6 / 10000 + / 100000000) d out
  | AddBounded d Idw me _ =>
      idw_interpolates e -> Z.of_nat (length d) <= 131072 -> Forall supported d -> Forall (fun x => R64 x <> 0%R) d ->
      finite (f32_as_f64 me) -> (0 <= R64 (f32_as_f64 me) <= 3)%R ->
      nearly_equal d out \/ relative_error_within (R64 (f32_as_f64 me) + 6 / 10000 + / 100000000) d out
  | AddBounded d Auto me level =>
      Z.of_nat (length d) <= 131072 -> Z.of_nat (length d) < level_sample level ->
      Forall supported d -> Forall no_negative_zero d ->
      finite (f32_as_f64 me) -> (0 <= R64 (f32_as_f64 me) <= 3)%R ->
      nearly_equal d out \/ relative_error_within (6 / 5 * (R64 (f32_as_f64 me) + / 100000000)) d out
  | AddBounded d FFT me _ =>
      no_overflow e -> zeros_last e -> Z.of_nat (length d) <= 131072 -> Forall supported d -> Forall (fun x => R64 x <> 0%R) d ->
      finite (f32_as_f64 me) -> (0 <= R64 (f32_as_f64 me) <= 3)%R ->
      within_range d out /\
      (nearly_equal d out \/ relative_error_within (6 / 5 * (R64 (f32_as_f64 me) + / 1000 + / 10000000)) d out \/ best_effort e p d out)
  | AddWith d Polynomial => Forall supported d -> Forall (fun x => (Rabs (R64 x) <= bpow radix2 30)%R) d -> knots_back d out
  | AddWith d Idw => idw_interpolates e -> Forall supported d -> Forall (fun x => (Rabs (R64 x) <= bpow radix2 30)%R) d -> knots_back d out
  | AddWith d FFT => Forall (fun x => finite x /\ (Rabs (R64 x) <= bpow radix2 127)%R) d -> range_kept d out
  | AddWith _ Auto => True                                    (* hopeless *)
  end.

(** What the chunk comes back as from a stream that holds nothing else. *)
Definition alone (e : env) (p : profile) (a : addition) (out : list f64) : Prop :=
  exists s, add_all e p [a] = Ok s /\ stream_decompress e p s = Ok out.

(** What the program sees at one step, after [before]. *)
Definition right_reply (e : env) (p : profile) (before : list act) (x : act) (r : reply) : Prop :=
  match x with
  | Call a =>
      r = if hopeless a then Refused
          else match p with Release => Added | Dev => if (length (good_calls before) <? 255)%nat then Added else Overflowed end
  | Reload _ => r = Reloaded
  | Read => exists outs, r = Samples (concat outs) /\
      Forall2 (fun a out => alone e p a out /\ promise e p a out) (good_calls before) outs
  end.

(** *** Proofs *)
Lemma hopeless_refused e p a : hopeless a = true -> exists pc, frame_of e p a = Panic pc.
Proof.
  assert (N : data_stats [] = Panic PUnwrap \/ exists pc, data_stats [] = Panic pc) by (right; eexists; reflexivity).
  destruct N as [N|[pc0 N]]; [discriminate N|].
  assert (E1 : forall c, exists pc, frame_compress e c [] = Panic pc).
  { intros c. unfold frame_compress, compress. rewrite N. eexists. reflexivity. }
  assert (E2 : forall c me, exists pc, frame_compress_bounded e p c [] me = Panic pc).
  { intros c me. unfold frame_compress_bounded, compress_bounded. rewrite N. eexists. reflexivity. }
  destruct a as [d|d c|d c me level]; cbn [hopeless frame_of].
  - destruct d; [intros _; apply E1|discriminate].
  - destruct d as [|x d]; [intros _; apply E1|]. destruct c; try discriminate. intros _.
    unfold frame_compress, compress. destruct (data_stats (x :: d)); eexists; reflexivity.
  - destruct d as [|x d].
    + intros _. destruct c; try apply E2. unfold compress_best. destruct (index COMPRESSION_SPEED level); cbn [bind]; [rewrite N|]; eexists; reflexivity.
    + destruct c; try discriminate. intros H. unfold compress_best, index.
      replace (nth_error COMPRESSION_SPEED (Z.to_nat level)) with (@None Z); [eexists; reflexivity|].
      symmetry. apply nth_error_None. change (length COMPRESSION_SPEED) with 7%nat. lia.
Qed.

Lemma proper_hopeful a : proper_call a -> hopeless a = false.
Proof.
  intros (H1 & _ & H2). destruct a as [d|d c|d c me level]; cbn [chunk_of hopeless] in *; destruct d as [|x d]; try contradiction; try reflexivity.
  - destruct c; try reflexivity. contradiction.
  - destruct c; try reflexivity. destruct (H2 eq_refl) as [H _]. lia.
Qed.

Lemma frame_alone e p a f out : frame_of e p a = Ok f -> frame_decompress e p f = Ok out -> alone e p a out.
Proof.
  intros Hf Ho. exists {| s_header := {| h_version := 1; h_frames := 1 |}; s_frames := [f] |}.
  split.
  - unfold add_all. cbn [fold_res]. rewrite add_frame_of, Hf. cbn [bind]. unfold push_frame. destruct p; reflexivity.
  - unfold stream_decompress. cbn [s_frames map_res]. rewrite Ho. cbn [bind concat]. now rewrite app_nil_r.
Qed.

Lemma frame_promise e p a f out : proper_call a -> frame_of e p a = Ok f -> frame_decompress e p f = Ok out ->
  length out = length (chunk_of a) -> env_ok e -> promise e p a out.
Proof.
  intros (Hne & Hl & Hc) Hf Ho Hlen He. split; [exact Hlen|].
  assert (Hm : in_memory (chunk_of a)) by (unfold in_memory; lia).
  assert (U : forall c b, frame_of e p a = (do d <- b; Ok {| fr_size := CLOSED_SIZE; fr_samples := Z.of_nat (length (chunk_of a)); fr_compressor := c; fr_data := d |}) ->
     exists bytes, b = Ok bytes /\ decompress e p c (length (chunk_of a)) bytes = Ok out).
  { intros c b E. rewrite Hf in E. destruct b as [bytes|]; [|discriminate]. cbn [bind] in E. apply ok_inj in E. subst f.
    exists bytes. split; [reflexivity|]. unfold frame_decompress in Ho. cbn [fr_compressor fr_samples fr_data] in Ho. now rewrite Nat2Z.id in Ho. }
  assert (B : forall c d me, c = Noop \/ c = RLE \/ c = Constant -> compress_bounded e p c d me = compress e c d).
  { intros c d me [->|[->| ->]]; reflexivity. }
  assert (N : forall d, chunk_of a = d -> forall bytes, compress e Noop d = Ok bytes -> decompress e p Noop (length d) bytes = Ok out -> Forall2 noop_result d out).
  { intros d <- bytes Hb Hd. destruct (C05_noop_nearest_integers e p _ Hne Hm) as (b & o & C1 & C2 & C3). rewrite C1 in Hb. apply ok_inj in Hb. subst b.
    rewrite C2 in Hd. apply ok_inj in Hd. now subst o. }
  assert (RL : forall d, chunk_of a = d -> forall bytes, compress e RLE d = Ok bytes -> decompress e p RLE (length d) bytes = Ok out -> Forall supported d -> same_series out d).
  { intros d <- bytes Hb Hd Hs. destruct (C07_rle_lossless e p _ Hne Hm Hs) as (b & o & C1 & C2 & C3). rewrite C1 in Hb. apply ok_inj in Hb. subst b.
    rewrite C2 in Hd. apply ok_inj in Hd. now subst o. }
  assert (CN : forall d, chunk_of a = d -> forall bytes, compress e Constant d = Ok bytes -> decompress e p Constant (length d) bytes = Ok out ->
     forall c, supported c -> Forall (fun x => same_value x c) d -> same_series out d).
  { intros d <- bytes Hb Hd c Hs Ha. destruct (C06_constant_lossless e p _ c Hne Hs Ha) as (b & o & C1 & C2 & C3). rewrite C1 in Hb. apply ok_inj in Hb. subst b.
    rewrite C2 in Hd. apply ok_inj in Hd. now subst o. }
  destruct a as [d|d c|d c me level]; cbn [chunk_of] in *.
  - destruct (U Noop (compress e Noop d) eq_refl) as (b & U1 & U2). eauto.
  - destruct c; try exact I; (destruct (U _ (compress e _ d) eq_refl) as (b & U1 & U2)); eauto.
    + intros G mn mx Gn Gx. eapply C25_output_in_range; eauto. left. exact U1.
    + intros Gi G1 G2. destruct (C60_idw_samples_returned e p d b Gi Hne Hl G1 G2 (or_introl U1)) as (step & o & G3 & G4 & _ & _ & G5).
      rewrite U2 in G4. apply ok_inj in G4. subst o. exists step. split; [exact G3|exact G5].
    + intros G1 G2. destruct (C17_grid_samples_returned e p d b Hne Hl G1 G2 (or_introl U1)) as (step & o & G3 & G4 & _ & G5).
      rewrite U2 in G4. apply ok_inj in G4. subst o. exists step. split; [exact G3|exact G5].
  - destruct c; try exact I.
    + destruct (U Noop (compress_bounded e p Noop d (f32_as_f64 me)) eq_refl) as (b & U1 & U2). eauto.
    + destruct (U FFT (compress_bounded e p FFT d (f32_as_f64 me)) eq_refl) as (b & U1 & U2). intros.
      eapply fft_bounded_chunk; try eassumption; lra.
    + destruct (U Idw (compress_bounded e p Idw d (f32_as_f64 me)) eq_refl) as (b & U1 & U2). intros.
      eapply idw_chunk; try eassumption; lra.
    + destruct (U Constant (compress_bounded e p Constant d (f32_as_f64 me)) eq_refl) as (b & U1 & U2). eauto.
    + destruct (U Polynomial (compress_bounded e p Polynomial d (f32_as_f64 me)) eq_refl) as (b & U1 & U2). intros.
      eapply polynomial_chunk; try eassumption; lra.
    + intros G1 G2 G3 G4 G5 G6. destruct (Hc eq_refl) as [Hlv _]. apply (auto_chunk e p d me level f out); try assumption; lra.
    + destruct (U RLE (compress_bounded e p RLE d (f32_as_f64 me)) eq_refl) as (b & U1 & U2). eauto.
Qed.

Lemma good_calls_app l m : good_calls (l ++ m) = good_calls l ++ good_calls m.
Proof. apply flat_map_app. Qed.

(** The stream in hand after [before]. *)
Definition in_hand (e : env) (p : profile) (before : list act) (s : stream) : Prop :=
  typed_stream s /\ h_version (s_header s) = 1 /\
  h_frames (s_header s) = match p with Release => Z.of_nat (length (good_calls before)) mod 256
                          | Dev => Z.min 255 (Z.of_nat (length (good_calls before))) end /\
  Forall2 (fun a f => frame_of e p a = Ok f) (good_calls before) (s_frames s).

Definition fair_act (x : act) : Prop := match x with Call a => hopeless a = true \/ proper_call a | _ => True end.

Lemma read_back e p l : forall fs, env_ok e -> Forall proper_call l -> Forall2 (fun a f => frame_of e p a = Ok f) l fs ->
  exists outs, map_res (frame_decompress e p) fs = Ok outs /\ Forall2 (fun a out => alone e p a out /\ promise e p a out) l outs.
Proof.
  intros fs He Hp H. induction H as [|a f l fs Hf _ IH]; [exists []; split; [reflexivity|constructor]|].
  inversion Hp as [|? ? Ha Hp']; subst. destruct (IH Hp') as (outs & H1 & H2).
  destruct (frame_of_ok e p a He Ha) as (f' & Hf' & _ & _ & out & Ho & Hol). rewrite Hf in Hf'. apply ok_inj in Hf'. subst f'.
  exists (out :: outs). cbn [map_res]. rewrite Ho. cbn [bind]. rewrite H1. cbn [bind]. split; [reflexivity|]. constructor; [|exact H2].
  split; [eapply frame_alone; eauto|eapply frame_promise; eauto].
Qed.

Lemma good_proper l : Forall fair_act l -> Forall proper_call (good_calls l).
Proof.
  induction 1 as [|x l Hx _ IH]; [constructor|]. destruct x as [a| |]; cbn [good_calls flat_map app] in *; try exact IH.
  destruct (hopeless a) eqn:E; [exact IH|]. cbn [app]. constructor; [|exact IH]. destruct Hx as [Hx|Hx]; [congruence|exact Hx].
Qed.

Lemma act_ok e p before x s : env_ok e -> Forall fair_act (before ++ [x]) -> Z.of_nat (length (before ++ [x])) < 2 ^ 64 ->
  in_hand e p before s ->
  exists s' r, do_act e p s x = Ok (s', r) /\ right_reply e p before x r /\ in_hand e p (before ++ [x]) s'.
Proof.
  intros He Hf Hn (Ht & Hv & Hc & HF).
  apply Forall_app in Hf. destruct Hf as [Hf Hx]. inversion Hx as [|? ? Hx' _]; subst. clear Hx.
  assert (GL : (length (good_calls before) <= length before)%nat).
  { clear. induction before as [|y l IH]; [cbn; lia|]. cbn [good_calls flat_map]. rewrite app_length. fold (good_calls l). 
    destruct y as [a| |]; cbn [length]; try lia. destruct (hopeless a); cbn [length]; lia. }
  rewrite app_length in Hn. cbn [length] in Hn.
  unfold in_hand. rewrite !good_calls_app. destruct x as [a|tr|]; cbn [good_calls flat_map app do_act right_reply].
  - unfold call. destruct (hopeless a) eqn:Eh.
    + destruct (hopeless_refused e p a Eh) as [pc ->]. cbn [app]. rewrite app_nil_r. exists s, Refused. repeat split; auto; apply Ht.
    + destruct Hx' as [Hx'|Hx']; [congruence|]. destruct (frame_of_ok e p a He Hx') as (f & Hfr & Tf & _). rewrite Hfr.
      assert (HF' : Forall2 (fun a f => frame_of e p a = Ok f) (good_calls before ++ [a]) (s_frames s ++ [f])).
      { apply Forall2_app; [exact HF|]. constructor; [exact Hfr|constructor]. }
      assert (HL := forall2_length _ _ _ HF').
      rewrite app_length in HL. cbn [length] in HL.
      assert (T' : Forall typed_frame (s_frames s ++ [f])) by (apply Forall_app; split; [apply Ht|constructor; [exact Tf|constructor]]).
      assert (Tn : Z.of_nat (length (s_frames s ++ [f])) < 2 ^ 64) by lia.
      cbn [app]. rewrite app_length. cbn [length]. unfold arith_u, in_ub. rewrite Hc.
      destruct p.
      * destruct (length (good_calls before) <? 255)%nat eqn:El.
        -- replace ((0 <=? Z.min 255 (Z.of_nat (length (good_calls before))) + 1) && (Z.min 255 (Z.of_nat (length (good_calls before))) + 1 <? 2 ^ 8)) with true by lia.
           eexists; eexists. split; [reflexivity|]. split; [reflexivity|]. split; [|cbn [s_header h_version h_frames s_frames]; repeat split; auto; lia].
           unfold typed_stream. cbn [s_header h_version h_frames s_frames]. rewrite Hv. repeat split; auto; lia.
        -- replace ((0 <=? Z.min 255 (Z.of_nat (length (good_calls before))) + 1) && (Z.min 255 (Z.of_nat (length (good_calls before))) + 1 <? 2 ^ 8)) with false by lia.
           eexists; eexists. split; [reflexivity|]. split; [reflexivity|]. split; [|cbn [s_header h_version h_frames s_frames]; repeat split; auto; lia].
           unfold typed_stream. cbn [s_header h_version h_frames s_frames]. repeat split; auto; apply Ht.
      * assert (M := Z.mod_pos_bound (Z.of_nat (length (good_calls before))) 256 ltac:(lia)).
        set (m := Z.of_nat (length (good_calls before))) in *.
        assert (G : exists n, (if (0 <=? m mod 256 + 1) && (m mod 256 + 1 <? 2 ^ 8) then Ok (m mod 256 + 1) else Ok (wrap_u 8 (m mod 256 + 1))) = Ok n /\ n = (m + 1) mod 256).
        { destruct ((0 <=? m mod 256 + 1) && (m mod 256 + 1 <? 2 ^ 8)) eqn:E; eexists; (split; [reflexivity|]).
          - Z.div_mod_to_equations; lia.
          - unfold wrap_u. change (2 ^ 8) with 256. Z.div_mod_to_equations; lia. }
        destruct G as (n & -> & ->).
        eexists; eexists. split; [reflexivity|]. split; [reflexivity|].
        assert (M' := Z.mod_pos_bound (m + 1) 256 ltac:(lia)).
        split; [|cbn [s_header h_version h_frames s_frames]; repeat split; auto; f_equal; lia].
        unfold typed_stream. cbn [s_header h_version h_frames s_frames]. rewrite Hv. repeat split; auto; lia.
  - rewrite (C01_stream_roundtrip s tr Ht ltac:(lia)). cbn [bind]. rewrite app_nil_r. exists s, Reloaded. repeat split; auto; apply Ht.
  - rewrite app_nil_r. destruct (read_back e p _ _ He (good_proper _ Hf) HF) as (outs & H1 & H2).
    exists s, (Samples (concat outs)). unfold stream_decompress. rewrite H1. cbn [bind]. split; [reflexivity|]. split; [eauto|].
    repeat split; auto; apply Ht.
Qed.

Lemma history_ok e p : forall l before s, env_ok e -> Forall fair_act (before ++ l) -> Z.of_nat (length (before ++ l)) < 2 ^ 64 ->
  in_hand e p before s ->
  exists s' replies, history e p s l = Ok (s', replies) /\ in_hand e p (before ++ l) s' /\ length replies = length l /\
    forall k x, nth_error l k = Some x -> exists r, nth_error replies k = Some r /\ right_reply e p (before ++ firstn k l) x r.
Proof.
  induction l as [|x l IH]; intros before s He Hf Hn Hi.
  - exists s, []. rewrite app_nil_r. split; [reflexivity|]. split; [exact Hi|]. split; [reflexivity|]. intros [|k] y H; discriminate.
  - replace (before ++ x :: l) with ((before ++ [x]) ++ l) in * by (rewrite <- app_assoc; reflexivity).
    assert (Hf1 := proj1 (proj1 (Forall_app _ _ _) Hf)).
    destruct (act_ok e p before x s He Hf1 ltac:(rewrite app_length in Hn; lia) Hi) as (s1 & r & A1 & A2 & A3).
    destruct (IH _ s1 He Hf Hn A3) as (s2 & rs & B1 & B2 & B3 & B4).
    exists s2, (r :: rs). cbn [history]. rewrite A1. cbn [bind fst snd]. rewrite B1. cbn [bind fst snd].
    split; [reflexivity|]. split; [exact B2|]. split; [cbn [length]; lia|].
    intros [|k] y Hy; cbn [nth_error firstn] in *.
    + injection Hy as <-. rewrite app_nil_r. eauto.
    + destruct (B4 k y Hy) as (r' & C1 & C2). exists r'. split; [exact C1|]. now rewrite <- app_assoc in C2.
Qed.

(** *** C89 *)
(** Any history of calls on one stream, in either build, refused calls and written-out-and-read-in streams included: a call
    that cannot succeed is refused and changes nothing; reading gives, in order, one piece per call that could succeed, each
    the piece a stream with that call alone would give, and each keeping its own call's promise; and writing the stream out
    and reading it in, with any bytes after it, changes nothing. In a debug build every call from the 256th on panics, but
    its chunk is in the stream all the same. *)
Theorem C89_history : forall e p acts,
  env_ok e -> Z.of_nat (length acts) < 2 ^ 64 ->
  (forall a, In (Call a) acts -> hopeless a = true \/ proper_call a) ->
  exists s replies,
    history e p stream_new acts = Ok (s, replies) /\ length replies = length acts /\
    forall k x, nth_error acts k = Some x ->
      exists r, nth_error replies k = Some r /\ right_reply e p (firstn k acts) x r.
Proof.
  intros e p acts He Hn Hc.
  assert (Hf : Forall fair_act acts) by (apply Forall_forall; intros [a| |] H; cbn; auto).
  assert (Hi : in_hand e p [] stream_new).
  { unfold in_hand, typed_stream, stream_new, CURRENT_VERSION. cbn. repeat split; try lia; try constructor. destruct p; reflexivity. }
  destruct (history_ok e p acts [] stream_new He Hf Hn Hi) as (s & rs & H1 & _ & H2 & H3). exists s, rs.
  split; [exact H1|]. split; [exact H2|]. exact H3.
Qed.
Print Assumptions C89_history.

(** Writing out and reading in, reading, and refused calls leave no trace: a history ends with the stream that the calls
    that can succeed would have made alone, in a fresh stream and one after the other. *)
Theorem C89_only_calls_count : forall e p acts s replies,
  env_ok e -> Z.of_nat (length acts) < 2 ^ 64 ->
  (forall a, In (Call a) acts -> hopeless a = true \/ proper_call a) ->
  history e p stream_new acts = Ok (s, replies) ->
  (length (good_calls acts) <= 255)%nat \/ p = Release ->
  add_all e p (good_calls acts) = Ok s.
Proof.
  intros e p acts s replies He Hn Hc Hh Hk.
  assert (Hf : Forall fair_act acts) by (apply Forall_forall; intros [a| |] H; cbn; auto).
  assert (Hi : in_hand e p [] stream_new).
  { unfold in_hand, typed_stream, stream_new, CURRENT_VERSION. cbn. repeat split; try lia; try constructor. destruct p; reflexivity. }
  destruct (history_ok e p acts [] stream_new He Hf Hn Hi) as (s' & rs & H1 & (_ & Hv & Hfr & HF) & _).
  rewrite Hh in H1. apply ok_inj in H1. apply (f_equal fst) in H1. cbn [fst] in H1. subst s'. cbn [app] in *.
  assert (GL : (length (good_calls acts) <= length acts)%nat).
  { clear. induction acts as [|y l IH]; [cbn; lia|]. cbn [good_calls flat_map]. rewrite app_length. fold (good_calls l). 
    destruct y as [a| |]; cbn [length]; try lia. destruct (hopeless a); cbn [length]; lia. }
  destruct (library_runs e p (good_calls acts) He (good_proper _ Hf) ltac:(destruct Hk; [left; lia|right; split; [assumption|lia]])) as (s1 & outs & R1 & _).
  rewrite R1. f_equal. destruct (C04_frame_counter e p _ s1 R1) as (G1 & G2 & G3).
  assert (Fr : s_frames s1 = s_frames s).
  { clear - G1 HF. revert HF. generalize (s_frames s). induction G1 as [|a f l fs Hf _ IH]; intros gs HF; inversion HF; subst; [reflexivity|]. f_equal; [congruence|auto]. }
  assert (HL := forall2_length _ _ _ HF).
  destruct s as [[v n] fs], s1 as [[v1 n1] fs1]. cbn [s_header s_frames h_version h_frames] in *. subst. f_equal. f_equal; try congruence.
  rewrite <- HL. destruct p; [|reflexivity]. destruct Hk as [Hk|Hk]; [|discriminate]. rewrite Z.mod_small by lia. lia.
Qed.
Print Assumptions C89_only_calls_count.

(** The chunk of a call that panicked in the counter is in the stream: 256 calls in a debug build. *)
Theorem C89_overflowed_chunk_kept : forall e a acts,
  env_ok e -> proper_call a -> acts = repeat (Call a) 256 ++ [Reload []; Read] ->
  exists s replies out, history e Dev stream_new acts = Ok (s, replies) /\
    nth_error replies 255 = Some Overflowed /\
    nth_error replies 257 = Some (Samples (concat (repeat out 256))) /\ alone e Dev a out.
Proof.
  intros e a acts He Ha E.
  assert (Hn : length acts = 258%nat) by (rewrite E, app_length, repeat_length; reflexivity).
  assert (Hin : forall b, In (Call b) acts -> hopeless b = true \/ proper_call b).
  { intros b Hb. right. rewrite E in Hb. apply in_app_or in Hb. destruct Hb as [Hb|Hb].
    - apply repeat_spec in Hb. injection Hb as ->. exact Ha.
    - destruct Hb as [Hb|[Hb|[]]]; discriminate. }
  destruct (C89_history e Dev acts He ltac:(lia) Hin) as (s & rs & H1 & _ & H2).
  assert (G : forall n, good_calls (repeat (Call a) n) = repeat a n).
  { induction n as [|n IH]; [reflexivity|]. cbn [repeat good_calls flat_map]. rewrite (proper_hopeful a Ha). cbn [app]. f_equal. exact IH. }
  assert (F : forall k, (k <= 256)%nat -> firstn k acts = repeat (Call a) k).
  { intros k Hk. rewrite E, firstn_app, repeat_length. replace (k - 256)%nat with 0%nat by lia. rewrite firstn_O, app_nil_r.
    rewrite <- (repeat_length (Call a) k) at 1. replace 256%nat with (k + (256 - k))%nat by lia. rewrite repeat_app, firstn_app, firstn_all, Nat.sub_diag, firstn_O. apply app_nil_r. }
  destruct (H2 255%nat (Call a)) as (r & R1 & R2).
  { rewrite E, nth_error_app1 by (rewrite repeat_length; lia). apply nth_error_repeat. lia. }
  destruct (H2 257%nat Read) as (r' & R3 & R4).
  { rewrite E, nth_error_app2 by (rewrite repeat_length; lia). rewrite repeat_length. reflexivity. }
  cbn [right_reply] in R2, R4. rewrite F, G, repeat_length, (proper_hopeful a Ha) in R2 by lia. change (255 <? 255)%nat with false in R2. cbn match in R2.
  assert (F' : good_calls (firstn 257 acts) = repeat a 256).
  { rewrite E, firstn_app, repeat_length. change (257 - 256)%nat with 1%nat. rewrite firstn_all2 by (rewrite repeat_length; lia).
    rewrite good_calls_app, G. cbn [firstn good_calls flat_map app]. apply app_nil_r. }
  rewrite F' in R4. destruct R4 as (outs & -> & HO).
  assert (AL : exists out, alone e Dev a out).
  { destruct (frame_of_ok e Dev a He Ha) as (f & Hf & _ & _ & out & Ho & _). exists out. eapply frame_alone; eauto. }
  destruct AL as [out AL]. exists s, rs, out. split; [exact H1|]. split; [now rewrite R1, R2|]. split; [|exact AL].
  rewrite R3. do 3 f_equal.
  assert (U : forall o, alone e Dev a o -> o = out).
  { intros o (s1 & A1 & A2). destruct AL as (s2 & B1 & B2). rewrite A1 in B1. apply ok_inj in B1. subst s2. rewrite A2 in B2. now apply ok_inj in B2. }
  clear - HO U. revert HO. generalize 256%nat. intros n. revert outs. induction n as [|n IH]; intros outs HO; cbn [repeat] in *; inversion HO; subst; [reflexivity|].
  f_equal; [apply U; tauto|auto].
Qed.
Print Assumptions C89_overflowed_chunk_kept.

(** Non-trivial instances: a history with mixed compressors, three calls that cannot succeed, and a stream written out and
    read in twice, once with bytes after it; and what the program reads at its end. *)
Definition ex_acts : list act :=
  [Call (AddDefault (ints [1; 2; 3])); Call (AddWith (ints []) RLE); Call (AddWith (ints [7; 7; 9; 7]) RLE); Reload [9; 9; 9];
   Call (AddWith (ints [1]) Auto); Call (AddBounded (ints [5; 5; 5]) Auto (cli_error 3) 0); Read;
   Call (AddBounded (ints [5]) Auto (cli_error 3) 7); Reload []; Call (AddWith (ints [4; 4]) Constant); Read].
Lemma ex_acts_fair a : In (Call a) ex_acts -> hopeless a = true \/ proper_call a.
Proof.
  assert (G : Forall fair_act ex_acts).
  { repeat (apply Forall_cons; [try exact I; try (left; reflexivity); right; (split; [discriminate|]; split; [cbn [chunk_of length ints map]; lia|]); cbn; try exact I; try discriminate|]); [|apply Forall_nil].
    intros _. split; [lia|]. vm_compute. reflexivity. }
  rewrite Forall_forall in G. intros H. exact (G _ H).
Qed.
Example C89_example : forall p, exists s replies,
  history id_env p stream_new ex_acts = Ok (s, replies) /\ length replies = 11%nat /\
  map (fun r => match r with Samples out => map to_bits out | Refused => [0] | Added => [1] | Overflowed => [2] | Reloaded => [3] | Unreadable => [4] end) replies =
  [[1]; [0]; [1]; [3]; [0]; [1]; map to_bits (ints [1; 2; 3; 7; 7; 9; 7; 5; 5; 5]); [0]; [3]; [1]; map to_bits (ints [1; 2; 3; 7; 7; 9; 7; 5; 5; 5; 4; 4])].
Proof.
  intros p. destruct (C89_history id_env p ex_acts) as (s & rs & H1 & H2 & _); [exact id_env_ok|cbn; lia|exact ex_acts_fair|].
  exists s, rs. split; [exact H1|]. split; [exact H2|].
  set (view := fun r => _) in *.
  apply (f_equal (fun r => match r with Ok x => Some (map view (snd x)) | Panic _ => None end)) in H1. cbn [snd] in H1.
  assert (V : match history id_env p stream_new ex_acts with Ok x => Some (map view (snd x)) | Panic _ => None end =
    Some [[1]; [0]; [1]; [3]; [0]; [1]; map to_bits (ints [1; 2; 3; 7; 7; 9; 7; 5; 5; 5]); [0]; [3]; [1]; map to_bits (ints [1; 2; 3; 7; 7; 9; 7; 5; 5; 5; 4; 4])]) by (destruct p; vm_compute; reflexivity).
  rewrite V in H1. injection H1 as H1. symmetry. exact H1.
Qed.
