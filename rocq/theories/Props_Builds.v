(** C72: the two builds agree. *)
From Coq Require Import List ZArith Bool Lia.
From Verif Require Import Base Model_Float Model_Bincode Model_Stats Model_Compressors Model_Utils Model_Polynomial Model_Fft Model_Stream
  Model_Vsri Model_Wavbrro Model_Csv Model_Cli Spec_Build Spec PlanFacts StreamFacts Props_Plan Props_Stream Props_Pipeline Props_Wire Spec_Wire.
Import ListNotations.
Open Scope Z_scope.

Lemma f_refl {A} (x : res A) : follows x x.
Proof. intros a H. exact H. Qed.
Lemma f_panic {A} q (x : res A) : follows (Panic q) x.
Proof. intros a H. discriminate H. Qed.
Lemma f_bind {A B} (d r : res A) (f g : A -> res B) : follows d r -> (forall a, follows (f a) (g a)) -> follows (bind d f) (bind r g).
Proof. intros H K b E. destruct d as [a|q]; [|discriminate E]. rewrite (H a eq_refl). exact (K a b E). Qed.
Lemma f_arith_s b z : follows (arith_s Dev b z) (arith_s Release b z).
Proof. unfold arith_s. destruct (in_sb b z); [apply f_refl|apply f_panic]. Qed.
Lemma f_arith_u b z : follows (arith_u Dev b z) (arith_u Release b z).
Proof. unfold arith_u. destruct (in_ub b z); [apply f_refl|apply f_panic]. Qed.
Lemma f_map {A B} (f g : A -> res B) l : (forall a, follows (f a) (g a)) -> follows (map_res f l) (map_res g l).
Proof. intros H. induction l as [|a l IH]; [apply f_refl|]. cbn. apply f_bind; [apply H|intros b]. apply f_bind; [exact IH|intros r; apply f_refl]. Qed.
Lemma f_fold {A S} (f g : S -> A -> res S) l : (forall s a, follows (f s a) (g s a)) -> forall s, follows (fold_res f l s) (fold_res g l s).
Proof. intros H. induction l as [|a l IH]; intros s; [apply f_refl|]. cbn. apply f_bind; [apply H|intros s'; apply IH]. Qed.

Ltac same := lazymatch goal with |- follows ?x ?y => constr_eq x y; exact (f_refl x) end.
Ltac agree1 := first
  [ same | apply f_panic | apply f_arith_s | apply f_arith_u
  | apply f_map; intros | apply f_fold; intros
  | apply f_bind; [|intros]
  | match goal with |- follows (match ?x with _ => _ end) _ => destruct x end ].
Ltac agree := repeat agree1.

Lemma f_positions c n : follows (get_positions Dev c n) (get_positions Release c n).
Proof. unfold get_positions. agree. Qed.
Lemma f_method idw c n : follows (method_to_data idw Dev c n) (method_to_data idw Release c n).
Proof.
  unfold method_to_data, idw_to_data, polynomial_to_data. destruct (pl_id c); (apply f_bind; [apply f_positions|intros; same]).
Qed.
Lemma f_poly_data idw c n : follows (poly_to_data idw Dev c n) (poly_to_data idw Release c n).
Proof. unfold poly_to_data. destruct (feq _ _); [same|apply f_method]. Qed.
Lemma f_loop idw data target : forall fuel c err jump it,
  follows (bounded_loop idw Dev fuel data target c err jump it) (bounded_loop idw Release fuel data target c err jump it).
Proof.
  induction fuel as [|fuel IH]; intros; cbn [bounded_loop].
  - agree.
  - destruct (negb _); [same|]. apply f_bind; [same|intros c1]. apply f_bind; [apply f_method|intros out].
    apply f_bind; [same|intros er]. destruct (jump_increment _ _); [|same]. destruct (_ =? _)%nat; [same|apply IH].
Qed.
Lemma f_allowed idw data err t : follows (polynomial_allowed_error idw Dev data err t) (polynomial_allowed_error idw Release data err t).
Proof.
  unfold polynomial_allowed_error. apply f_bind; [same|intros s]. apply f_bind; [|intros c; same].
  unfold poly_compress_bounded. destruct (feq _ _); [same|]. apply f_bind; [apply f_loop|intros [c er]; same].
Qed.
Lemma f_results e c data err : follows (compress_results e Dev c data err) (compress_results e Release c data err).
Proof. unfold compress_results. apply f_bind; [same|intros s]. destruct c; try same; apply f_allowed. Qed.
Lemma f_bounded e c data err : follows (compress_bounded e Dev c data err) (compress_bounded e Release c data err).
Proof.
  unfold compress_bounded. apply f_bind; [same|intros s].
  destruct c; try same; (apply f_bind; [apply f_allowed|intros; same]).
Qed.
Lemma f_candidates e data err : follows (run_candidates e Dev data err) (run_candidates e Release data err).
Proof. unfold run_candidates. apply f_map. intros c. apply f_bind; [apply f_results|intros; same]. Qed.
Lemma f_best e data err speed : follows (compress_best e Dev data err speed) (compress_best e Release data err speed).
Proof.
  unfold compress_best. apply f_bind; [same|intros k]. apply f_bind; [same|intros s]. apply f_bind; [|intros; same].
  destruct (feq _ _); [apply f_bind; [apply f_results|intros; same]|]. destruct (k <=? _).
  - apply f_bind; [apply f_candidates|intros rs]. destruct (min_by_len _) as [[r c]|]; [|same].
    apply f_bind; [apply f_results|intros; same].
  - apply f_bind; [apply f_candidates|intros rs; same].
Qed.
Lemma f_push s f : follows (push_frame Dev s f) (push_frame Release s f).
Proof. unfold push_frame. apply f_bind; [apply f_arith_u|intros; same]. Qed.
Lemma f_chunk_with e s data c : follows (compress_chunk_with e Dev s data c) (compress_chunk_with e Release s data c).
Proof. unfold compress_chunk_with. apply f_bind; [same|intros f; apply f_push]. Qed.
Lemma f_chunk_bounded e s data c err lev :
  follows (compress_chunk_bounded_with e Dev s data c err lev) (compress_chunk_bounded_with e Release s data c err lev).
Proof.
  unfold compress_chunk_bounded_with. apply f_bind; [|intros f; apply f_push].
  destruct c; try apply f_best; unfold frame_compress_bounded; (apply f_bind; [apply f_bounded|intros; same]).
Qed.
Lemma f_frame e f : follows (frame_decompress e Dev f) (frame_decompress e Release f).
Proof.
  unfold frame_decompress, decompress. destruct (fr_compressor f); try same;
    unfold polynomial_decompress; (apply f_bind; [same|intros c; apply f_poly_data]).
Qed.

(** The library and the compression core of the tools. *)
Theorem C72_compress : forall e data c err level,
  follows (compress_data e Dev data c err level) (compress_data e Release data c err level).
Proof.
  intros e data c err level. unfold compress_data. apply f_bind; [same|intros pl]. apply f_bind; [same|intros ex].
  apply f_bind; [|intros s; same]. apply f_fold. intros s [cpr chunk]. destruct (is_bounded c); [apply f_chunk_bounded|apply f_chunk_with].
Qed.
Print Assumptions C72_compress.

Theorem C72_decompress : forall e bytes, follows (decompress_data e Dev bytes) (decompress_data e Release bytes).
Proof.
  intros e bytes. unfold decompress_data. apply f_bind; [same|intros s]. unfold stream_decompress.
  apply f_bind; [|intros; same]. apply f_map. intros f. apply f_frame.
Qed.
Print Assumptions C72_decompress.

(** * Where they differ *)
Definition in_memory_size (n : nat) : Prop := Z.of_nat n <= 2 ^ 64.

Ltac trivially := lazymatch goal with |- ?x = ?y => constr_eq x y; reflexivity end.

Lemma bind_eq {A B} (x y : res A) (f : A -> res B) : x = y -> bind x f = bind y f.
Proof. now intros ->. Qed.

Lemma eq_positions c n : (0 < n)%nat -> in_memory_size n -> get_positions Dev c (Z.of_nat n) = get_positions Release c (Z.of_nat n).
Proof.
  intros H K. unfold in_memory_size in K. unfold get_positions. destruct (pl_step c =? 0); [reflexivity|].
  assert (B : in_ub 64 (Z.of_nat n - 1) = true) by (unfold in_ub; apply andb_true_intro; split; [apply Z.leb_le|apply Z.ltb_lt]; lia).
  unfold arith_u. rewrite B. reflexivity.
Qed.
Lemma eq_method idw c n : (0 < n)%nat -> in_memory_size n -> method_to_data idw Dev c n = method_to_data idw Release c n.
Proof. intros H K. unfold method_to_data, idw_to_data, polynomial_to_data. rewrite (eq_positions c n H K). reflexivity. Qed.
Lemma eq_loop idw data target : data <> [] -> in_memory_size (length data) -> forall fuel c err jump it,
  bounded_loop idw Dev fuel data target c err jump it = bounded_loop idw Release fuel data target c err jump it.
Proof.
  intros H K. assert (L : (0 < length data)%nat) by (destruct data; [congruence|cbn; lia]).
  induction fuel as [|fuel IH]; intros; cbn [bounded_loop]; [reflexivity|].
  destruct (negb _); [reflexivity|]. destruct (compress_hinted c data _) as [c1|q]; cbn [bind]; [|reflexivity].
  rewrite (eq_method idw c1 _ L K). destruct (method_to_data idw Release c1 _) as [out|q]; cbn [bind]; [|reflexivity].
  destruct (calculate_error data out) as [er|q]; cbn [bind]; [|reflexivity].
  destruct (jump_increment _ _); [|reflexivity]. destruct (_ =? _)%nat; [reflexivity|apply IH].
Qed.
Lemma eq_allowed idw data err t : in_memory_size (length data) ->
  polynomial_allowed_error idw Dev data err t = polynomial_allowed_error idw Release data err t.
Proof.
  intros K. assert (D : data = [] \/ data <> []) by (destruct data; [left; reflexivity|right; intros E; discriminate E]).
  destruct D as [->|D]; [reflexivity|]. unfold polynomial_allowed_error.
  remember (data_stats data) as ds eqn:Eds. destruct ds as [s|q]; cbn [bind]; [|reflexivity]. unfold poly_compress_bounded.
  destruct (feq _ _); [reflexivity|]. rewrite (eq_loop idw data (round_f64 err 3) D K). reflexivity.
Qed.
Lemma eq_results e c data err : in_memory_size (length data) -> compress_results e Dev c data err = compress_results e Release c data err.
Proof. intros K. unfold compress_results. destruct (data_stats data) as [s|q]; cbn [bind]; [|reflexivity]. destruct c; try trivially; apply eq_allowed; exact K. Qed.
Lemma eq_bounded e c data err : in_memory_size (length data) -> compress_bounded e Dev c data err = compress_bounded e Release c data err.
Proof.
  intros K. unfold compress_bounded. destruct (data_stats data) as [s|q]; cbn [bind]; [|reflexivity].
  destruct c; try trivially; rewrite eq_allowed by exact K; reflexivity.
Qed.
Lemma eq_candidates e data err : in_memory_size (length data) -> run_candidates e Dev data err = run_candidates e Release data err.
Proof. intros K. unfold run_candidates, compressor_list. cbn [map_res]. rewrite !eq_results by exact K. reflexivity. Qed.
Lemma eq_best e data err speed : in_memory_size (length data) -> compress_best e Dev data err speed = compress_best e Release data err speed.
Proof.
  intros K. unfold compress_best. destruct (index COMPRESSION_SPEED speed) as [k|q]; cbn [bind]; [|reflexivity].
  destruct (data_stats data) as [s|q]; cbn [bind]; [|reflexivity].
  lazymatch goal with |- bind ?x ?f = bind ?y _ => apply (bind_eq x y f) end.
  destruct (feq _ _); [rewrite eq_results by exact K; reflexivity|]. destruct (k <=? _).
  - rewrite eq_candidates by (unfold in_memory_size in *; rewrite firstn_length; lia).
    destruct (run_candidates e Release _ _) as [rs|q]; cbn [bind]; [|reflexivity].
    destruct (min_by_len _) as [[r c]|]; [|reflexivity]. rewrite eq_results by exact K. reflexivity.
  - rewrite eq_candidates by exact K. reflexivity.
Qed.
Lemma eq_frame_of e a : in_memory_size (length (chunk_of a)) -> frame_of e Dev a = frame_of e Release a.
Proof.
  intros K. destruct a as [d|d c|d c er sp]; try (unfold frame_of; trivially). cbn [chunk_of] in K.
  destruct c; cbn [frame_of]; lazymatch goal with |- compress_best _ _ _ _ _ = _ => apply eq_best; exact K | _ => idtac end; unfold frame_compress_bounded; rewrite eq_bounded by exact K; reflexivity.
Qed.
Lemma eq_add_all e : forall l s, Forall (fun a => in_memory_size (length (chunk_of a))) l ->
  0 <= h_frames (s_header s) -> h_frames (s_header s) + Z.of_nat (length l) <= 255 ->
  fold_res (add e Dev) l s = fold_res (add e Release) l s.
Proof.
  induction l as [|a l IH]; intros s HF H0 HL; [reflexivity|]. inversion HF as [|? ? Ha Hl]; subst. cbn [fold_res].
  rewrite !add_frame_of, eq_frame_of by exact Ha. destruct (frame_of e Release a) as [f|q]; cbn [bind]; [|reflexivity].
  cbn [length] in HL. unfold push_frame, arith_u.
  assert (B : in_ub 8 (h_frames (s_header s) + 1) = true) by (unfold in_ub; apply andb_true_intro; split; [apply Z.leb_le|apply Z.ltb_lt]; lia).
  rewrite B. cbn [bind]. apply IH; [exact Hl| |]; cbn [s_header h_frames]; lia.
Qed.

(** Series that make at most 255 frames, in particular all of fewer than 247 times 131072 samples: the two builds do exactly the same,
    whatever the compressor, error and level, and whatever the transforms and the weighting return. *)
Theorem C72_compress_same : forall e data c err level,
  Z.of_nat (length data) < 247 * 131072 ->
  compress_data e Dev data c err level = compress_data e Release data c err level.
Proof.
  intros e data c err level Hl. destruct (compress_data_calls e Dev data c err level) as (sizes & Hs & ->).
  destruct (compress_data_calls e Release data c err level) as (sizes' & Hs' & ->).
  assert (sizes' = sizes) as -> by (rewrite Hs in Hs'; now apply ok_inj in Hs').
  destruct (counter_ok Dev data sizes (fits_small Dev data Hl) Hs) as [Hc|[Hc _]]; [|discriminate Hc].
  unfold add_all. rewrite eq_add_all; [reflexivity| | |].
  - apply Forall_forall. intros a Ha. apply in_map_iff in Ha. destruct Ha as (d & <- & Hd). rewrite chunk_of_call.
    assert (L := clean_data_length data). unfold in_memory_size.
    assert (length d <= length (clean_data data))%nat; [|lia].
    clear - Hd. revert Hd. generalize (clean_data data). induction sizes as [|z sizes IH]; intros l Hd; [destruct Hd|].
    cbn [cut] in Hd. destruct Hd as [<-|Hd]; [rewrite firstn_length; lia|]. apply IH in Hd. rewrite skipn_length in Hd. lia.
  - cbn. lia.
  - rewrite map_length. cbn [stream_new s_header h_frames]. assert (C := cut_facts). assert (length (cut (clean_data data) sizes) = length sizes).
    { clear. generalize (clean_data data). induction sizes as [|z s IH]; intros l; [reflexivity|]. cbn. now rewrite IH. }
    lia.
Qed.
Print Assumptions C72_compress_same.

(** Decompression: the builds can only differ on a frame of an interpolating compressor that announces no samples. *)
Theorem C72_decompress_same : forall e bytes, Forall is_byte bytes ->
  (forall s f, stream_from_bytes bytes = Ok s -> In f (s_frames s) -> fr_compressor f = Polynomial \/ fr_compressor f = Idw -> fr_samples f <> 0) ->
  decompress_data e Dev bytes = decompress_data e Release bytes.
Proof.
  intros e bytes Hb Hz. unfold decompress_data. destruct (stream_from_bytes bytes) as [s|q] eqn:Es; cbn [bind]; [|reflexivity].
  destruct (C57_accepted_can_be_rewritten bytes s [] Hb Es) as ((_ & _ & HF & _) & _ & _).
  unfold stream_decompress. apply bind_eq. assert (Hz' := Hz s). specialize (fun f => Hz' f eq_refl). clear Hz Es.
  induction (s_frames s) as [|f fs IH]; [reflexivity|]. cbn [map_res]. inversion HF as [|? ? Hf Hfs]; subst.
  assert (E : frame_decompress e Dev f = frame_decompress e Release f).
  { destruct Hf as (_ & Hn & _). specialize (Hz' f (or_introl eq_refl)). unfold frame_decompress, decompress.
    assert (P : fr_samples f <> 0 -> polynomial_decompress (e_idw e) Dev (Z.to_nat (fr_samples f)) (fr_data f)
                = polynomial_decompress (e_idw e) Release (Z.to_nat (fr_samples f)) (fr_data f)).
    { intros N. unfold polynomial_decompress. destruct (decode_unwrap dec_poly (fr_data f)) as [c|q]; cbn [bind]; [|reflexivity].
      unfold poly_to_data. destruct (feq _ _); [reflexivity|]. apply eq_method; [lia|unfold in_memory_size; lia]. }
    destruct (fr_compressor f); try trivially; apply P, Hz'; [right|left]; reflexivity. }
  rewrite E. destruct (frame_decompress e Release f) as [o|q]; cbn [bind]; [|reflexivity].
  rewrite IH; [reflexivity|exact Hfs|]. intros g Hg. exact (Hz' g (or_intror Hg)).
Qed.
Print Assumptions C72_decompress_same.

(** There they do differ: the checked build panics, the other one takes the frame for an empty one. *)
Definition empty_polynomial : list Z := [66; 82; 82; 79; 1; 0; 0; 0; 1; 1; 41; 0; 4; 20; 0; 3; 0; 0; 0; 0; 0; 0; 0; 0; 0; 0; 0; 0; 0; 0; 0; 240; 63; 1].
Theorem C72_empty_frame_differs : forall e,
  refused (decompress_data e Dev empty_polynomial) /\ decompress_data e Release empty_polynomial = Ok [].
Proof. intros e. split; [exists POverflow|]; vm_compute; reflexivity. Qed.
Print Assumptions C72_empty_frame_differs.

(** And on more frames than the header can count: the checked build gives no file. *)
Theorem C72_too_many_frames : forall e data c err level, 256 * 131072 <= Z.of_nat (length (finite_samples data)) ->
  refused (compress_data e Dev data c err level).
Proof.
  intros e data c err level H. destruct (compress_data_calls e Dev data c err level) as (sizes & Hs & ->).
  rewrite <- clean_is in H. destruct (get_chunks_sizes_spec (length (clean_data data))) as (l & Hl & Hz & Hg).
  assert (l = sizes) as -> by (rewrite Hs in Hl; now apply ok_inj in Hl).
  assert (256 <= length sizes)%nat.
  { assert (P := good_chunks_pos _ Hg). assert (Hb : zsum sizes <= 131072 * Z.of_nat (length sizes)).
    { clear - P. induction P as [|z l Hz P IH]; [cbn; lia|]. change (zsum (z :: l)) with (z + zsum l). cbn [length]. unfold MAX_FRAME_SIZE in Hz. lia. }
    lia. }
  assert (L : (256 <= length (map (call_for c err level) (cut (clean_data data) sizes)))%nat).
  { rewrite map_length. assert (length (cut (clean_data data) sizes) = length sizes); [|lia].
    clear. generalize (clean_data data). induction sizes as [|z s IH]; intros l; [reflexivity|]. cbn. now rewrite IH. }
  destruct (C04_overflow_panics_dev e _ L) as [why ->]. exists why. reflexivity.
Qed.
Print Assumptions C72_too_many_frames.

(** * The index *)
Lemma f_update v y : follows (update_for_point Dev v y) (update_for_point Release v y).
Proof.
  unfold update_for_point. destruct (y <? vs_max v); [same|]. destruct (vs_segs v) as [|s l] eqn:E.
  - unfold create_fake_segment. agree.
  - destruct (is_fake_segment _); [unfold generate_segment; agree|].
    apply f_bind; [unfold fits_segment, calculate_b; agree|intros b]. destruct b; [agree|unfold create_fake_segment; agree].
Qed.
Lemma f_updates : forall ys v, follows (update_all Dev v ys) (update_all Release v ys).
Proof.
  induction ys as [|y ys IH]; intros v; [apply f_refl|]. cbn [update_all]. apply f_bind; [apply f_update|intros [v1 b]].
  apply f_bind; [apply IH|intros [v2 bs]; same].
Qed.
Lemma f_end s : follows (segment_end Dev s) (segment_end Release s).
Proof. unfold segment_end. agree. Qed.
Lemma f_count v : follows (get_sample_count Dev v) (get_sample_count Release v).
Proof. unfold get_sample_count. agree. Qed.
Lemma f_sample y : forall segs, follows (get_sample_in Dev segs y) (get_sample_in Release segs y).
Proof.
  induction segs as [|s l IH]; [apply f_refl|]. cbn [get_sample_in]. apply f_bind; [apply f_end|intros e].
  destruct (_ && _); [|exact IH]. unfold calculate_b. agree.
Qed.
Lemma f_time_in x : forall segs, follows (get_time_in Dev segs x) (get_time_in Release segs x).
Proof.
  induction segs as [|s l IH]; [apply f_refl|]. cbn [get_time_in]. destruct (_ <=? _); [|exact IH]. apply f_bind; [apply f_arith_s|intros e].
  destruct (_ <? _); [agree|exact IH].
Qed.
Lemma f_time v x : follows (get_time Dev v x) (get_time Release v x).
Proof.
  unfold get_time. destruct (x =? 0); [same|]. apply f_bind; [apply f_count|intros c]. destruct (c <? x); [same|].
  destruct (x =? c); [same|apply f_time_in].
Qed.
Lemma f_previous v y : follows (get_previous_sample Dev v y) (get_previous_sample Release v y).
Proof.
  unfold get_previous_sample. destruct (_ <? _); [same|]. destruct (_ <=? _); [apply f_bind; [apply f_count|intros; same]|].
  induction (vs_segs v) as [|s l IH]; [apply f_refl|]. cbn [previous_in]. destruct (_ <? _); [agree|exact IH].
Qed.
Lemma f_empty a b : forall segs first prev, follows (is_empty_in Dev segs first prev a b) (is_empty_in Release segs first prev a b).
Proof.
  induction segs as [|s l IH]; intros first prev; [apply f_refl|]. cbn [is_empty_in]. apply f_bind; [apply f_end|intros e].
  destruct (negb first && _ && _); [same|]. destruct (_ || _); [same|]. destruct (_ && _); [same|apply IH].
Qed.

Theorem C72_index : forall v ys y x a b file,
  follows (update_all Dev v ys) (update_all Release v ys) /\
  follows (get_sample Dev v y) (get_sample Release v y) /\
  follows (get_time Dev v x) (get_time Release v x) /\
  follows (get_all_timestamps Dev v) (get_all_timestamps Release v) /\
  follows (get_sample_count Dev v) (get_sample_count Release v) /\
  follows (get_previous_sample Dev v y) (get_previous_sample Release v y) /\
  follows (get_this_or_previous Dev v y) (get_this_or_previous Release v y) /\
  follows (get_this_or_next Dev v y) (get_this_or_next Release v y) /\
  follows (is_empty Dev v a b) (is_empty Release v a b) /\
  follows (get_sample_location Dev file y) (get_sample_location Release file y).
Proof.
  intros v ys y x a b file.
  assert (S1 : follows (get_sample Dev v y) (get_sample Release v y)) by apply f_sample.
  split; [apply f_updates|]. split; [exact S1|]. split; [apply f_time|].
  split. { unfold get_all_timestamps, segment_timestamps. agree. }
  split; [apply f_count|]. split; [apply f_previous|].
  split. { unfold get_this_or_previous. apply f_bind; [exact S1|intros r]. apply f_bind; [apply f_previous|intros; same]. }
  split. { unfold get_this_or_next. apply f_bind; [exact S1|intros r; same]. }
  split. { unfold is_empty. destruct (vs_segs v) as [|s [|s2 l]]; [apply f_empty|same|apply f_empty]. }
  unfold get_sample_location. destruct file as [bytes|]; [|same]. apply f_bind; [same|intros w]. destruct (_ && _); [apply f_sample|same].
Qed.
Print Assumptions C72_index.

(** * The tools *)
Lemma f_append : forall samples m, follows (append_samples Dev m samples) (append_samples Release m samples).
Proof.
  induction samples as [|s l IH]; intros m; [apply f_refl|]. cbn [append_samples]. apply f_bind; [same|intros ts].
  apply f_bind; [apply f_update|intros [v ok]]. destruct ok; [|same]. apply f_bind; [|intros w; apply IH].
  unfold wb_add. apply f_bind; [apply f_arith_u|intros; same].
Qed.
Lemma f_wb_add w x : follows (wb_add Dev w x) (wb_add Release w x).
Proof. unfold wb_add. apply f_bind; [apply f_arith_u|intros; same]. Qed.
Lemma f_metric_samples v : forall values i, follows (pair_samples Dev v i values) (pair_samples Release v i values).
Proof.
  induction values as [|x l IH]; intros i; [apply f_refl|]. cbn [pair_samples]. apply f_bind; [apply f_time|intros [t|]]; [|same].
  apply f_bind; [apply IH|intros; same].
Qed.

Lemma disk_refl x : follows_on_disk x x.
Proof. intros _. reflexivity. Qed.
Lemma disk_panicked fs x : follows_on_disk (fs, Panicked) x.
Proof. intros H. exfalso. apply H. reflexivity. Qed.
Ltac step_disk H := lazymatch goal with |- follows_on_disk (match ?d with Ok _ => _ | Panic _ => _ end) (match ?r with Ok _ => _ | Panic _ => _ end) =>
  let E := fresh in assert (E : follows d r) by H; destruct d eqn:?; [rewrite (E _ eq_refl); clear E|apply disk_panicked] end.

Lemma f_compress_to e a fs n data : follows_on_disk (compress_to e Dev a fs n data) (compress_to e Release a fs n data).
Proof. unfold compress_to. step_disk ltac:(apply C72_compress). apply disk_refl. Qed.

Theorem C72_atsc_file : forall e nt a fs n,
  follows_on_disk (process_single_file e Dev nt a fs n) (process_single_file e Release nt a fs n).
Proof.
  intros e nt a fs n. unfold process_single_file. destruct (a_uncompress a).
  - destruct (fs n) as [b|]; [|apply disk_refl]. destruct (bro_read b) as [| |bytes]; [apply disk_refl|apply disk_refl|].
    step_disk ltac:(apply C72_decompress). apply disk_refl.
  - destruct (a_csv a).
    + match goal with |- follows_on_disk (match ?s with _ => _ end) _ => destruct s as [[l|er]|q] end;
        [apply f_compress_to|apply disk_refl|apply disk_refl].
    + destruct (from_file (fs n)) as [[l| |]|q]; [apply f_compress_to|apply disk_refl|apply disk_refl|apply disk_refl].
Qed.
Print Assumptions C72_atsc_file.

Theorem C72_atsc_directory : forall e nt a fs entries,
  follows_on_disk (process_directory e Dev nt a fs entries) (process_directory e Release nt a fs entries).
Proof.
  intros e nt a fs entries. revert fs. induction entries as [|n rest IH]; intros fs; [apply disk_refl|]. cbn [process_directory].
  destruct (fs n) as [b|]; [|apply IH]. assert (F := C72_atsc_file e nt a fs n). unfold follows_on_disk in F.
  destruct (process_single_file e Dev nt a fs n) as [fs1 o1]. cbn [snd] in F. destruct o1 as [|er|]; [| |apply disk_panicked].
  - rewrite F by discriminate. apply IH.
  - rewrite F by discriminate. clear F. assert (F := C72_atsc_file e nt a fs1 n). unfold follows_on_disk in F.
    destruct (process_single_file e Dev nt a fs1 n) as [fs2 o2]. cbn [snd] in F. destruct o2 as [|er2|]; [| |apply disk_panicked].
    + rewrite F by discriminate. apply IH.
    + rewrite F by discriminate. apply disk_refl.
Qed.
Print Assumptions C72_atsc_directory.

Theorem C72_csv_compressor : forall e nt a fs,
  follows_on_disk (csvc_process_args e Dev nt a fs) (csvc_process_args e Release nt a fs).
Proof.
  intros e nt a fs. unfold csvc_process_args. destruct (c_uncompress a).
  - unfold csvc_uncompress. destruct (fs (c_input a)) as [b|]; [|apply disk_refl].
    destruct (bro_read b) as [| |bytes]; [apply disk_refl|apply disk_refl|].
    step_disk ltac:(apply f_bind; [apply C72_decompress|intros out; apply f_bind; [apply f_fold; intros; apply f_wb_add|intros; same]]).
    destruct a0 as [out w]. destruct (fs (set_extension (c_input a) ext_vsri)) as [ib|]; [|apply disk_refl].
    destruct (load ib) as [index|q]; [|apply disk_refl].
    match goal with |- context[put_wbro ?f ?n ?w] => destruct (put_wbro f n w) as [fs1 o1] end. destruct o1; [|apply disk_refl|apply disk_refl].
    step_disk ltac:(apply f_metric_samples). apply disk_refl.
  - unfold csvc_compress.
    step_disk ltac:(unfold process_csv; destruct (read_samples_from_csv_file nt _) as [l|]; [|same];
      unfold from_samples; apply f_bind; [apply f_bind; [apply f_append|intros [? [?|]]; same]|intros; same]).
    match goal with |- context[if c_output_wavbrro a then ?x else ?y] => destruct (if c_output_wavbrro a then x else y) as [fs1 o1] end.
    destruct o1; [|apply disk_refl|apply disk_refl]. destruct (c_no_compression a); [apply disk_refl|].
    step_disk ltac:(apply C72_compress). apply disk_refl.
Qed.
Print Assumptions C72_csv_compressor.

Theorem C72_wav2wbro : forall decode validate fs n fs' o told,
  wav2wbro_main Dev decode validate fs n = (fs', o, told) -> o <> Panicked ->
  wav2wbro_main Release decode validate fs n = (fs', o, told).
Proof.
  intros decode validate fs n fs' o told H Ho. unfold wav2wbro_main in *. destruct (fs n) as [b|]; [|exact H].
  destruct (is_wav_file b) as [[|]|]; [|exact H|exact H].
  assert (F : follows (do data <- read_metrics_from_wav (decode b); do w <- fold_res (add_unless_nan Dev) data wb_new; Ok (data, w))
                      (do data <- read_metrics_from_wav (decode b); do w <- fold_res (add_unless_nan Release) data wb_new; Ok (data, w))).
  { apply f_bind; [same|intros data]. apply f_bind; [|intros; same]. apply f_fold. intros w x. unfold add_unless_nan.
    destruct (fis_nan x); [same|apply f_wb_add]. }
  destruct (do data <- read_metrics_from_wav (decode b); do w <- fold_res (add_unless_nan Dev) data wb_new; Ok (data, w)) as [dw|q].
  - rewrite (F dw eq_refl). exact H.
  - exfalso. injection H as _ <- _. apply Ho. reflexivity.
Qed.
Print Assumptions C72_wav2wbro.

(** The hypotheses are met: a series both builds compress and read back; a foreign file both pass over. *)
Definition built_series : list f64 := map int_as_f64 [7; 7; -300; 9].
Example C72_example : forall e p, (do bytes <- compress_data e p built_series RLE 0 0; do out <- decompress_data e p bytes; Ok (map to_bits out)) = Ok (map to_bits built_series).
Proof. intros e [|]; vm_compute; reflexivity. Qed.
Example C72_example_tool : forall e nt, snd (
  process_single_file e Dev nt {| a_compressor := RLE; a_error := 3; a_level := 0; a_uncompress := true; a_csv := false; a_no_header := false; a_fields := [] |}
    (fun n => if text_eqb n [97; 46; 98; 114; 111] then Some [66; 82; 82; 79; 1; 0; 0; 0; 1; 1; 41; 2; 3; 3; 30; 3; 9] else None) [97; 46; 98; 114; 111])
  = Done.
Proof. intros e nt. vm_compute. reflexivity. Qed.
