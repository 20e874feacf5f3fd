(** C76: the curve drawn by polynomial frames. *)
From Coq Require Import List ZArith Bool Lia Reals Lra Sorted ZifyBool Znumtheory.
From Flocq Require Import Core IEEE754.BinarySingleNaN IEEE754.Binary IEEE754.Bits.
From Verif Require Import Base Model_Float Model_Bincode BincodeFacts Spec FloatFacts ArithFacts RoundFacts AccuracyFacts Model_Utils Model_Stats
  Model_Compressors Model_Polynomial Model_Fft Model_Stream StatsFacts CompressorFacts PolyFacts SplineFacts PolyLoopFacts MetricFacts
  PolyApiFacts Props_Metric Props_Lossless Props_Poly Spec_Spline SplineValueFacts.
Import ListNotations.
Open Scope Z_scope.

(** *** Knots and the stored grid *)
Lemma grid_count n s : 1 <= n -> 1 <= s -> Z.of_nat (length (grid n s)) = (n - 1 + (s - 1)) / s + 1.
Proof.
  intros Hn Hs. unfold grid, step_range. rewrite app_length, map_length, seq_length, step_range_count by assumption.
  assert (Hq : 0 <= (n - 1) / s) by (apply Z.div_pos; lia). assert (E := Z.div_mod (n - 1) s ltac:(lia)). assert (B := Z.mod_pos_bound (n - 1) s ltac:(lia)).
  set (q := (n - 1) / s) in *. destruct (Z.eqb_spec ((n - 1) mod s) 0) as [E0|E0]; cbn [length].
  - replace (n - 1 + (s - 1)) with (s - 1 + q * s) by lia. rewrite Z.div_add, Z.div_small by lia. lia.
  - replace (n - 1 + (s - 1)) with ((n - 1) mod s - 1 + (q + 1) * s) by lia. rewrite Z.div_add, Z.div_small by lia. lia.
Qed.

Lemma grid_knot n s j : 1 <= n -> 1 <= s -> (j = 0%nat \/ (Z.of_nat j - 1) * s < n - 1) -> nth_error (grid n s) j = Some (knot n s (Z.of_nat j)).
Proof.
  intros Hn Hs Hj. unfold grid, step_range, knot. rewrite step_range_count by assumption.
  assert (Hq : 0 <= (n - 1) / s) by (apply Z.div_pos; lia). assert (E := Z.div_mod (n - 1) s ltac:(lia)). assert (B := Z.mod_pos_bound (n - 1) s ltac:(lia)).
  set (q := (n - 1) / s) in *. set (L := map _ _). assert (HL : length L = S (Z.to_nat q)) by (unfold L; rewrite map_length, seq_length; lia).
  destruct (Z_le_gt_dec (Z.of_nat j) q) as [C|C].
  - rewrite nth_error_app1 by lia. unfold L. rewrite nth_error_map, (nth_error_nth' _ 0%nat) by (rewrite seq_length; lia). rewrite seq_nth by lia. cbn [option_map].
    f_equal. rewrite Nat.add_0_l. nia.
  - assert (Hj1 : Z.of_nat j = q + 1) by nia. rewrite nth_error_app2 by lia. replace (j - length L)%nat with 0%nat by lia.
    destruct (Z.eqb_spec ((n - 1) mod s) 0) as [E0|E0]; [exfalso; nia|]. cbn [nth_error]. f_equal. nia.
Qed.

Lemma knot_last n s j : 1 <= n -> 1 <= s -> (S j < length (grid n s))%nat -> (S (S j) = length (grid n s) <-> knot n s (Z.of_nat j + 1) = n - 1).
Proof.
  intros Hn Hs Hj. assert (G := grid_count n s Hn Hs). unfold knot. set (q := (n - 1 + (s - 1)) / s) in *.
  assert (E := Z.div_mod (n - 1 + (s - 1)) s ltac:(lia)). assert (B := Z.mod_pos_bound (n - 1 + (s - 1)) s ltac:(lia)). fold q in E.
  split; intros H; [assert (q = Z.of_nat j + 1) by lia; nia|]. assert (q = Z.of_nat j + 1) by nia. lia.
Qed.

(** The segment of a position that is not stored. *)
Lemma knot_between n s pos : 1 <= s -> 0 <= pos < n -> ~ ((s | pos) \/ pos = n - 1) ->
  let k := pos / s in 0 <= k /\ knot n s k < pos < knot n s (k + 1) /\ knot n s k = k * s.
Proof.
  intros Hs Hp Hd k. assert (E := Z.div_mod pos s ltac:(lia)). assert (B := Z.mod_pos_bound pos s ltac:(lia)). fold k in E.
  assert (pos mod s <> 0) by (intros E0; apply Hd; left; apply Z.mod_divide; lia). assert (pos <> n - 1) by (intros E0; apply Hd; now right).
  assert (0 <= k) by (apply Z.div_pos; lia). unfold knot. split; [assumption|]. split; nia.
Qed.

Lemma between_index n s k pos : 1 <= s -> 0 <= k -> pos < n -> knot n s k < pos < knot n s (k + 1) -> k = pos / s /\ ~ ((s | pos) \/ pos = n - 1).
Proof.
  intros Hs Hk Hp. unfold knot. intros H. assert (k * s < pos < (k + 1) * s) by lia. assert (Ek : k = pos / s) by (apply Z.div_unique with (pos - k * s); lia). split; [exact Ek|].
  intros [[q Hq]|E]; [|lia]. assert (k < q < k + 1) by nia. lia.
Qed.

(** *** The curve as a specification *)
(** It is determined: at every position there is exactly one value. *)
Lemma drawn_unique n s v pos w1 w2 : 1 <= s -> 0 <= pos < n -> drawn n s v pos w1 -> drawn n s v pos w2 -> w1 = w2.
Proof.
  intros Hs Hp H1 H2. destruct H1 as [S1|k a b K1 B1 C1|k q x a b y K1 B1 C1 Q1]; destruct H2 as [S2|k' a' b' K2 B2 C2|k' q' x' a' b' y' K2 B2 C2 Q2]; try reflexivity;
    try (exfalso; exact (proj2 (between_index n s _ _ Hs (Z.lt_le_incl _ _ K2) (proj2 Hp) B2) S1));
    try (exfalso; exact (proj2 (between_index n s _ _ Hs K2 (proj2 Hp) B2) S1));
    try (exfalso; exact (proj2 (between_index n s _ _ Hs (Z.lt_le_incl _ _ K1) (proj2 Hp) B1) S2));
    try (exfalso; exact (proj2 (between_index n s _ _ Hs K1 (proj2 Hp) B1) S2)).
  - destruct (between_index n s k pos Hs K1 (proj2 Hp) B1) as [E1 _]. destruct (between_index n s k' pos Hs K2 (proj2 Hp) B2) as [E2 _].
    assert (Ekk : k' = k) by congruence. clear E1 E2. subst k'. reflexivity.
  - destruct (between_index n s k pos Hs K1 (proj2 Hp) B1) as [E1 _]. destruct (between_index n s k' pos Hs ltac:(lia) (proj2 Hp) B2) as [E2 _].
    assert (Ekk : k' = k) by congruence. clear E1 E2. subst k'. exfalso. fold b in C2. change b' with b in C2. lia.
  - destruct (between_index n s k pos Hs ltac:(lia) (proj2 Hp) B1) as [E1 _]. destruct (between_index n s k' pos Hs K2 (proj2 Hp) B2) as [E2 _].
    assert (Ekk : k' = k) by congruence. clear E1 E2. subst k'. exfalso. change b' with b in C2. lia.
  - destruct (between_index n s k pos Hs ltac:(lia) (proj2 Hp) B1) as [E1 _]. destruct (between_index n s k' pos Hs ltac:(lia) (proj2 Hp) B2) as [E2 _].
    assert (Ekk : k' = k) by congruence. clear E1 E2. subst k'. assert (Hab : IZR a <> IZR b) by (intros E; apply eq_IZR in E; lia).
    rewrite (hermite_unique _ _ _ _ _ _ _ (IZR pos) Hab Q1). change x' with x in Q2. change a' with a in Q2. change b' with b in Q2. change y' with y in Q2.
    now rewrite (hermite_unique _ _ _ _ _ _ _ (IZR pos) Hab Q2).
Qed.

Lemma drawn_exists n s v pos : 1 <= s -> 0 <= pos < n -> exists w, drawn n s v pos w.
Proof.
  intros Hs Hp. destruct (Znumtheory.Zdivide_dec s pos) as [D|D]; [exists (v pos); apply D_stored; now left|].
  destruct (Z.eq_dec pos (n - 1)) as [->|D2]; [exists (v (n - 1)); apply D_stored; now right|].
  destruct (knot_between n s pos Hs Hp ltac:(tauto)) as (K & B & _). set (k := pos / s) in *.
  destruct (Z.eq_dec k 0) as [K0|K0]; [eexists; apply (D_line n s v pos k); auto|].
  destruct (Z.eq_dec (knot n s (k + 1)) (n - 1)) as [Kb|Kb]; [eexists; apply (D_line n s v pos k); auto|].
  eexists. apply (D_curve n s v pos k); [lia|exact B|unfold knot in *; lia|]. apply hermite_exists. intros E. apply eq_IZR in E. lia.
Qed.

(** On values of a straight line it is the line. *)
Lemma drawn_line n s v pos w c d : 1 <= s -> 0 <= pos < n -> (forall i, 0 <= i < n -> v i = (c + d * IZR i)%R) -> drawn n s v pos w -> w = (c + d * IZR pos)%R.
Proof.
  intros Hs Hp Hv H. destruct H as [St|k a b K B C|k q x a b y K B C Q].
  - apply Hv. exact Hp.
  - assert (0 <= a < n /\ 0 <= b < n) as [Ra Rb] by (unfold a, b, knot in *; lia). rewrite (Hv a Ra), (Hv b Rb). unfold straight. field.
    intros E. assert (E2 : IZR b = IZR a) by lra. apply eq_IZR in E2. lia.
  - assert (X : 0 <= x < a) by (unfold x, a, b, knot in *; nia). assert (Y : b < y < n) by (unfold y, a, b, knot in *; nia).
    assert (Hab : IZR a <> IZR b) by (intros E; apply eq_IZR in E; lia). rewrite (hermite_unique _ _ _ _ _ _ _ (IZR pos) Hab Q). unfold secant.
    rewrite (Hv a), (Hv b), (Hv x), (Hv y) by lia.
    assert (Hxb : IZR x <> IZR b) by (intros E; apply eq_IZR in E; lia). assert (Hay : IZR a <> IZR y) by (intros E; apply eq_IZR in E; lia).
    replace ((c + d * IZR b - (c + d * IZR x)) / (IZR b - IZR x))%R with d by (field; lra).
    replace ((c + d * IZR y - (c + d * IZR a)) / (IZR y - IZR a))%R with d by (field; lra). now apply hermite_line.
Qed.

(** *** The decoder *)
Lemma clamp_lipschitz lo hi r w : (Rabs (clamp lo hi r - clamp lo hi w) <= Rabs (r - w))%R.
Proof.
  unfold clamp. unfold Rmin. destruct (Rle_dec (Rmax r lo) hi), (Rle_dec (Rmax w lo) hi); unfold Rmax in *; destruct (Rle_dec r lo), (Rle_dec w lo);
    unfold Rabs; repeat destruct (Rcase_abs _); lra.
Qed.

Lemma drawing p c data s M : 1 <= s <= 133 -> pl_step c = s -> 1 <= len data <= 2 ^ 53 ->
  Forall2 (fun pos v => finite v /\ R64 v = value_at data pos) (grid (len data) s) (pl_points c) ->
  (1 <= M <= bpow radix2 60)%R -> (forall pos, (Rabs (value_at data pos) <= M)%R) ->
  finite (pl_min c) -> finite (pl_max c) -> (R64 (pl_min c) <= R64 (pl_max c))%R ->
  exists out, polynomial_to_data p c (length data) = Ok out /\ length out = length data /\
    forall pos, 0 <= pos < len data -> exists y w r, sample_at out pos y /\ finite y /\ R64 y = clamp (R64 (pl_min c)) (R64 (pl_max c)) (rd 5 r) /\
      drawn (len data) s (value_at data) pos w /\ (Rabs (r - w) <= 320 * (ee * M))%R /\ (Rabs w <= 23 * M)%R.
Proof.
  intros Hs Hstep Hn Hpts HM Hdata Fn Fx Hle. set (n := len data) in *. set (v := value_at data) in *.
  unfold polynomial_to_data. fold n. replace (Z.of_nat (length data)) with n by reflexivity. rewrite get_positions_grid by lia. rewrite Hstep. cbn [bind].
  set (ps := grid n s) in *. set (vs := pl_points c) in *.
  assert (Hps : positions_ok ps). { split; [apply grid_spec; lia|]. apply Forall_forall. intros z Hz. apply grid_bounds in Hz; lia. }
  assert (Hlen : length ps = length vs) by (clear - Hpts; induction Hpts; cbn [length]; congruence).
  assert (Hvs : Forall (fun x => finite x /\ (Rabs (R64 x) <= M)%R) vs).
  { clear - Hpts Hdata. induction Hpts as [|z x l l' (F & R) _ IH]; constructor; [|exact IH]. split; [exact F|]. rewrite R. apply Hdata. }
  assert (Hvok := vs_ok ps vs M Hlen HM Hvs).
  assert (Pt : forall j z, nth_error ps j = Some z -> exists x, nth_error vs j = Some x /\ R64 x = v z).
  { clear - Hpts. induction Hpts as [|z x l l' (F & R) _ IH]; intros [|j] z0 Hj; try discriminate; cbn [nth_error] in *; [|now apply IH]. injection Hj as <-. eauto. }
  pose proof ee_small as Hee. assert (Hem : (0 < ee * M)%R) by (apply Rmult_lt_0_compat; lra).
  assert (Hem2 : (ee * M <= M / 1000000)%R) by (apply Rle_trans with (/ 1000000 * M)%R; [apply Rmult_le_compat_r; lra|lra]).
  assert (M400 : (24 * M <= bpow radix2 400)%R).
  { apply Rle_trans with (bpow radix2 5 * bpow radix2 60)%R; [change (bpow radix2 5) with 32%R; lra|rewrite <- bpow_plus; apply bpow_le; lia]. }
  eexists. split; [reflexivity|]. split; [now rewrite sample_loop_length, range_length|]. intros pos Hpos.
  (* it is enough to find the sampled value *)
  assert (Enough : forall xh w, clamped_sample (build_keys (length ps) 0 ps vs) (int_as_f64 pos) = Some xh -> drawn n s v pos w -> near xh w (320 * (ee * M)) (23 * M) ->
    exists y w r, sample_at (sample_loop (fun z => clamped_sample (build_keys (length ps) 0 ps vs) (int_as_f64 z)) (pl_min c) (pl_max c) (pl_min c) (range (length data))) pos y /\
      finite y /\ R64 y = clamp (R64 (pl_min c)) (R64 (pl_max c)) (rd 5 r) /\ drawn n s v pos w /\ (Rabs (r - w) <= 320 * (ee * M))%R /\ (Rabs w <= 23 * M)%R).
  { intros xh w Hx Hw Nw. assert (Bx : bnd 400 xh) by (split; [apply Nw|assert (A := near_abs _ _ _ _ Nw); lra]).
    destruct (round_and_limit_R 400 xh (pl_min c) (pl_max c) ltac:(lia) Bx Fn Fx Hle) as [F R]. eexists. exists w, (R64 xh). split; [split; [lia|]|].
    - apply (sample_loop_nth _ _ _ _ _ _ pos); [|exact Hx]. rewrite range_nth by (unfold n, len in Hpos; lia). f_equal. lia.
    - split; [exact F|]. change DECIMAL_PRECISION with 5. split; [rewrite R; reflexivity|]. split; [exact Hw|]. split; apply Nw. }
  assert (Dec : ((s | pos) \/ pos = n - 1) \/ ~ ((s | pos) \/ pos = n - 1)).
  { destruct (Znumtheory.Zdivide_dec s pos); [tauto|]. destruct (Z.eq_dec pos (n - 1)); tauto. }
  destruct Dec as [Dec|Dec].
  - assert (Hin : In pos ps) by (apply grid_spec; [lia|lia|]; split; [exact Hpos|exact Dec]). apply In_nth_error in Hin. destruct Hin as [j Hj].
    destruct (Pt j pos Hj) as (x & Hx & Rx). destruct (clamped_at_key ps vs Hps Hvok Hlen j pos x Hj Hx) as (w & Hw & (Fw & _ & Rw)).
    apply (Enough w (v pos) Hw); [now apply D_stored|]. split; [exact Fw|]. rewrite Rw, Rx, Rminus_diag_eq, Rabs_R0 by reflexivity. split; [lra|]. specialize (Hdata pos). fold v in Hdata. lra.
  - destruct (knot_between n s pos ltac:(lia) Hpos Dec) as (K & B & Ek). set (k := pos / s) in *.
    assert (Kk : Z.of_nat (Z.to_nat k) = k) by lia. set (j := Z.to_nat k) in *.
    assert (Ga : nth_error ps j = Some (knot n s k)) by (rewrite <- Kk; apply grid_knot; [lia|lia|]; right; unfold knot in *; nia).
    assert (Gb : nth_error ps (S j) = Some (knot n s (k + 1))) by (replace (k + 1) with (Z.of_nat (S j)) by lia; apply grid_knot; [lia|lia|]; right; unfold knot in *; nia).
    set (a := knot n s k) in *. set (b := knot n s (k + 1)) in *.
    destruct (Pt _ _ Ga) as (va & Hva & Rva). destruct (Pt _ _ Gb) as (vb & Hvb & Rvb).
    destruct (sample_between ps vs M Hps Hlen HM Hvs j a b pos va vb Ga Gb B Hva Hvb) as [P1 P2].
    assert (Lj : (S j < length ps)%nat) by (apply nth_error_Some; congruence).
    assert (KL := knot_last n s j ltac:(lia) ltac:(lia) Lj). rewrite Kk in KL. fold b in KL.
    assert (Cases : (k = 0 \/ b = n - 1) \/ (0 < k /\ b < n - 1)) by (unfold b, knot in *; lia). destruct Cases as [C|[C1 C2]].
    + destruct P1 as (w & Hw & Nw); [destruct C; [left; lia|right; apply KL; assumption]|]. rewrite Rva, Rvb in Nw. exact (Enough _ _ Hw (D_line n s v pos k K B C) Nw).
    + assert (Gx : nth_error ps (j - 1) = Some (knot n s (k - 1))) by (replace (k - 1) with (Z.of_nat (j - 1)) by lia; apply grid_knot; [lia|lia|]; right; unfold b, a, knot in *; nia).
      assert (Gy : nth_error ps (S (S j)) = Some (knot n s (k + 2))) by (replace (k + 2) with (Z.of_nat (S (S j))) by lia; apply grid_knot; [lia|lia|]; right; unfold b, a, knot in *; nia).
      set (x := knot n s (k - 1)) in *. set (y := knot n s (k + 2)) in *.
      destruct (Pt _ _ Gx) as (vx & Hvx & Rvx). destruct (Pt _ _ Gy) as (vy & Hvy & Rvy).
      destruct (P2 ltac:(lia) x y vx vy Gx Gy) as (w & Hw & Nw); [unfold b, x, knot; nia|unfold a, y, knot; nia|assumption..|].
      rewrite Rva, Rvb, Rvx, Rvy in Nw. assert (Hab : IZR a <> IZR b) by (intros E; apply eq_IZR in E; lia).
      exact (Enough _ _ Hw (D_curve n s v pos k _ C1 B C2 (hermite_exists (IZR a) (v a) (secant v x b) (IZR b) (v b) (secant v a y) Hab)) Nw).
Qed.

(** The points of a frame made from [data], as written and as read back. *)
Lemma picked data s (f : f64 -> f64) : 1 <= len data -> 1 <= s -> (forall x, In x data -> finite (f x) /\ R64 (f x) = R64 x) ->
  Forall2 (fun pos v => finite v /\ R64 v = value_at data pos) (grid (len data) s) (map f (pick data (grid (len data) s))).
Proof.
  intros Hn Hs Hf. assert (B : Forall (fun z => 0 <= z < len data) (grid (len data) s)) by (apply Forall_forall; intros z Hz; now apply grid_bounds in Hz).
  unfold pick. rewrite map_map. induction B as [|z l Hz _ IH]; cbn [map]; constructor; [|exact IH].
  unfold value_at. apply Hf. apply nth_In. unfold len in Hz. lia.
Qed.

Lemma value_bounded data M : (1 <= M)%R -> Forall (fun x => (Rabs (R64 x) <= M)%R) data -> forall pos, (Rabs (value_at data pos) <= M)%R.
Proof.
  intros HM H pos. unfold value_at. destruct (nth_in_or_default (Z.to_nat pos) data f0) as [I|E]; [rewrite Forall_forall in H; now apply H|].
  rewrite E. replace (R64 f0) with 0%R by reflexivity. rewrite Rabs_R0. lra.
Qed.

Lemma value_at_sample data pos x : sample_at data pos x -> value_at data pos = R64 x.
Proof. intros [H0 H]. unfold value_at. now rewrite (nth_error_nth _ _ _ H). Qed.

(** A frame in memory or read back, decoded. *)
Lemma frame_drawing e p data st f s M : Forall supported data -> data_stats data = Ok st -> 1 <= len data <= 2 ^ 53 ->
  feq (st_max st) (st_min st) = false -> holds data (frame0 st PPolynomial) f s ->
  (1 <= M <= bpow radix2 60)%R -> Forall (fun x => (Rabs (R64 x) <= M)%R) data ->
  exists out, decompress e p Polynomial (length data) (enc_poly f) = Ok out /\ length out = length data /\
    forall pos, 0 <= pos < len data -> exists y w r, sample_at out pos y /\ finite y /\ R64 y = clamp (R64 (st_min st)) (R64 (st_max st)) (rd 5 r) /\
      drawn (len data) s (value_at data) pos w /\ (Rabs (r - w) <= 320 * (ee * M))%R /\ (Rabs w <= 23 * M)%R.
Proof.
  intros Hs Hst Hn Hne Hh HM Hb. cbn [decompress]. unfold polynomial_decompress. rewrite (decode_holds _ _ _ _ Hn Hh). cbn [bind].
  assert (Hd : data <> []) by (intros ->; cbn in Hn; lia).
  destruct (stats_facts data Hd (supported_forall_finite _ Hs)) as (st' & Hst' & Fn & Fx & Hle & _). rewrite Hst in Hst'. apply ok_inj in Hst'. subst st'.
  destruct Hh as [Hsr ->]. unfold poly_to_data, method_to_data. cbn [conv_poly with_points frame0 poly_new pl_max pl_min pl_id]. rewrite Hne.
  destruct (drawing p (conv_poly (with_points (frame0 st PPolynomial) (pick data (grid (len data) s)) s)) data s M) as (out & Ho & Hl & Hp);
    cbn [conv_poly with_points frame0 poly_new pl_step pl_id pl_max pl_min pl_points pl_bitdepth]; auto.
  { apply picked; [lia|lia|]. intros x Hx. assert (Hc := stats_conv data st Hs Hst). rewrite Forall_forall in Hc. destruct (Hc x Hx) as (F & _ & R). now split. }
  { apply value_bounded; [apply HM|exact Hb]. }
  exists out. split; [exact Ho|]. split; [exact Hl|exact Hp].
Qed.

Lemma constant_frame e p data bytes st : data <> [] -> Z.of_nat (length data) <= 2 ^ 53 -> Forall supported data -> data_stats data = Ok st ->
  feq (st_max st) (st_min st) = true -> produced_usable e p Polynomial data bytes ->
  decompress e p Polynomial (length data) bytes = Ok (repeat (st_max st) (length data)) /\ same_series (repeat (st_max st) (length data)) data.
Proof.
  intros Hne Hn Hs Hst E Hp. assert (Hlen := nonempty_len data Hne).
  destruct (produced_shape e p Polynomial data bytes st (or_introl eq_refl) Hst (conj Hlen Hn)) as (f & -> & Hsh).
  { destruct Hp as [Hp|(b & _ & _ & Hp)]; [now left|right; eauto]. }
  cbn [decompress]. unfold polynomial_decompress.
  assert (Hd : exists g, decode_unwrap dec_poly (enc_poly f) = Ok g /\ pl_min g = st_min st /\ pl_max g = st_max st).
  { destruct Hsh as [->|[s Hh]].
    - rewrite decode_frame0. eexists. split; [reflexivity|]. split; reflexivity.
    - rewrite (decode_holds _ _ _ _ (conj Hlen Hn) Hh). eexists. split; [reflexivity|]. destruct Hh as [_ ->]. split; reflexivity. }
  destruct Hd as (g & Hg & Gn & Gx). rewrite Hg. cbn [bind]. unfold poly_to_data. rewrite Gn, Gx, E. split; [reflexivity|].
  exact (constant_series data st (supported_forall_finite _ Hs) Hst E).
Qed.

Lemma series_at out data : same_series out data -> forall pos x, sample_at data pos x -> exists y, sample_at out pos y /\ same_value y x.
Proof.
  intros H pos x [Hp Hx]. unfold sample_at. revert Hx. generalize (Z.to_nat pos) as k.
  induction H as [|a b l l' Hab _ IH]; intros [|k] Hk; cbn [nth_error] in *; try discriminate.
  - injection Hk as <-. eauto.
  - destruct (IH k Hk) as (y & [_ A] & C). eauto.
Qed.

Lemma sample_exists data pos : 0 <= pos < len data -> exists x, sample_at data pos x.
Proof. intros H. destruct (nth_error data (Z.to_nat pos)) eqn:E; [exists f; split; [lia|exact E]|]. apply nth_error_None in E. unfold len in H. lia. Qed.

(** *** C76 *)
(** The specification has exactly one value at every position, whatever the stored values. *)
Theorem C76_curve_determined : forall n step v pos, 1 <= step -> 0 <= pos < n -> exists! w, drawn n step v pos w.
Proof.
  intros n step v pos Hs Hp. destruct (drawn_exists n step v pos Hs Hp) as [w Hw]. exists w. split; [exact Hw|]. intros w' Hw'. exact (drawn_unique n step v pos w w' Hs Hp Hw Hw').
Qed.
Print Assumptions C76_curve_determined.

Lemma rd_bound M r w : (1 <= M <= bpow radix2 25)%R -> (Rabs (r - w) <= 320 * (ee * M))%R -> (Rabs w <= 23 * M)%R ->
  (Rabs (rd 5 r - w) <= 6 / 1000000 + M / bpow radix2 43)%R.
Proof.
  intros HM Hr Hw. assert (Ee : (320 * (ee * M) <= M / bpow radix2 43)%R).
  { unfold ee, Rdiv. rewrite <- bpow_opp. change (bpow radix2 (-52)) with (bpow radix2 (-9 + -43)). rewrite bpow_plus. change (bpow radix2 (-9)) with (/ 512)%R.
    assert (0 < M * bpow radix2 (-43))%R by (apply Rmult_lt_0_compat; [lra|apply bpow_gt_0]). change (- (43)) with (-43). lra. }
  change (bpow radix2 25) with 33554432%R in HM. assert (Hsm := ee_small). assert (ee * M <= M / 1000000)%R by (apply Rle_trans with (/ 1000000 * M)%R; [apply Rmult_le_compat_r; lra|lra]).
  assert (Ar : (Rabs r <= bpow radix2 30)%R).
  { replace r with (w + (r - w))%R by ring. eapply Rle_trans; [apply Rabs_triang|]. change (bpow radix2 30) with 1073741824%R. lra. }
  assert (N := rd_near 5 r ltac:(lia) Ar). change (IZR (10 ^ 5)) with 100000%R in N. change (bpow radix2 (-23)) with (/ 8388608)%R in N.
  replace (rd 5 r - w)%R with ((rd 5 r - r) + (r - w))%R by ring. eapply Rle_trans; [apply Rabs_triang|]. lra.
Qed.

(** Every decompressed sample is the curve's value limited to the range of the series, up to rounding. *)
Theorem C76_samples_on_the_curve : forall e p data bytes M mn i mx j,
  data <> [] -> Z.of_nat (length data) <= 2 ^ 53 -> Forall supported data ->
  (1 <= M <= bpow radix2 25)%R -> Forall (fun x => (Rabs (R64 x) <= M)%R) data ->
  min_at data mn i -> max_at data mx j -> produced_usable e p Polynomial data bytes ->
  exists step out, 1 <= step <= 133 /\ decompress e p Polynomial (length data) bytes = Ok out /\ length out = length data /\
    forall pos y, sample_at out pos y -> exists w, drawn (Z.of_nat (length data)) step (value_at data) pos w /\
      finite y /\ (Rabs (R64 y - Rmin (Rmax w (R64 mn)) (R64 mx)) <= 6 / 1000000 + M / bpow radix2 43)%R.
Proof.
  intros e p data bytes M mn i mx j Hne Hn Hs HM Hb Hmn Hmx Hp. assert (Hlen := nonempty_len data Hne).
  destruct (stats_facts data Hne (supported_forall_finite _ Hs)) as (st & Hst & Fn & Fx & Hle & [i' Hmn'] & [j' Hmx']).
  assert (Rn : R64 mn = R64 (st_min st)).
  { destruct Hmn as (H1 & H2 & _), Hmn' as (H1' & H2' & _). rewrite Forall_forall in H2, H2'. apply Rle_antisym; [apply H2|apply H2']; eapply nth_error_In; eauto. }
  assert (Rx : R64 mx = R64 (st_max st)).
  { destruct Hmx as (H1 & H2 & _), Hmx' as (H1' & H2' & _). rewrite Forall_forall in H2, H2'. apply Rle_antisym; [apply H2'|apply H2]; eapply nth_error_In; eauto. }
  rewrite Rn, Rx. assert (P43 : (0 < M / bpow radix2 43)%R) by (apply Rdiv_lt_0_compat; [lra|apply bpow_gt_0]).
  destruct (feq (st_max st) (st_min st)) eqn:E.
  - destruct (constant_frame e p data bytes st Hne Hn Hs Hst E Hp) as [Ho Hsame]. exists 1. eexists. split; [lia|]. split; [exact Ho|]. rewrite repeat_length. split; [reflexivity|].
    intros pos y [H0 Hy]. assert (Hpos : 0 <= pos < len data) by (assert (L : (Z.to_nat pos < length (repeat (st_max st) (length data)))%nat) by (apply nth_error_Some; congruence); rewrite repeat_length in L; unfold len; lia).
    destruct (sample_exists data pos Hpos) as [x Hx]. exists (value_at data pos). split; [apply D_stored; left; apply Z.divide_1_l|]. rewrite (value_at_sample _ _ _ Hx).
    destruct (series_at _ _ Hsame pos x Hx) as (y' & [_ Hy'] & (Fy & _ & Ry)). assert (y' = y) by congruence. subst y'. split; [exact Fy|].
    assert (Hcl : (R64 (st_min st) <= R64 x <= R64 (st_max st))%R).
    { destruct Hmn' as (_ & A & _), Hmx' as (_ & B & _). rewrite Forall_forall in A, B. assert (Hin : In x data) by (destruct Hx as [_ Hx]; eapply nth_error_In; eauto). split; auto. }
    rewrite Ry, Rmax_left, Rmin_left, Rminus_diag_eq, Rabs_R0 by (reflexivity || lra). lra.
  - destruct (produced_usable_shape e p Polynomial data bytes st (or_introl eq_refl) Hst (conj Hlen Hn) Hp E) as (f & s & -> & Hh).
    assert (HM60 : (1 <= M <= bpow radix2 60)%R) by (split; [apply HM|]; eapply Rle_trans; [apply HM|apply bpow_le; lia]).
    destruct (frame_drawing e p data st f s M Hs Hst (conj Hlen Hn) E Hh HM60 Hb) as (out & H1 & H2 & H3).
    destruct Hh as [Hsr _]. exists s, out. split; [exact Hsr|]. split; [exact H1|]. split; [exact H2|].
    intros pos y [H0 Hy]. assert (Hpos : 0 <= pos < len data) by (assert (L : (Z.to_nat pos < length out)%nat) by (apply nth_error_Some; congruence); unfold len; lia).
    destruct (H3 pos Hpos) as (y' & w & r & [_ Hy'] & Fy & Ry & Hw & B1 & B2). assert (y' = y) by congruence. subst y'. exists w. split; [exact Hw|]. split; [exact Fy|].
    rewrite Ry. change (Rmin (Rmax w (R64 (st_min st))) (R64 (st_max st))) with (clamp (R64 (st_min st)) (R64 (st_max st)) w).
    eapply Rle_trans; [apply clamp_lipschitz|]. exact (rd_bound M r w HM B1 B2).
Qed.
Print Assumptions C76_samples_on_the_curve.

(** Straight lines come back, whatever the step that was chosen. *)
Theorem C76_straight_lines : forall e p data bytes M a b,
  data <> [] -> Z.of_nat (length data) <= 2 ^ 53 -> Forall supported data ->
  (1 <= M <= bpow radix2 25)%R -> Forall (fun x => (Rabs (R64 x) <= M)%R) data ->
  (forall pos x, sample_at data pos x -> R64 x = (a + b * IZR pos)%R) -> produced_usable e p Polynomial data bytes ->
  exists out, decompress e p Polynomial (length data) bytes = Ok out /\ length out = length data /\
    forall pos x, sample_at data pos x -> exists y, sample_at out pos y /\ finite y /\ (Rabs (R64 y - R64 x) <= 6 / 1000000 + M / bpow radix2 43)%R.
Proof.
  intros e p data bytes M a b Hne Hn Hs HM Hb Hline Hp.
  destruct (stats_facts data Hne (supported_forall_finite _ Hs)) as (st & Hst & Fn & Fx & Hle & [i Hmn] & [j Hmx]).
  destruct (C76_samples_on_the_curve e p data bytes M _ i _ j Hne Hn Hs HM Hb Hmn Hmx Hp) as (s & out & Hsr & Ho & Hl & H). exists out. split; [exact Ho|]. split; [exact Hl|].
  intros pos x Hx. assert (Hpos : 0 <= pos < len data) by (destruct Hx as [H0 Hx]; assert (L : (Z.to_nat pos < length data)%nat) by (apply nth_error_Some; congruence); unfold len; lia).
  destruct (sample_exists out pos) as [y Hy]; [unfold len in *; lia|]. destruct (H pos y Hy) as (w & Hw & Fy & B). exists y. split; [exact Hy|]. split; [exact Fy|].
  assert (Ew : w = R64 x).
  { rewrite (Hline pos x Hx). apply (drawn_line (len data) s (value_at data) pos w a b); [lia|exact Hpos| |exact Hw].
    intros k Hk. destruct (sample_exists data k Hk) as [xk Hxk]. rewrite (value_at_sample _ _ _ Hxk). now apply Hline. }
  subst w. assert (Hcl : (R64 (st_min st) <= R64 x <= R64 (st_max st))%R).
  { destruct Hmn as (_ & A & _), Hmx as (_ & B' & _). rewrite Forall_forall in A, B'. assert (Hin : In x data) by (destruct Hx as [_ Hx]; eapply nth_error_In; eauto). split; auto. }
  rewrite Rmax_left, Rmin_left in B by lra. exact B.
Qed.
Print Assumptions C76_straight_lines.

(** Twelve samples, of which those at 0, 4, 8 and 11 are stored: between 4 and 8 the curve leaves the line through 5 and 5, and the
    decompressed sample at 6 is its value 5 - 5/56 to five decimals. *)
Definition pi_digits : list Z := [3; 1; 4; 1; 5; 9; 2; 6; 5; 3; 5; 8].
Example C76_example : forall e,
  drawn 12 4 (value_at (ints pi_digits)) 6 (5 - 5 / 56)%R /\
  (do b <- compress e Polynomial (ints pi_digits); do out <- decompress e Dev Polynomial 12 b; Ok (map to_bits out))
  = Ok (map (fun k => to_bits (fdiv (int_as_f64 k) (int_as_f64 100000))) [300000; 350000; 400000; 450000; 500000; 506027; 491071; 480580; 500000; 600000; 700000; 800000]).
Proof.
  intros e. split; [|vm_compute; reflexivity].
  assert (V : forall k, In k pi_digits -> R64 (int_as_f64 k) = IZR k).
  { intros k Hk. apply int_as_f64_exact. cbn [pi_digits In] in Hk. lia. }
  assert (V0 : value_at (ints pi_digits) 0 = 3%R) by (apply (V 3); cbn; tauto). assert (V4 : value_at (ints pi_digits) 4 = 5%R) by (apply (V 5); cbn; tauto).
  assert (V8 : value_at (ints pi_digits) 8 = 5%R) by (apply (V 5); cbn; tauto). assert (V11 : value_at (ints pi_digits) 11 = 8%R) by (apply (V 8); cbn; tauto).
  assert (Hab : (4 <> 8)%R) by lra.
  assert (D := D_curve 12 4 (value_at (ints pi_digits)) 6 1 _ ltac:(lia) ltac:(cbn; lia) ltac:(cbn; lia)
    (hermite_exists 4 (value_at (ints pi_digits) 4) (secant (value_at (ints pi_digits)) 0 8) 8 (value_at (ints pi_digits) 8) (secant (value_at (ints pi_digits)) 4 11) Hab)).
  cbv beta in D. unfold secant in D. rewrite V0, V4, V8, V11 in D. replace (5 - 5 / 56)%R with (hermite_value ((6 - 4) / (8 - 4)) 5 5 ((5 - 3) / (8 - 0) * (8 - 4)) ((8 - 5) / (11 - 4) * (8 - 4))); [exact D|].
  unfold hermite_value. field.
Qed.
