(** The decoders of the model accept exactly the grammar of Spec_Wire, and the encoders
    write exactly its shortest spellings. *)
From Coq Require Import List ZArith Bool Lia.
From Coq Require Import ZifyBool.
From Verif Require Import Base Model_Float Model_Bincode BincodeFacts Model_Stats Model_Compressors
  Model_Utils Model_Polynomial Model_Fft Model_Stream StreamFacts FloatFacts CompressorFacts Spec_Wire.
Import ListNotations.
Open Scope Z_scope.

(** [dec] accepts exactly the strings starting with a spelling in [R], and consumes it. *)
Record reads {A} (dec : decoder A) (R : A -> list Z -> Prop) : Prop := {
  rd_sound : forall bs a rest, bytes_ok bs -> dec bs = DOk a rest -> exists front, bs = front ++ rest /\ R a front;
  rd_complete : forall front a rest, R a front -> dec (front ++ rest) = DOk a rest }.

Lemma reads_iff {A} (d : decoder A) (R R' : A -> list Z -> Prop) : reads d R -> (forall a bs, bytes_ok bs -> R a bs -> R' a bs) ->
  (forall a bs, R' a bs -> R a bs) -> reads d R'.
Proof.
  intros [HS C] H1 H2. split.
  - intros bs a rest Hb Hd. destruct (HS bs a rest Hb Hd) as (f & -> & Hf). exists f. split; [reflexivity|].
    apply H1; [|exact Hf]. apply Forall_app in Hb. apply Hb.
  - intros f a rest Hf. apply C, H2, Hf.
Qed.

Lemma reads_bind {A B} (d : decoder A) (f : A -> decoder B) RA RB :
  reads d RA -> (forall a, reads (f a) (RB a)) ->
  reads (dbind d f) (fun b bs => exists a ba bb, bs = ba ++ bb /\ RA a ba /\ RB a b bb).
Proof.
  intros [HS C] HB. split.
  - intros bs b rest Hb Hd. unfold dbind in Hd. destruct (d bs) as [a r|e] eqn:E; [|discriminate Hd].
    destruct (HS bs a r Hb E) as (fa & -> & Hfa). apply Forall_app in Hb. destruct Hb as [Hb1 Hb2].
    destruct (rd_sound _ _ (HB a) r b rest Hb2 Hd) as (fb & -> & Hfb).
    exists (fa ++ fb). split; [now rewrite app_assoc|]. now exists a, fa, fb.
  - intros fr b rest (a & fa & fb & -> & Ha & Hb). unfold dbind. rewrite <- app_assoc, (C fa a _ Ha).
    apply (rd_complete _ _ (HB a)), Hb.
Qed.

Lemma reads_ret {A} (a : A) : reads (dret a) (fun b bs => b = a /\ bs = []).
Proof.
  split.
  - intros bs b rest _ H. unfold dret in H.
    assert (b = a /\ rest = bs) as [-> ->] by (split; congruence). exists []. now repeat split.
  - intros f b rest [-> ->]. reflexivity.
Qed.

Lemma reads_fail {A} e : reads (@dfail A e) (fun _ _ => False).
Proof. split; [intros bs a rest _ H; discriminate H|intros f a rest []]. Qed.

(** A decoder that only maps the result of another. *)
Lemma reads_map {A B} (d : decoder A) R (f : A -> B) : reads d R ->
  reads (dlet a <- d; dret (f a)) (fun b bs => exists a, b = f a /\ R a bs).
Proof.
  intros H. eapply reads_iff; [exact (reads_bind _ _ _ _ H (fun a => reads_ret (f a)))| |].
  - intros b bs _ (a & ba & bb & -> & Ha & -> & ->). rewrite app_nil_r. now exists a.
  - intros b bs (a & -> & Ha). exists a, bs, []. rewrite app_nil_r. repeat split; auto.
Qed.

Lemma reads_u8 : reads dec_u8 (fun b bs => bs = [b] /\ is_byte b).
Proof.
  split.
  - intros bs b rest Hb H. destruct bs as [|c r]; [discriminate H|]. cbn in H.
    assert (c = b /\ r = rest) as [-> ->] by (split; congruence). exists [b]. split; [reflexivity|].
    split; [reflexivity|]. apply Forall_inv in Hb. exact Hb.
  - intros f b rest [-> _]. reflexivity.
Qed.

Lemma reads_take n : reads (dec_take n) (fun l bs => bs = l /\ length l = n /\ Forall is_byte l).
Proof.
  split.
  - revert n. intros n bs. revert n. induction bs as [|c bs IH]; intros n l rest Hb H; destruct n as [|n].
    + cbn in H. exists []. assert (l = [] /\ rest = []) as [-> ->] by (split; congruence). repeat split. constructor.
    + discriminate H.
    + cbn in H. exists []. assert (l = [] /\ rest = c :: bs) as [-> ->] by (split; congruence). repeat split. constructor.
    + cbn in H. destruct (dec_take n bs) as [l' r|e] eqn:E; [|discriminate H].
      assert (l = c :: l' /\ rest = r) as [-> ->] by (split; congruence).
      destruct (IH n l' r (Forall_inv_tail Hb) E) as (f & -> & -> & Hl & Hf).
      exists (c :: l'). repeat split; [cbn; lia|]. constructor; [exact (Forall_inv Hb)|exact Hf].
  - intros f l rest (-> & <- & _). apply dec_take_app.
Qed.

Lemma list2 {A} (l : list A) : length l = 2%nat -> exists a b, l = [a; b].
Proof. destruct l as [|a [|b [|]]]; intros H; try discriminate H. now exists a, b. Qed.
Lemma list4 {A} (l : list A) : length l = 4%nat -> exists a b c d, l = [a; b; c; d].
Proof. destruct l as [|a [|b [|c [|d [|]]]]]; intros H; try discriminate H. now exists a, b, c, d. Qed.
Lemma list8 {A} (l : list A) : length l = 8%nat -> exists a b c d e f g h, l = [a; b; c; d; e; f; g; h].
Proof.
  destruct l as [|a [|b [|c [|d [|e [|f [|g [|h [|]]]]]]]]]; intros H; try discriminate H.
  now exists a, b, c, d, e, f, g, h.
Qed.

Definition wnum (w : width) : Z := match w with W16 => 1 | W32 => 2 | W64 => 3 end.

Lemma wide32 w : as_wide_as w W32 <-> (2 <=? wnum w) = true.
Proof. destruct w; cbn; split; intros H; try exact I; try reflexivity; try (now destruct H); discriminate H. Qed.
Lemma wide64 w : as_wide_as w W64 <-> (3 <=? wnum w) = true.
Proof. destruct w; cbn; split; intros H; try exact I; try reflexivity; try (now destruct H); discriminate H. Qed.

Lemma reads_number w : reads (dec_varint (wnum w)) (number Readable w).
Proof.
  split.
  - intros bs z rest Hb H. unfold dec_varint, dbind at 1 in H.
    destruct bs as [|b bs]; [discriminate H|]. cbn [dec_u8] in H.
    pose proof (Forall_inv Hb) as Hb0. apply Forall_inv_tail in Hb. unfold byte_ok in Hb0.
    destruct (b <=? 250) eqn:E1.
    { unfold dret in H. assert (b = z /\ bs = rest) as [-> ->] by (split; congruence).
      exists [z]. split; [reflexivity|]. apply number1. lia. }
    destruct (b =? 251) eqn:E2.
    { apply Z.eqb_eq in E2. subst b.
      destruct (rd_sound _ _ (reads_map _ _ le_val (reads_take 2)) bs z rest Hb H) as (f & -> & l & -> & -> & Hl & Hf).
      destruct (list2 l Hl) as (b0 & b1 & ->). exists [251; b0; b1]. split; [reflexivity|].
      apply number2; [exact Hf| |discriminate]. cbn [le_val]. lia. }
    destruct (b =? 252) eqn:E3; cbn [andb] in H.
    { apply Z.eqb_eq in E3. subst b. destruct (2 <=? wnum w) eqn:Ew; [|discriminate H].
      destruct (rd_sound _ _ (reads_map _ _ le_val (reads_take 4)) bs z rest Hb H) as (f & -> & l & -> & -> & Hl & Hf).
      destruct (list4 l Hl) as (b0 & b1 & b2 & b3 & ->). exists [252; b0; b1; b2; b3]. split; [reflexivity|].
      apply number4; [now apply wide32|exact Hf| |discriminate]. cbn [le_val]. lia. }
    destruct (b =? 253) eqn:E4; cbn [andb] in H; [|discriminate H].
    apply Z.eqb_eq in E4. subst b. destruct (3 <=? wnum w) eqn:Ew; [|discriminate H].
    destruct (rd_sound _ _ (reads_map _ _ le_val (reads_take 8)) bs z rest Hb H) as (f & -> & l & -> & -> & Hl & Hf).
    destruct (list8 l Hl) as (b0 & b1 & b2 & b3 & b4 & b5 & b6 & b7 & ->).
    exists [253; b0; b1; b2; b3; b4; b5; b6; b7]. split; [reflexivity|].
    apply number8; [now apply wide64|exact Hf| |discriminate]. cbn [le_val]. lia.
  - intros f z rest H. unfold dec_varint, dbind at 1.
    destruct H as [z Hz|z b0 b1 Hb Hz _|z b0 b1 b2 b3 Hw Hb Hz _|z b0 b1 b2 b3 b4 b5 b6 b7 Hw Hb Hz _]; cbn [app dec_u8].
    + assert (z <=? 250 = true) as -> by lia. reflexivity.
    + change (251 <=? 250) with false. change (251 =? 251) with true. cbv iota.
      cbn [dec_take dbind]. unfold dbind, dret. cbn [dec_take le_val]. f_equal. lia.
    + change (252 <=? 250) with false. change (252 =? 251) with false. change (252 =? 252) with true. cbv iota.
      apply wide32 in Hw. rewrite Hw. cbn [andb].
      unfold dbind, dret. cbn [dec_take le_val]. f_equal. lia.
    + change (253 <=? 250) with false. change (253 =? 251) with false. change (253 =? 252) with false.
      change (253 =? 253) with true. cbv iota. apply wide64 in Hw. rewrite Hw. cbn [andb].
      unfold dbind, dret. cbn [dec_take le_val]. f_equal. lia.
Qed.

(** Every value with a spelling fits its width. *)
Lemma number_range u w z bs : number u w z bs -> 0 <= z < match w with W16 => 2 ^ 16 | W32 => 2 ^ 32 | W64 => 2 ^ 64 end.
Proof.
  intros [z' Hz|z' b0 b1 Hb -> _|z' b0 b1 b2 b3 Hw Hb -> _|z' b0 b1 b2 b3 b4 b5 b6 b7 Hw Hb -> _];
    [destruct w; lia| | |]; unfold is_byte in Hb;
    repeat match goal with H : Forall _ (_ :: _) |- _ =>
      let H1 := fresh in let H2 := fresh in pose proof (Forall_inv H) as H1; pose proof (Forall_inv_tail H) as H2; clear H end;
    destruct w; cbn [as_wide_as] in *; try contradiction; cbv beta in *; lia.
Qed.

Lemma number_written w z : 0 <= z < match w with W16 => 2 ^ 16 | W32 => 2 ^ 32 | W64 => 2 ^ 64 end ->
  number Written w z (enc_varint z).
Proof.
  intros Hz. unfold enc_varint. destruct (z <=? 250) eqn:E1; [apply number1; lia|].
  destruct (z <? 2 ^ 16) eqn:E2.
  { pose proof (le_bytes_ok 2 z) as Hb. pose proof (le_val_le_bytes 2 z ltac:(cbn; lia)) as Hv.
    destruct (list2 _ (le_bytes_length 2 z)) as (b0 & b1 & E). rewrite E in *. cbn [le_val] in Hv.
    apply number2; [exact Hb|lia|lia]. }
  destruct (z <? 2 ^ 32) eqn:E3.
  { pose proof (le_bytes_ok 4 z) as Hb. pose proof (le_val_le_bytes 4 z ltac:(cbn; lia)) as Hv.
    destruct (list4 _ (le_bytes_length 4 z)) as (b0 & b1 & b2 & b3 & E). rewrite E in *. cbn [le_val] in Hv.
    apply number4; [destruct w; cbn; try exact I; lia|exact Hb|lia|lia]. }
  pose proof (le_bytes_ok 8 z) as Hb.
  pose proof (le_val_le_bytes 8 z ltac:(change (256 ^ Z.of_nat 8) with (2 ^ 64); destruct w; lia)) as Hv.
  destruct (list8 _ (le_bytes_length 8 z)) as (b0 & b1 & b2 & b3 & b4 & b5 & b6 & b7 & E). rewrite E in *. cbn [le_val] in Hv.
  apply number8; [destruct w; cbn; try exact I; lia|exact Hb|lia|lia].
Qed.

Lemma number_nonempty u w z bs : number u w z bs -> bs <> [].
Proof. intros []; discriminate. Qed.

Lemma number_bytes u w z bs : number u w z bs -> bytes_ok bs.
Proof.
  intros [z' Hz|z' b0 b1 Hb _ _|z' b0 b1 b2 b3 _ Hb _ _|z' b0 b1 b2 b3 b4 b5 b6 b7 _ Hb _ _];
    (apply Forall_cons; [unfold byte_ok; lia|]); [constructor|exact Hb|exact Hb|exact Hb].
Qed.

(** The written spelling is the only one. *)
Lemma number_unique w z bs : number Written w z bs -> bs = enc_varint z.
Proof.
  intros H. unfold enc_varint.
  destruct H as [z Hz|z b0 b1 Hb Hz Hu|z b0 b1 b2 b3 Hw Hb Hz Hu|z b0 b1 b2 b3 b4 b5 b6 b7 Hw Hb Hz Hu].
  - assert (z <=? 250 = true) as -> by lia. reflexivity.
  - specialize (Hu eq_refl).
    assert (Hv : le_val [b0; b1] = z) by (cbn [le_val]; lia).
    pose proof (le_val_range [b0; b1] Hb) as Hr. cbn [length] in Hr. rewrite Hv in Hr.
    change (256 ^ Z.of_nat 2) with (2 ^ 16) in Hr.
    assert (z <=? 250 = false) as -> by lia. assert (z <? 2 ^ 16 = true) as -> by lia.
    pose proof (le_bytes_le_val [b0; b1] Hb) as Hl. cbn [length] in Hl. rewrite Hv in Hl. now rewrite Hl.
  - specialize (Hu eq_refl).
    assert (Hv : le_val [b0; b1; b2; b3] = z) by (cbn [le_val]; lia).
    pose proof (le_val_range [b0; b1; b2; b3] Hb) as Hr. cbn [length] in Hr. rewrite Hv in Hr.
    change (256 ^ Z.of_nat 4) with (2 ^ 32) in Hr.
    assert (z <=? 250 = false) as -> by lia. assert (z <? 2 ^ 16 = false) as -> by lia.
    assert (z <? 2 ^ 32 = true) as -> by lia.
    pose proof (le_bytes_le_val [b0; b1; b2; b3] Hb) as Hl. cbn [length] in Hl. rewrite Hv in Hl. now rewrite Hl.
  - specialize (Hu eq_refl).
    assert (Hv : le_val [b0; b1; b2; b3; b4; b5; b6; b7] = z) by (cbn [le_val]; lia).
    assert (z <=? 250 = false) as -> by lia. assert (z <? 2 ^ 16 = false) as -> by lia.
    assert (z <? 2 ^ 32 = false) as -> by lia.
    pose proof (le_bytes_le_val [b0; b1; b2; b3; b4; b5; b6; b7] Hb) as Hl. cbn [length] in Hl. rewrite Hv in Hl. now rewrite Hl.
Qed.

Lemma unzigzag_iff n z : 0 <= n -> unzigzag n = z <-> ((0 <= z /\ n = 2 * z) \/ (z < 0 /\ n = -2 * z - 1)).
Proof.
  intros Hn. unfold unzigzag. destruct (Z.even n) eqn:E.
  - apply Z.even_spec in E. destruct E as [k ->]. rewrite Z.mul_comm, Z_div_mult_full by lia. lia.
  - assert (Ho : Z.odd n = true) by (rewrite <- Z.negb_even, E; reflexivity).
    apply Z.odd_spec in Ho. destruct Ho as [k ->].
    replace (2 * k + 1) with (1 + k * 2) by lia. rewrite Z_div_plus_full by lia. change (1 / 2) with 0. lia.
Qed.

Lemma reads_signed w : reads (dec_int (wnum w)) (signed Readable w).
Proof.
  unfold dec_int. eapply reads_iff; [exact (reads_map _ _ unzigzag (reads_number w))| |].
  - intros z bs _ (n & -> & Hn). exists n. split; [exact Hn|]. apply unzigzag_iff; [apply (number_range _ _ _ _ Hn)|reflexivity].
  - intros z bs (n & Hn & Hz). exists n. split; [|exact Hn]. symmetry. apply unzigzag_iff; [apply (number_range _ _ _ _ Hn)|exact Hz].
Qed.

Definition wbits (w : width) : Z := match w with W16 => 16 | W32 => 32 | W64 => 64 end.

Lemma signed_written w z : in_s (wbits w) z -> signed Written w z (enc_int z).
Proof.
  intros Hz. unfold enc_int. exists (zigzag z). unfold in_s in Hz. split.
  - apply number_written. unfold zigzag. destruct (z <? 0) eqn:E; destruct w; cbn [wbits] in Hz; lia.
  - unfold zigzag. destruct (z <? 0) eqn:E; lia.
Qed.

Lemma signed_unique w z bs : signed Written w z bs -> bs = enc_int z.
Proof.
  intros (n & Hn & Hz). apply number_unique in Hn. subst bs. unfold enc_int. f_equal.
  unfold zigzag. destruct (z <? 0) eqn:E; lia.
Qed.

Lemma signed_range u w z bs : signed u w z bs -> in_s (wbits w) z.
Proof. intros (n & Hn & Hz). apply number_range in Hn. unfold in_s. destruct w; cbn [wbits]; lia. Qed.
Lemma signed_nonempty u w z bs : signed u w z bs -> bs <> [].
Proof. intros (n & Hn & _). exact (number_nonempty _ _ _ _ Hn). Qed.
Lemma signed_bytes u w z bs : signed u w z bs -> bytes_ok bs.
Proof. intros (n & Hn & _). exact (number_bytes _ _ _ _ Hn). Qed.

(** Floats. *)
Lemma double_iff x bs : double x bs <-> bs = enc_f64 x.
Proof.
  unfold enc_f64. split.
  - intros (b0 & b1 & b2 & b3 & b4 & b5 & b6 & b7 & -> & Hb & Hx).
    rewrite Hx.
    rewrite <- (le_bytes_le_val [b0; b1; b2; b3; b4; b5; b6; b7] Hb) at 1. cbn [length le_val]. f_equal. lia.
  - intros ->. destruct (list8 _ (le_bytes_length 8 (to_bits x))) as (b0 & b1 & b2 & b3 & b4 & b5 & b6 & b7 & E).
    exists b0, b1, b2, b3, b4, b5, b6, b7. split; [exact E|].
    split; [apply le_bytes_ok|].
    pose proof (le_val_le_bytes 8 (to_bits x) (to_bits_range x)) as Hv. rewrite E in Hv. cbn [le_val] in Hv. lia.
Qed.
Lemma single_iff x bs : single x bs <-> bs = enc_f32 x.
Proof.
  unfold enc_f32. split.
  - intros (b0 & b1 & b2 & b3 & -> & Hb & Hx). rewrite Hx.
    rewrite <- (le_bytes_le_val [b0; b1; b2; b3] Hb) at 1. cbn [length le_val]. f_equal. lia.
  - intros ->. destruct (list4 _ (le_bytes_length 4 (f32_to_bits x))) as (b0 & b1 & b2 & b3 & E).
    exists b0, b1, b2, b3. split; [exact E|].
    split; [apply le_bytes_ok|].
    pose proof (le_val_le_bytes 4 (f32_to_bits x) (f32_to_bits_range x)) as Hv. rewrite E in Hv. cbn [le_val] in Hv. lia.
Qed.

Lemma reads_f64 : reads dec_f64 double.
Proof.
  unfold dec_f64. eapply reads_iff; [exact (reads_map _ _ (fun l => from_bits (le_val l)) (reads_take 8))| |].
  - intros x bs _ (l & -> & -> & Hl & Hb). apply double_iff. unfold enc_f64.
    rewrite to_bits_from_bits.
    + rewrite <- Hl. symmetry. now apply le_bytes_le_val.
    + pose proof (le_val_range l Hb) as Hr. rewrite Hl in Hr. exact Hr.
  - intros x bs H. apply double_iff in H. subst bs. exists (enc_f64 x). unfold enc_f64.
    split; [now rewrite le_val_le_bytes, from_bits_to_bits by exact (to_bits_range x)|].
    split; [reflexivity|]. split; [apply le_bytes_length|apply le_bytes_ok].
Qed.
Lemma f32_to_bits_from_bits z : 0 <= z < 2 ^ 32 -> f32_to_bits (f32_from_bits z) = z.
Proof. exact (Bits.bits_of_binary_float_of_bits 23 8 eq_refl eq_refl eq_refl z). Qed.
Lemma reads_f32 : reads dec_f32 single.
Proof.
  unfold dec_f32. eapply reads_iff; [exact (reads_map _ _ (fun l => f32_from_bits (le_val l)) (reads_take 4))| |].
  - intros x bs _ (l & -> & -> & Hl & Hb). apply single_iff. unfold enc_f32.
    rewrite f32_to_bits_from_bits.
    + rewrite <- Hl. symmetry. now apply le_bytes_le_val.
    + pose proof (le_val_range l Hb) as Hr. rewrite Hl in Hr. exact Hr.
  - intros x bs H. apply single_iff in H. subst bs. exists (enc_f32 x). unfold enc_f32.
    split; [now rewrite le_val_le_bytes, f32_from_bits_to_bits by exact (f32_to_bits_range x)|].
    split; [reflexivity|]. split; [apply le_bytes_length|apply le_bytes_ok].
Qed.
Lemma double_bytes x bs : double x bs -> bytes_ok bs.
Proof. intros H. apply double_iff in H. subst. apply le_bytes_ok. Qed.
Lemma single_bytes x bs : single x bs -> bytes_ok bs.
Proof. intros H. apply single_iff in H. subst. apply le_bytes_ok. Qed.
Lemma double_nonempty x bs : double x bs -> bs <> [].
Proof. intros H. apply double_iff in H. subst. discriminate. Qed.

(** Sequences. *)
Lemma items_length {A} (R : A -> list Z -> Prop) l bs :
  (forall a b, R a b -> b <> []) -> items R l bs -> (length l <= length bs)%nat.
Proof.
  intros Hn H. induction H as [|a l b bs Ha Hl IH]; [cbn; lia|]. rewrite app_length. cbn [length].
  specialize (Hn a b Ha). destruct b; [congruence|cbn [length]; lia].
Qed.

Lemma items_bytes {A} (R : A -> list Z -> Prop) l bs :
  (forall a b, R a b -> bytes_ok b) -> items R l bs -> bytes_ok bs.
Proof.
  intros Hb H. induction H as [|a l b bs Ha Hl IH]; [constructor|]. apply Forall_app. split; [exact (Hb a b Ha)|exact IH].
Qed.

Lemma items_forall {A} (R : A -> list Z -> Prop) (P : A -> Prop) l bs :
  (forall a b, R a b -> P a) -> items R l bs -> Forall P l.
Proof. intros HP H. induction H as [|a l b bs Ha Hl IH]; constructor; [exact (HP a b Ha)|exact IH]. Qed.

Lemma loop_sound {A} (dec : decoder A) R : reads dec R -> forall fuel n bs l rest, 0 <= n -> bytes_ok bs ->
  dec_loop dec fuel n bs = DOk l rest -> exists front, bs = front ++ rest /\ items R l front /\ Z.of_nat (length l) = n.
Proof.
  intros HR. induction fuel as [|fuel IH]; intros n bs l rest Hn Hb H; cbn [dec_loop] in H.
  - destruct (n <=? 0) eqn:E; [|discriminate H].
    assert (l = [] /\ rest = bs) as [-> ->] by (split; congruence). exists []. repeat split; [constructor|cbn; lia].
  - destruct (n <=? 0) eqn:E.
    { assert (l = [] /\ rest = bs) as [-> ->] by (split; congruence). exists []. repeat split; [constructor|cbn; lia]. }
    destruct (dec bs) as [a r|e] eqn:Ed; [|discriminate H].
    destruct (rd_sound _ _ HR bs a r Hb Ed) as (f & -> & Hf). apply Forall_app in Hb. destruct Hb as [_ Hb].
    destruct (dec_loop dec fuel (n - 1) r) as [l' r'|e] eqn:El; [|discriminate H].
    assert (l = a :: l' /\ rest = r') as [-> ->] by (split; congruence).
    destruct (IH (n - 1) r l' r' ltac:(lia) Hb El) as (f' & -> & Hf' & Hlen).
    exists (f ++ f'). split; [now rewrite app_assoc|]. split; [now constructor|]. cbn [length]. lia.
Qed.

Lemma loop_complete {A} (dec : decoder A) R : reads dec R -> forall l body rest fuel,
  items R l body -> (length l <= fuel)%nat -> dec_loop dec fuel (Z.of_nat (length l)) (body ++ rest) = DOk l rest.
Proof.
  intros HR l body rest fuel H. revert fuel. induction H as [|a l b bs Ha Hl IH]; intros fuel Hf.
  - destruct fuel; reflexivity.
  - destruct fuel as [|fuel]; [cbn in Hf; lia|]. cbn [dec_loop length].
    assert (Z.of_nat (Datatypes.S (length l)) <=? 0 = false) as -> by lia.
    rewrite <- app_assoc, (rd_complete _ _ HR b a _ Ha).
    replace (Z.of_nat (Datatypes.S (length l)) - 1) with (Z.of_nat (length l)) by lia.
    rewrite IH by (cbn in Hf; lia). reflexivity.
Qed.

Lemma reads_vec {A} (dec : decoder A) R : reads dec R -> (forall a b, R a b -> b <> []) ->
  reads (dec_vec dec) (sequence Readable R).
Proof.
  intros HR Hne. unfold dec_vec. split.
  - intros bs l rest Hb H. unfold dbind at 1 in H.
    destruct (dec_u64 bs) as [n r|e] eqn:En; [|discriminate H].
    destruct (rd_sound _ _ (reads_number W64) bs n r Hb En) as (fn & -> & Hn).
    apply Forall_app in Hb. destruct Hb as [_ Hb].
    pose proof (number_range _ _ _ _ Hn) as Hr.
    destruct (loop_sound dec R HR _ n r l rest ltac:(lia) Hb H) as (f & -> & Hf & Hl).
    exists (fn ++ f). split; [now rewrite app_assoc|]. exists fn, f. rewrite Hl. auto.
  - intros f l rest (n & body & -> & Hn & Hi). unfold dbind. rewrite <- app_assoc.
    change dec_u64 with (dec_varint (wnum W64)).
    rewrite (rd_complete _ _ (reads_number W64) n _ _ Hn).
    apply (loop_complete dec R HR l body rest _ Hi).
    pose proof (items_length R l body Hne Hi). rewrite app_length. lia.
Qed.

Lemma sequence_nonempty {A} u (R : A -> list Z -> Prop) l bs : sequence u R l bs -> bs <> [].
Proof.
  intros (n & body & -> & Hn & _). apply number_nonempty in Hn. destruct n; [congruence|discriminate].
Qed.
Lemma sequence_bytes {A} u (R : A -> list Z -> Prop) l bs :
  (forall a b, R a b -> bytes_ok b) -> sequence u R l bs -> bytes_ok bs.
Proof.
  intros H (n & body & -> & Hn & Hi). apply Forall_app. split; [exact (number_bytes _ _ _ _ Hn)|].
  exact (items_bytes R l body H Hi).
Qed.
Lemma sequence_forall {A} u (R : A -> list Z -> Prop) (P : A -> Prop) l bs :
  (forall a b, R a b -> P a) -> sequence u R l bs -> Forall P l /\ Z.of_nat (length l) < 2 ^ 64.
Proof.
  intros H (n & body & -> & Hn & Hi). split; [exact (items_forall R P l body H Hi)|].
  apply number_range in Hn. lia.
Qed.

Lemma items_written {A} (enc : A -> list Z) (R : A -> list Z -> Prop) (P : A -> Prop) l : (forall a, P a -> R a (enc a)) -> Forall P l ->
  items R l (flat_map enc l).
Proof. intros H. induction 1 as [|a l Ha Hl IH]; cbn [flat_map]; constructor; auto. Qed.
Lemma items_unique {A} (enc : A -> list Z) (R : A -> list Z -> Prop) l bs : (forall a b, R a b -> b = enc a) -> items R l bs -> bs = flat_map enc l.
Proof. intros H Hi. induction Hi as [|a l b bs Ha Hl IH]; cbn [flat_map]; [reflexivity|]. now rewrite (H a b Ha), IH. Qed.

Lemma sequence_written {A} (enc : A -> list Z) (R : A -> list Z -> Prop) (P : A -> Prop) l : (forall a, P a -> R a (enc a)) -> Forall P l ->
  Z.of_nat (length l) < 2 ^ 64 -> sequence Written R l (enc_vec enc l).
Proof.
  intros H Hl Hn. unfold enc_vec. exists (enc_u64 (Z.of_nat (length l))), (flat_map enc l). split; [reflexivity|].
  split; [apply number_written; lia|]. exact (items_written enc R P l H Hl).
Qed.
Lemma sequence_unique {A} (enc : A -> list Z) (R : A -> list Z -> Prop) l bs : (forall a b, R a b -> b = enc a) ->
  sequence Written R l bs -> bs = enc_vec enc l.
Proof.
  intros H (n & body & -> & Hn & Hi). apply number_unique in Hn. subst n.
  now rewrite (items_unique enc R l body H Hi).
Qed.

(** Tags. *)
Lemma reads_tag {A} (tag : A -> Z) (dec : Z -> decoder A) :
  (forall t a r r', dec t r = DOk a r' -> tag a = t /\ r' = r) ->
  (forall a r, dec (tag a) r = DOk a r) ->
  reads (dlet t <- dec_u32; dec t) (fun a bs => number Readable W32 (tag a) bs).
Proof.
  intros H1 H2. split.
  - intros bs a rest Hb H. unfold dbind in H. destruct (dec_u32 bs) as [t r|e] eqn:E; [|discriminate H].
    destruct (rd_sound _ _ (reads_number W32) bs t r Hb E) as (f & -> & Hf).
    destruct (H1 t a r rest H) as [<- ->]. exists f. split; [reflexivity|exact Hf].
  - intros f a rest Hf. unfold dbind. change dec_u32 with (dec_varint (wnum W32)).
    rewrite (rd_complete _ _ (reads_number W32) f _ rest Hf). apply H2.
Qed.

Ltac tag_cases :=
  repeat match goal with
    | H : (if ?b then _ else _) _ = _ |- _ => destruct b eqn:?
    end;
  try match goal with H : dfail _ _ = _ |- _ => discriminate H end;
  match goal with H : dret ?x _ = DOk ?a _ |- _ =>
    unfold dret in H; assert (a = x) by congruence; subst a; split; [cbn; lia|congruence] end.

Lemma reads_bitdepth : reads dec_bitdepth (fun b bs => number Readable W32 (width_tag b) bs).
Proof. apply (reads_tag width_tag); [intros t a r r' H; tag_cases|intros [] r; reflexivity]. Qed.
Lemma reads_ptype : reads dec_ptype (fun t bs => number Readable W32 (match t with PPolynomial => 0 | PIdw => 1 end) bs).
Proof. apply (reads_tag (fun t => match t with PPolynomial => 0 | PIdw => 1 end)); [intros t a r r' H; tag_cases|intros [] r; reflexivity]. Qed.
Lemma reads_compressor : reads dec_compressor (fun c bs => number Readable W32 (compressor_number c) bs).
Proof. apply (reads_tag compressor_number); [intros t a r r' H; tag_cases|intros [] r; reflexivity]. Qed.

(** Samples. *)
Lemma reads_sample b : reads (dec_sample b) (sample Readable b).
Proof.
  destruct b; cbn [dec_sample sample].
  - exact reads_f64.
  - eapply reads_iff; [exact (reads_map _ _ int_as_f64 (reads_signed W32))| |].
    + intros x bs _ (z & -> & Hz). now exists z.
    + intros x bs (z & Hz & ->). now exists z.
  - eapply reads_iff; [exact (reads_map _ _ int_as_f64 (reads_signed W16))| |].
    + intros x bs _ (z & -> & Hz). now exists z.
    + intros x bs (z & Hz & ->). now exists z.
  - eapply reads_iff; [exact (reads_map _ _ int_as_f64 reads_u8)| |].
    + intros x bs _ (z & -> & Hz & Hb). now exists z.
    + intros x bs (z & Hz & Hb & ->). now exists z.
Qed.
Lemma sample_nonempty u b x bs : sample u b x bs -> bs <> [].
Proof.
  destruct b; cbn [sample].
  - apply double_nonempty.
  - intros (z & Hz & _). exact (signed_nonempty _ _ _ _ Hz).
  - intros (z & Hz & _). exact (signed_nonempty _ _ _ _ Hz).
  - intros (z & -> & _). discriminate.
Qed.
Lemma sample_unique b x bs : sample Written b x bs -> bs = enc_sample b x.
Proof.
  destruct b; cbn [sample enc_sample].
  - apply double_iff.
  - intros (z & Hz & ->). exact (signed_unique _ _ _ Hz).
  - intros (z & Hz & ->). exact (signed_unique _ _ _ Hz).
  - intros (z & -> & _ & ->). reflexivity.
Qed.
Lemma sample_written b x : sample Written b x (enc_sample b x).
Proof.
  destruct b; cbn [sample enc_sample].
  - now apply double_iff.
  - exists (f64_as_i32 x). split; [|reflexivity]. apply (signed_written W32). unfold in_s, f64_as_i32. cbn [wbits].
    pose proof (f64_as_int_range (- 2 ^ 31) (2 ^ 31 - 1) x). lia.
  - exists (f64_as_i16 x). split; [|reflexivity]. apply (signed_written W16). unfold in_s, f64_as_i16. cbn [wbits].
    pose proof (f64_as_int_range (- 2 ^ 15) (2 ^ 15 - 1) x). lia.
  - exists (f64_as_u8 x). split; [reflexivity|]. split; [|reflexivity]. unfold is_byte, f64_as_u8.
    pose proof (f64_as_int_range 0 255 x). lia.
Qed.
Lemma sample_bytes u b x bs : sample u b x bs -> bytes_ok bs.
Proof.
  destruct b; cbn [sample].
  - apply double_bytes.
  - intros (z & Hz & _). exact (signed_bytes _ _ _ _ Hz).
  - intros (z & Hz & _). exact (signed_bytes _ _ _ _ Hz).
  - intros (z & -> & H & _). constructor; [exact H|constructor].
Qed.

(** Reading the payloads. *)
Lemma reads_mark {A} (d : decoder A) (R : A -> list Z -> Prop) m : reads d R ->
  reads (dlet _ <- dec_u8; d) (fun a bs => exists b rest, bs = b :: rest /\ mark Readable m b /\ R a rest).
Proof.
  intros H. eapply reads_iff; [exact (reads_bind _ _ _ _ reads_u8 (fun _ => H))| |].
  - intros a bs _ (b & ba & bb & -> & [-> Hb] & Ha). now exists b, bb.
  - intros a bs (b & rest & -> & Hb & Ha). exists b, [b], rest. split; [reflexivity|]. split; [split; [reflexivity|exact Hb]|exact Ha].
Qed.

Lemma reads_noop : reads dec_noop (noop_layout Readable).
Proof.
  apply reads_mark. exact (reads_vec _ _ (reads_signed W64) (signed_nonempty Readable W64)).
Qed.

Lemma reads_constant : reads dec_constant (fun x bs => exists b, constant_layout Readable b x bs).
Proof.
  unfold dec_constant. eapply reads_iff.
  - eapply (reads_mark _ _ 30). exact (reads_bind _ _ _ _ reads_bitdepth reads_sample).
  - intros x bs _ (m & rest & -> & Hm & b & ba & bb & -> & Hb & Hx). exists b, m, ba, bb. auto.
  - intros x bs (b & m & tag & rest & -> & Hm & Hb & Hx). exists m, (tag ++ rest). split; [reflexivity|]. split; [exact Hm|].
    exists b, tag, rest. auto.
Qed.

Lemma reads_run b : reads (dec_rle_entry b) (run Readable b).
Proof.
  unfold dec_rle_entry.
  pose proof (reads_vec _ _ (reads_number W64) (number_nonempty Readable W64)) as HV.
  eapply reads_iff; [exact (reads_bind _ _ _ _ (reads_sample b) (fun v => reads_map _ _ (fun idx => (v, idx)) HV))| |].
  - intros r bs _ (v & ba & bb & -> & Hv & idx & -> & Hi). exists ba, bb. auto.
  - intros [v idx] bs (ba & bb & -> & Hv & Hi). exists v, ba, bb. repeat split; [exact Hv|]. now exists idx.
Qed.
Lemma run_nonempty u b r bs : run u b r bs -> bs <> [].
Proof. intros (v & ps & -> & Hv & _). apply sample_nonempty in Hv. destruct v; [congruence|discriminate]. Qed.

Lemma reads_rle : reads dec_rle (fun l bs => exists b, rle_layout Readable b l bs).
Proof.
  unfold dec_rle. eapply reads_iff.
  - eapply (reads_mark _ _ 60).
    exact (reads_bind _ _ _ _ reads_bitdepth (fun b => reads_vec _ _ (reads_run b) (run_nonempty Readable b))).
  - intros x bs _ (m & rest & -> & Hm & b & ba & bb & -> & Hb & Hx). exists b, m, ba, bb. auto.
  - intros x bs (b & m & tag & rest & -> & Hm & Hb & Hx). exists m, (tag ++ rest). split; [reflexivity|]. split; [exact Hm|].
    exists b, tag, rest. auto.
Qed.

Lemma reads_freq : reads dec_freq (frequency Readable).
Proof.
  unfold dec_freq. eapply reads_iff.
  - exact (reads_bind _ _ _ _ (reads_number W16) (fun ps => reads_bind _ _ _ _ reads_f32 (fun r =>
      reads_map _ _ (fun i => {| fq_pos := ps; fq_re := r; fq_im := i |}) reads_f32))).
  - intros f bs _ (ps & ba & bb & -> & Hp & r & bc & bd & -> & Hr & i & -> & Hi). exists ba, bc, bd. auto.
  - intros [ps r i] bs (ba & bb & bc & -> & Hp & Hr & Hi). exists ps, ba, (bb ++ bc). repeat split; [exact Hp|].
    exists r, bb, bc. repeat split; [exact Hr|]. now exists i.
Qed.
Lemma frequency_nonempty u f bs : frequency u f bs -> bs <> [].
Proof. intros (v & r & i & -> & Hv & _). apply number_nonempty in Hv. destruct v; [congruence|discriminate]. Qed.

Lemma reads_fft : reads dec_fft (fun c bs => ff_error c = None /\ fft_layout Readable (ff_freqs c) (ff_max c) (ff_min c) bs).
Proof.
  unfold dec_fft. eapply reads_iff.
  - eapply (reads_mark _ _ 15).
    exact (reads_bind _ _ _ _ (reads_vec _ _ reads_freq (frequency_nonempty Readable)) (fun fs =>
      reads_bind _ _ _ _ reads_f32 (fun mx => reads_map _ _ (fun mn =>
        {| ff_freqs := fs; ff_max := mx; ff_min := mn; ff_error := None |}) reads_f32))).
  - intros c bs _ (m & rest & -> & Hm & fs & ba & bb & -> & Hf & mx & bc & bd & -> & Hx & mn & -> & Hn).
    split; [reflexivity|]. exists m, ba, bc, bd. auto 10.
  - intros [fs mx mn er] bs (He & m & ba & bc & bd & -> & Hm & Hf & Hx & Hn). cbn [ff_error ff_freqs ff_max ff_min] in *. subst er.
    exists m, (ba ++ bc ++ bd). split; [reflexivity|]. split; [exact Hm|]. exists fs, ba, (bc ++ bd). split; [reflexivity|]. split; [exact Hf|].
    exists mx, bc, bd. split; [reflexivity|]. split; [exact Hx|]. now exists mn.
Qed.

Lemma reads_poly : reads dec_poly (fun c bs => pl_error c = None /\
  interpolation_layout Readable (pl_id c) (pl_bitdepth c) (pl_points c) (pl_min c) (pl_max c) (pl_step c) bs).
Proof.
  unfold dec_poly. eapply reads_iff.
  - exact (reads_bind _ _ _ _ reads_ptype (fun id => reads_bind _ _ _ _ reads_bitdepth (fun b =>
      reads_bind _ _ _ _ (reads_vec _ _ (reads_sample b) (sample_nonempty Readable b)) (fun pts =>
      reads_bind _ _ _ _ reads_f64 (fun mn => reads_bind _ _ _ _ reads_f64 (fun mx =>
      reads_map _ _ (fun st => {| pl_id := id; pl_points := pts; pl_min := mn; pl_max := mx; pl_step := st;
          pl_error := None; pl_bitdepth := b |}) reads_u8)))))).
  - intros c bs _ (id & b1 & r1 & -> & H1 & b & b2 & r2 & -> & H2 & pts & b3 & r3 & -> & H3 & mn & b4 & r4 & -> & H4
      & mx & b5 & r5 & -> & H5 & st & -> & -> & H6).
    split; [reflexivity|]. exists b1, b2, b3, b4, b5. auto 10.
  - intros [id pts mn mx st er b] bs (He & b1 & b2 & b3 & b4 & b5 & -> & H1 & H2 & H3 & H4 & H5 & H6).
    cbn [pl_id pl_points pl_min pl_max pl_step pl_error pl_bitdepth] in *. subst er.
    exists id, b1, (b2 ++ b3 ++ b4 ++ b5 ++ [st]). split; [reflexivity|]. split; [exact H1|].
    exists b, b2, (b3 ++ b4 ++ b5 ++ [st]). split; [reflexivity|]. split; [exact H2|].
    exists pts, b3, (b4 ++ b5 ++ [st]). split; [reflexivity|]. split; [exact H3|].
    exists mn, b4, (b5 ++ [st]). split; [reflexivity|]. split; [exact H4|].
    exists mx, b5, [st]. split; [reflexivity|]. split; [exact H5|]. exists st. auto.
Qed.

(** Frames and streams. *)
Lemma reads_bytes : reads dec_bytes (fun l bs => exists n, bs = n ++ l /\ number Readable W64 (Z.of_nat (length l)) n /\ Forall is_byte l).
Proof.
  unfold dec_bytes. split.
  - intros bs l rest Hb H. unfold dbind in H. destruct (dec_u64 bs) as [n r|e] eqn:En; [|discriminate H].
    destruct (rd_sound _ _ (reads_number W64) bs n r Hb En) as (fn & -> & Hn).
    apply Forall_app in Hb. destruct Hb as [_ Hb]. pose proof (number_range _ _ _ _ Hn) as Hr.
    destruct (Z.of_nat (length r) <? n); [discriminate H|].
    destruct (rd_sound _ _ (reads_take (Z.to_nat n)) r l rest Hb H) as (f & -> & -> & Hl & Hf).
    exists (fn ++ l). split; [now rewrite app_assoc|]. exists fn. rewrite Hl, Z2Nat.id by lia. auto.
  - intros f l rest (n & -> & Hn & Hl). unfold dbind. rewrite <- app_assoc.
    change dec_u64 with (dec_varint (wnum W64)). rewrite (rd_complete _ _ (reads_number W64) n _ _ Hn).
    assert (Z.of_nat (length (l ++ rest)) <? Z.of_nat (length l) = false) as -> by (rewrite app_length; lia).
    rewrite Nat2Z.id. apply dec_take_app.
Qed.

Lemma reads_frame : reads dec_frame (frame_bytes Readable).
Proof.
  unfold dec_frame. eapply reads_iff.
  - exact (reads_bind _ _ _ _ (reads_number W64) (fun s => reads_bind _ _ _ _ (reads_number W64) (fun n =>
      reads_bind _ _ _ _ reads_compressor (fun c => reads_map _ _ (fun d =>
      {| fr_size := s; fr_samples := n; fr_compressor := c; fr_data := d |}) reads_bytes)))).
  - intros f bs _ (s & b1 & r1 & -> & H1 & n & b2 & r2 & -> & H2 & c & b3 & r3 & -> & H3 & d & -> & len & -> & H4 & H5).
    exists b1, b2, b3, len. auto 10.
  - intros [s n c d] bs (b1 & b2 & b3 & len & -> & H1 & H2 & H3 & H4 & H5). cbn [fr_size fr_samples fr_compressor fr_data] in *.
    exists s, b1, (b2 ++ b3 ++ len ++ d). split; [reflexivity|]. split; [exact H1|].
    exists n, b2, (b3 ++ len ++ d). split; [reflexivity|]. split; [exact H2|].
    exists c, b3, (len ++ d). split; [reflexivity|]. split; [exact H3|]. exists d. split; [reflexivity|]. now exists len.
Qed.
Lemma frame_bytes_nonempty u f bs : frame_bytes u f bs -> bs <> [].
Proof. intros (v & n & c & len & -> & Hv & _). apply number_nonempty in Hv. destruct v; [congruence|discriminate]. Qed.
Lemma frame_bytes_bytes u f bs : frame_bytes u f bs -> bytes_ok bs.
Proof.
  intros (v & n & c & len & -> & H1 & H2 & H3 & H4 & H5). unfold bytes_ok. rewrite !Forall_app.
  apply number_bytes in H1, H2, H3, H4. split; [exact H1|]. split; [exact H2|]. split; [exact H3|]. split; [exact H4|exact H5].
Qed.
Lemma frame_bytes_ok u f bs : frame_bytes u f bs -> frame_ok f.
Proof.
  intros (v & n & c & len & -> & H1 & H2 & H3 & H4 & H5).
  apply number_range in H1, H2, H4. repeat split; try lia; assumption.
Qed.

Definition reads_frames : reads (dec_vec dec_frame) (sequence Readable (frame_bytes Readable)) :=
  reads_vec dec_frame _ reads_frame (frame_bytes_nonempty Readable).

Lemma compressor_number_range c : 0 <= compressor_number c <= 250.
Proof. destruct c; cbn; lia. Qed.

Lemma frame_written f : frame_ok f -> frame_bytes Written f (enc_frame f).
Proof.
  intros (H1 & H2 & H3 & H4). unfold enc_frame, enc_bytes.
  exists (enc_usize (fr_size f)), (enc_usize (fr_samples f)), (enc_compressor (fr_compressor f)), (enc_u64 (Z.of_nat (length (fr_data f)))).
  split; [reflexivity|]. split; [apply number_written; exact H1|]. split; [apply number_written; exact H2|].
  split; [|split; [apply number_written; lia|exact H3]].
  unfold enc_compressor. replace (compressor_tag (fr_compressor f)) with (compressor_number (fr_compressor f)) by (destruct (fr_compressor f); reflexivity).
  apply number_written. pose proof (compressor_number_range (fr_compressor f)). lia.
Qed.
Lemma frame_unique f bs : frame_bytes Written f bs -> bs = enc_frame f.
Proof.
  intros (v & n & c & len & -> & H1 & H2 & H3 & H4 & H5). apply number_unique in H1, H2, H3, H4. subst.
  unfold enc_frame, enc_bytes, enc_compressor.
  replace (compressor_tag (fr_compressor f)) with (compressor_number (fr_compressor f)) by (destruct (fr_compressor f); reflexivity).
  reflexivity.
Qed.

(** The shortest spelling is the written one. *)
Lemma number_shortest u w z bs : number u w z bs -> (length (enc_varint z) <= length bs)%nat.
Proof.
  intros H. pose proof (number_range _ _ _ _ H) as Hr. unfold enc_varint.
  destruct H as [z Hz|z b0 b1 Hb Hz Hu|z b0 b1 b2 b3 Hw Hb Hz Hu|z b0 b1 b2 b3 b4 b5 b6 b7 Hw Hb Hz Hu].
  - assert (z <=? 250 = true) as -> by lia. cbn; lia.
  - destruct (z <=? 250); [cbn; lia|].
    pose proof (le_val_range [b0; b1] Hb) as Hv. cbn [length le_val] in Hv. change (256 ^ Z.of_nat 2) with (2 ^ 16) in Hv.
    assert (z <? 2 ^ 16 = true) as -> by lia. cbn [length]. rewrite le_bytes_length. lia.
  - destruct (z <=? 250); [cbn; lia|]. destruct (z <? 2 ^ 16); [cbn [length]; rewrite le_bytes_length; lia|].
    pose proof (le_val_range [b0; b1; b2; b3] Hb) as Hv. cbn [length le_val] in Hv. change (256 ^ Z.of_nat 4) with (2 ^ 32) in Hv.
    assert (z <? 2 ^ 32 = true) as -> by lia. cbn [length]. rewrite le_bytes_length. lia.
  - destruct (z <=? 250); [cbn; lia|]. destruct (z <? 2 ^ 16); [cbn [length]; rewrite le_bytes_length; lia|].
    destruct (z <? 2 ^ 32); cbn [length]; rewrite le_bytes_length; lia.
Qed.
Lemma frame_shortest u f bs : frame_bytes u f bs -> (length (enc_frame f) <= length bs)%nat.
Proof.
  intros (v & n & c & len & -> & H1 & H2 & H3 & H4 & H5). apply number_shortest in H1, H2, H3, H4.
  unfold enc_frame, enc_bytes, enc_compressor, enc_usize, enc_u32, enc_u64.
  replace (compressor_tag (fr_compressor f)) with (compressor_number (fr_compressor f)) by (destruct (fr_compressor f); reflexivity).
  rewrite !app_length. lia.
Qed.
Lemma frames_shortest u l bs : sequence u (frame_bytes u) l bs -> (length (enc_vec enc_frame l) <= length bs)%nat.
Proof.
  intros (n & body & -> & Hn & Hi). apply number_shortest in Hn. unfold enc_vec, enc_u64. rewrite !app_length.
  enough (length (flat_map enc_frame l) <= length body)%nat by lia. clear Hn n.
  induction Hi as [|a l b bs Ha Hl IH]; [cbn; lia|]. cbn [flat_map]. rewrite !app_length. apply frame_shortest in Ha. lia.
Qed.

Lemma header_iff b0 b1 b2 b3 v0 v1 v2 v3 n h : Forall is_byte [v0; v1; v2; v3; n] ->
  header_from_bytes [b0; b1; b2; b3; v0; v1; v2; v3; n] = Ok h <->
  [b0; b1; b2; b3] = [66; 82; 82; 79] /\ h_frames h = n /\ h_version h = v0 + 256 * (v1 + 256 * (v2 + 256 * v3)) /\ h_version h <= 1.
Proof.
  intros Hb. unfold header_from_bytes. cbn [firstn skipn nth].
  destruct (list_eq_dec Z.eq_dec [b0; b1; b2; b3] BRRO) as [E|E]; cbn [negb].
  - unfold CURRENT_VERSION. cbn [le_val]. destruct (1 <? _) eqn:Ev; split.
    + intros H. discriminate H.
    + intros (_ & _ & H1 & H2). lia.
    + intros H. apply ok_inj in H. subst h. cbn [h_frames h_version]. repeat split; [exact E|lia|lia].
    + intros (_ & H1 & H2 & H3). f_equal. destruct h as [hv hf]. cbn [h_version h_frames] in *. subst n. f_equal. lia.
  - split; [intros H; discriminate H|]. intros (H & _). now destruct E.
Qed.

Lemma reads_stream bytes s : bytes_ok bytes ->
  (stream_from_bytes bytes = Ok s <->
   h_version (s_header s) <= 1 /\ exists front rest, bytes = front ++ rest /\ stream_bytes Readable s front).
Proof.
  intros Hb. unfold stream_from_bytes. split.
  - destruct (length bytes <? 9)%nat eqn:E; [intros H; discriminate H|]. apply Nat.ltb_ge in E.
    destruct bytes as [|b0 [|b1 [|b2 [|b3 [|v0 [|v1 [|v2 [|v3 [|n bytes]]]]]]]]]; cbn [length] in E; try lia.
    cbn [firstn skipn]. destruct (header_from_bytes _) as [h|] eqn:Eh; cbn [bind]; [|intros H; discriminate H].
    assert (H5 : Forall is_byte [v0; v1; v2; v3; n]).
    { pose proof Hb as Hc. do 4 apply Forall_inv_tail in Hc.
      change (Forall byte_ok ([v0; v1; v2; v3; n] ++ bytes)) in Hc. apply Forall_app in Hc. exact (proj1 Hc). }
    apply header_iff in Eh; [|exact H5]. destruct Eh as (Em & En & Ev & Ev1).
    assert (Hb' : bytes_ok bytes) by (do 9 apply Forall_inv_tail in Hb; exact Hb).
    unfold decode_unwrap. destruct (dec_vec dec_frame bytes) as [fs r|er] eqn:Ef; cbn [bind]; [|intros H; discriminate H].
    intros H. apply ok_inj in H. subst s. cbn [s_header s_frames]. split; [exact Ev1|].
    destruct (rd_sound _ _ reads_frames bytes fs r Hb' Ef) as (f & -> & Hf).
    exists ([66; 82; 82; 79] ++ [v0; v1; v2; v3] ++ [h_frames h] ++ f), r.
    split; [rewrite <- !app_assoc, <- Em, En; reflexivity|].
    exists v0, v1, v2, v3, f. cbn [s_header s_frames]. rewrite En in *. auto.
  - intros (Hv & front & rest & -> & v0 & v1 & v2 & v3 & body & -> & Hvb & Hver & Hf).
    rewrite <- !app_assoc. cbn [app]. cbn [length Nat.ltb Nat.leb firstn skipn].
    destruct s as [h fs]. cbn [s_header s_frames] in *.
    assert (header_from_bytes [66; 82; 82; 79; v0; v1; v2; v3; h_frames h] = Ok h) as ->.
    { apply header_iff; [exact Hvb|]. auto. }
    cbn [bind]. rewrite (decode_unwrap_ok _ _ fs rest); [reflexivity|]. apply (rd_complete _ _ reads_frames), Hf.
Qed.

(** What the compressors write. *)
Lemma noop_written data : Z.of_nat (length data) < 2 ^ 64 -> noop_layout Written (noop_optimize data) (noop data).
Proof.
  intros Hl. unfold noop. exists NOOP_COMPRESSOR_ID, (enc_vec enc_i64 (noop_optimize data)).
  split; [reflexivity|]. split; [reflexivity|].
  apply (sequence_written enc_i64 _ (in_s 64)).
  - intros z Hz. exact (signed_written W64 z Hz).
  - apply Forall_map, Forall_forall. intros x _. unfold in_s, f64_as_i64.
    pose proof (f64_as_int_range (- 2 ^ 63) (2 ^ 63 - 1) (fround x)). lia.
  - unfold noop_optimize. now rewrite map_length.
Qed.
Lemma width_written b : number Written W32 (width_tag b) (enc_bitdepth b).
Proof. destruct b; apply number1; cbn; lia. Qed.
Lemma constant_written b x : constant_layout Written b x (enc_constant b x).
Proof.
  unfold enc_constant. exists CONSTANT_COMPRESSOR_ID, (enc_bitdepth b), (enc_sample b x). split; [reflexivity|].
  split; [reflexivity|]. split; [apply width_written|apply sample_written].
Qed.
Lemma rle_written b data : Z.of_nat (length data) < 2 ^ 64 -> rle_layout Written b (rle_new data) (enc_rle b (rle_new data)).
Proof.
  intros Hl. destruct (rle_map_ok b data Hl) as [HF HL]. rewrite map_length in HL. rewrite Forall_map in HF.
  unfold enc_rle. exists RLE_COMPRESSOR_ID, (enc_bitdepth b), (enc_vec (enc_rle_entry b) (rle_new data)). split; [reflexivity|].
  split; [reflexivity|]. split; [apply width_written|].
  apply (sequence_written (enc_rle_entry b) _ (fun e => vec_ok (in_u 64) (snd e))).
  - intros [v idx] [H1 H2]. unfold enc_rle_entry. exists (enc_sample b v), (enc_vec enc_usize idx). split; [reflexivity|].
    cbn [fst snd] in *. split; [apply sample_written|].
    apply (sequence_written enc_usize _ (in_u 64)); [intros z Hz; apply number_written; exact Hz|exact H1|exact H2].
  - eapply Forall_impl; [|exact HF]. intros [v idx] [_ H]. exact H.
  - exact HL.
Qed.
Lemma fft_written c : Forall (fun f => in_u 16 (fq_pos f)) (ff_freqs c) -> Z.of_nat (length (ff_freqs c)) < 2 ^ 64 ->
  fft_layout Written (ff_freqs c) (ff_max c) (ff_min c) (enc_fft c).
Proof.
  intros HF HL. unfold enc_fft. exists FFT_COMPRESSOR_ID, (enc_vec enc_freq (ff_freqs c)), (enc_f32 (ff_max c)), (enc_f32 (ff_min c)).
  split; [reflexivity|]. split; [reflexivity|]. split; [|split; now apply single_iff].
  apply (sequence_written enc_freq _ (fun f => in_u 16 (fq_pos f))); [|exact HF|exact HL].
  intros f Hf. exists (enc_u16 (fq_pos f)), (enc_f32 (fq_re f)), (enc_f32 (fq_im f)). split; [reflexivity|].
  split; [apply number_written; exact Hf|]. split; now apply single_iff.
Qed.
Lemma poly_written c : Z.of_nat (length (pl_points c)) < 2 ^ 64 -> 0 <= pl_step c < 256 ->
  interpolation_layout Written (pl_id c) (pl_bitdepth c) (pl_points c) (pl_min c) (pl_max c) (pl_step c) (enc_poly c).
Proof.
  intros HL Hs. unfold enc_poly. exists (enc_ptype (pl_id c)), (enc_bitdepth (pl_bitdepth c)),
    (enc_vec (enc_sample (pl_bitdepth c)) (pl_points c)), (enc_f64 (pl_min c)), (enc_f64 (pl_max c)). split; [reflexivity|].
  split; [destruct (pl_id c); apply number1; lia|]. split; [apply width_written|].
  split; [|split; [now apply double_iff|split; [now apply double_iff|exact Hs]]].
  apply (sequence_written (enc_sample (pl_bitdepth c)) _ (fun _ => True)); [|now apply Forall_forall|exact HL].
  intros x _. apply sample_written.
Qed.
