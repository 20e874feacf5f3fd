(** Round-trip and prefix-rejection lemmas for the wire format. *)
From Coq Require Import List ZArith Bool Lia.
From Coq Require Import ZifyBool.
From Flocq Require Import IEEE754.Binary IEEE754.Bits.
From Verif Require Import Base Model_Float Model_Bincode.
Import ListNotations.
Open Scope Z_scope.

(** [p] is a strict prefix of [l]. *)
Definition strict_prefix (p l : list Z) : Prop := exists x t, l = p ++ x :: t.

Lemma strict_prefix_app p l1 l2 :
  strict_prefix p (l1 ++ l2) ->
  strict_prefix p l1 \/ exists q, p = l1 ++ q /\ strict_prefix q l2.
Proof.
  revert p. induction l1 as [|a l1 IH]; intros p (x & t & H).
  - right. exists p. split; [reflexivity|]. exists x, t. exact H.
  - destruct p as [|b p].
    + left. exists a, l1. reflexivity.
    + cbn in H. injection H as Hab H. subst b.
      destruct (IH p) as [(y & u & Hy)|(q & Hq & y & u & Hy)].
      * exists x, t. exact H.
      * left. exists y, u. cbn. now rewrite Hy.
      * right. exists q. split; [cbn; now rewrite Hq|]. exists y, u. exact Hy.
Qed.

Lemma strict_prefix_nil p : ~ strict_prefix p [].
Proof. intros (x & t & H). destruct p; discriminate. Qed.

Lemma strict_prefix_one p b : strict_prefix p [b] -> p = [].
Proof. intros (x & t & H). destruct p as [|a [|c p]]; [reflexivity| |]; discriminate. Qed.

(** A codec: decoding an encoding followed by anything returns the value and the rest;
    decoding any strict prefix of an encoding fails; encodings are non-empty bytes. *)
Record codec {A} (enc : A -> list Z) (dec : decoder A) (P : A -> Prop) : Prop := {
  cd_round : forall a rest, P a -> dec (enc a ++ rest) = DOk a rest;
  cd_prefix : forall a p, P a -> strict_prefix p (enc a) -> exists e, dec p = DErr e;
  cd_nonempty : forall a, P a -> enc a <> [];
  cd_bytes : forall a, P a -> bytes_ok (enc a)
}.

Lemma codec_weaken {A} enc dec (P Q : A -> Prop) :
  codec enc dec P -> (forall a, Q a -> P a) -> codec enc dec Q.
Proof. intros [r p n b] H. split; intros; eauto. Qed.

Lemma le_bytes_length n z : length (le_bytes n z) = n.
Proof. revert z; induction n; intros; cbn; auto. Qed.

Lemma le_bytes_ok n z : bytes_ok (le_bytes n z).
Proof.
  revert z; induction n as [|n IH]; intros z; cbn; constructor.
  - unfold byte_ok. apply Z.mod_pos_bound. lia.
  - apply IH.
Qed.

Lemma le_val_le_bytes n z : 0 <= z < 256 ^ Z.of_nat n -> le_val (le_bytes n z) = z.
Proof.
  revert z; induction n as [|n IH]; intros z Hz.
  - cbn in *. lia.
  - cbn [le_bytes le_val]. rewrite IH.
    + pose proof (Z.div_mod z 256). lia.
    + rewrite Nat2Z.inj_succ, Z.pow_succ_r in Hz by lia.
      split; [apply Z.div_pos; lia|apply Z.div_lt_upper_bound; lia].
Qed.

Lemma le_val_range l : bytes_ok l -> 0 <= le_val l < 256 ^ Z.of_nat (length l).
Proof.
  induction 1 as [|b l Hb Hl IH]; cbn [le_val length].
  - cbn. lia.
  - unfold byte_ok in Hb. rewrite Nat2Z.inj_succ, Z.pow_succ_r by lia. lia.
Qed.

Lemma le_bytes_le_val l : bytes_ok l -> le_bytes (length l) (le_val l) = l.
Proof.
  induction 1 as [|b l Hb Hl IH]; cbn [le_val length le_bytes]; [reflexivity|].
  unfold byte_ok in Hb.
  replace (b + 256 * le_val l) with (b + le_val l * 256) by lia.
  rewrite Z_mod_plus_full, Z.mod_small by lia.
  rewrite Z_div_plus_full by lia. rewrite Z.div_small by lia.
  cbn. now rewrite IH.
Qed.

Lemma dec_take_app l rest : dec_take (length l) (l ++ rest) = DOk l rest.
Proof. induction l as [|a l IH]; cbn; [reflexivity|]. now rewrite IH. Qed.

Lemma dec_take_short n p : (length p < n)%nat -> dec_take n p = DErr UnexpectedEnd.
Proof.
  revert p; induction n as [|n IH]; intros p H; [lia|].
  destruct p as [|a p]; [reflexivity|]. cbn. rewrite IH; [reflexivity|cbn in H; lia].
Qed.

Lemma strict_prefix_length p l : strict_prefix p l -> (length p < length l)%nat.
Proof. intros (x & t & ->). rewrite app_length. cbn. lia. Qed.

Lemma codec_u8 : codec enc_u8 dec_u8 byte_ok.
Proof.
  split; intros a.
  - reflexivity.
  - intros p _ H. apply strict_prefix_one in H. subst. now exists UnexpectedEnd.
  - intros _; discriminate.
  - intros H. repeat constructor; apply H.
Qed.

Lemma dec_fixed_round n z rest (f : list Z -> Z) :
  (forall l, f l = le_val l) -> 0 <= z < 256 ^ Z.of_nat n ->
  (dlet l <- dec_take n; dret (f l)) (le_bytes n z ++ rest) = DOk z rest.
Proof.
  intros Hf Hz. unfold dbind.
  pose proof (dec_take_app (le_bytes n z) rest) as H. rewrite le_bytes_length in H.
  rewrite H. unfold dret. now rewrite Hf, le_val_le_bytes.
Qed.

(** Range of the values a varint decoder of width class [w] accepts. *)
Definition varint_max (w : Z) : Z := if w =? 1 then 2 ^ 16 else if w =? 2 then 2 ^ 32 else 2 ^ 64.

Lemma codec_varint w : 1 <= w <= 3 -> codec enc_varint (dec_varint w) (fun z => 0 <= z < varint_max w).
Proof.
  intros Hw. split; intros z.
  - intros rest Hz. unfold enc_varint, dec_varint.
    destruct (z <=? 250) eqn:E1.
    { cbn [app]. unfold dbind at 1. cbn [dec_u8]. now rewrite E1. }
    destruct (z <? 2 ^ 16) eqn:E2.
    { cbn [app]. unfold dbind at 1. cbn [dec_u8].
      change (251 <=? 250) with false. change (251 =? 251) with true. cbv iota.
      apply (dec_fixed_round 2 z rest le_val); [reflexivity|]. cbn. lia. }
    destruct (z <? 2 ^ 32) eqn:E3.
    { cbn [app]. unfold dbind at 1. cbn [dec_u8].
      change (252 <=? 250) with false. change (252 =? 251) with false.
      change (252 =? 252) with true. cbv iota.
      assert (2 <=? w = true) as ->.
      { unfold varint_max in Hz. destruct (w =? 1) eqn:?; lia. }
      cbn [andb]. apply (dec_fixed_round 4 z rest le_val); [reflexivity|]. cbn. lia. }
    cbn [app]. unfold dbind at 1. cbn [dec_u8].
    change (253 <=? 250) with false. change (253 =? 251) with false.
    change (253 =? 252) with false. change (253 =? 253) with true. cbv iota. cbn [andb].
    assert (3 <=? w = true) as ->.
    { unfold varint_max in Hz. destruct (w =? 1) eqn:?; [lia|]. destruct (w =? 2) eqn:?; lia. }
    apply (dec_fixed_round 8 z rest le_val); [reflexivity|].
    unfold varint_max in Hz. change (256 ^ Z.of_nat 8) with (2 ^ 64).
    destruct (w =? 1); [lia|]. destruct (w =? 2); lia.
  - intros p Hz Hp. unfold enc_varint in Hp.
    assert (Hcut : forall m n, strict_prefix p (m :: le_bytes n z) ->
      p = [] \/ exists q, p = m :: q /\ (length q < n)%nat).
    { intros m n H. apply (strict_prefix_app p [m] (le_bytes n z)) in H.
      destruct H as [H|(q & -> & H)].
      - left. now apply strict_prefix_one in H.
      - right. exists q. split; [reflexivity|]. apply strict_prefix_length in H.
        now rewrite le_bytes_length in H. }
    destruct (z <=? 250) eqn:E1.
    { apply strict_prefix_one in Hp. subst. now exists UnexpectedEnd. }
    destruct (z <? 2 ^ 16) eqn:E2.
    { destruct (Hcut _ _ Hp) as [->|(q & -> & Hq)]; [now exists UnexpectedEnd|].
      exists UnexpectedEnd. unfold dec_varint, dbind at 1. cbn [dec_u8].
      change (251 <=? 250) with false. change (251 =? 251) with true. cbv iota.
      unfold dbind. now rewrite dec_take_short. }
    destruct (z <? 2 ^ 32) eqn:E3.
    { destruct (Hcut _ _ Hp) as [->|(q & -> & Hq)]; [now exists UnexpectedEnd|].
      unfold dec_varint, dbind at 1. cbn [dec_u8].
      change (252 <=? 250) with false. change (252 =? 251) with false.
      change (252 =? 252) with true. change (252 =? 253) with false. cbv iota. cbn [andb].
      destruct (2 <=? w).
      - exists UnexpectedEnd. unfold dbind. now rewrite dec_take_short.
      - now exists InvalidIntegerType. }
    destruct (Hcut _ _ Hp) as [->|(q & -> & Hq)]; [now exists UnexpectedEnd|].
    unfold dec_varint, dbind at 1. cbn [dec_u8].
    change (253 <=? 250) with false. change (253 =? 251) with false.
    change (253 =? 252) with false. change (253 =? 253) with true. cbv iota. cbn [andb].
    destruct (3 <=? w).
    + exists UnexpectedEnd. unfold dbind. now rewrite dec_take_short.
    + now exists InvalidIntegerType.
  - intros _. unfold enc_varint.
    destruct (z <=? 250); [discriminate|]. destruct (z <? 2 ^ 16); [discriminate|].
    destruct (z <? 2 ^ 32); discriminate.
  - intros Hz. unfold enc_varint.
    destruct (z <=? 250) eqn:E1; [constructor; [unfold byte_ok; lia|constructor]|].
    destruct (z <? 2 ^ 16) eqn:E2.
    { constructor; [unfold byte_ok; lia|apply le_bytes_ok]. }
    destruct (z <? 2 ^ 32) eqn:E3.
    { constructor; [unfold byte_ok; lia|apply le_bytes_ok]. }
    constructor; [unfold byte_ok; lia|apply le_bytes_ok].
Qed.

Lemma codec_u16 : codec enc_u16 dec_u16 (in_u 16).
Proof. exact (codec_varint 1 ltac:(lia)). Qed.
Lemma codec_u32 : codec enc_u32 dec_u32 (in_u 32).
Proof. exact (codec_varint 2 ltac:(lia)). Qed.
Lemma codec_u64 : codec enc_u64 dec_u64 (in_u 64).
Proof. exact (codec_varint 3 ltac:(lia)). Qed.
Lemma codec_usize : codec enc_usize dec_usize (in_u 64).
Proof. exact (codec_varint 3 ltac:(lia)). Qed.

Lemma unzigzag_zigzag z : unzigzag (zigzag z) = z.
Proof.
  unfold zigzag, unzigzag. destruct (z <? 0) eqn:E.
  - replace (- 2 * z - 1) with (2 * (- z - 1) + 1) by lia.
    rewrite Z.even_add_mul_2 || idtac.
    replace (Z.even (2 * (- z - 1) + 1)) with false.
    + replace (2 * (- z - 1) + 1) with (1 + (- z - 1) * 2) by lia.
      rewrite Z_div_plus_full by lia. change (1 / 2) with 0. lia.
    + symmetry. rewrite Z.even_add, Z.even_mul. reflexivity.
  - rewrite Z.even_mul. cbn [Z.even orb].
    rewrite Z.mul_comm, Z_div_mult_full; lia.
Qed.

Lemma codec_int w bits : 1 <= w <= 3 -> 2 ^ bits = varint_max w -> 1 <= bits ->
  codec enc_int (dec_int w) (in_s bits).
Proof.
  intros Hw Hb Hbits.
  destruct (codec_varint w Hw) as [R P N B].
  assert (Hr : forall a, in_s bits a -> 0 <= zigzag a < varint_max w).
  { intros a [H1 H2]. rewrite <- Hb. unfold zigzag.
    replace bits with (Z.succ (bits - 1)) by lia. rewrite Z.pow_succ_r by lia.
    destruct (a <? 0) eqn:E; lia. }
  split; intros a.
  - intros rest Ha. unfold enc_int, dec_int, dbind.
    rewrite R by (apply Hr; exact Ha). unfold dret. now rewrite unzigzag_zigzag.
  - intros p Ha Hp. destruct (P (zigzag a) p (Hr a Ha) Hp) as [e He].
    exists e. unfold dec_int, dbind. now rewrite He.
  - intros Ha. apply N, Hr, Ha.
  - intros Ha. apply B, Hr, Ha.
Qed.

Lemma codec_i16 : codec enc_i16 dec_i16 (in_s 16).
Proof. apply (codec_int 1 16); reflexivity || lia. Qed.
Lemma codec_i32 : codec enc_i32 dec_i32 (in_s 32).
Proof. apply (codec_int 2 32); reflexivity || lia. Qed.
Lemma codec_i64 : codec enc_i64 dec_i64 (in_s 64).
Proof. apply (codec_int 3 64); reflexivity || lia. Qed.

Lemma to_bits_range x : 0 <= to_bits x < 2 ^ 64.
Proof. exact (bits_of_binary_float_range 52 11 eq_refl eq_refl x). Qed.

Lemma from_bits_to_bits x : from_bits (to_bits x) = x.
Proof. exact (binary_float_of_bits_of_binary_float 52 11 eq_refl eq_refl eq_refl x). Qed.

Lemma to_bits_from_bits z : 0 <= z < 2 ^ 64 -> to_bits (from_bits z) = z.
Proof. exact (bits_of_binary_float_of_bits 52 11 eq_refl eq_refl eq_refl z). Qed.

Lemma f32_to_bits_range x : 0 <= f32_to_bits x < 2 ^ 32.
Proof. exact (bits_of_binary_float_range 23 8 eq_refl eq_refl x). Qed.

Lemma f32_from_bits_to_bits x : f32_from_bits (f32_to_bits x) = x.
Proof. exact (binary_float_of_bits_of_binary_float 23 8 eq_refl eq_refl eq_refl x). Qed.

Lemma to_bits_inj x y : to_bits x = to_bits y -> x = y.
Proof. intros H. rewrite <- (from_bits_to_bits x), <- (from_bits_to_bits y). now rewrite H. Qed.

Lemma codec_f64 : codec enc_f64 dec_f64 (fun _ => True).
Proof.
  split; intros a.
  - intros rest _. unfold enc_f64, dec_f64, dbind.
    pose proof (dec_take_app (le_bytes 8 (to_bits a)) rest) as H.
    rewrite le_bytes_length in H. rewrite H. unfold dret.
    rewrite le_val_le_bytes by exact (to_bits_range a). now rewrite from_bits_to_bits.
  - intros p _ Hp. exists UnexpectedEnd. unfold dec_f64, dbind.
    rewrite dec_take_short; [reflexivity|].
    apply strict_prefix_length in Hp. unfold enc_f64 in Hp. now rewrite le_bytes_length in Hp.
  - intros _. unfold enc_f64. cbn [le_bytes]. discriminate.
  - intros _. apply le_bytes_ok.
Qed.

Lemma codec_f32 : codec enc_f32 dec_f32 (fun _ => True).
Proof.
  split; intros a.
  - intros rest _. unfold enc_f32, dec_f32, dbind.
    pose proof (dec_take_app (le_bytes 4 (f32_to_bits a)) rest) as H.
    rewrite le_bytes_length in H. rewrite H. unfold dret.
    rewrite le_val_le_bytes by exact (f32_to_bits_range a). now rewrite f32_from_bits_to_bits.
  - intros p _ Hp. exists UnexpectedEnd. unfold dec_f32, dbind.
    rewrite dec_take_short; [reflexivity|].
    apply strict_prefix_length in Hp. unfold enc_f32 in Hp. now rewrite le_bytes_length in Hp.
  - intros _. unfold enc_f32. cbn [le_bytes]. discriminate.
  - intros _. apply le_bytes_ok.
Qed.

(** Sequencing two codecs. *)
Lemma seq_round {A B C} (encA : A -> list Z) decA PA (encB : B -> list Z) decB PB (k : A -> B -> C)
  a b rest (HA : codec encA decA PA) (HB : codec encB decB PB) :
  PA a -> PB b ->
  (dlet x <- decA; dlet y <- decB; dret (k x y)) (encA a ++ encB b ++ rest) = DOk (k a b) rest.
Proof.
  intros Ha Hb. unfold dbind. rewrite (cd_round _ _ _ HA) by exact Ha.
  rewrite (cd_round _ _ _ HB) by exact Hb. reflexivity.
Qed.

Lemma bind_round {A B} (encA : A -> list Z) decA PA (f : A -> decoder B) a tail :
  codec encA decA PA -> PA a -> (dbind decA f) (encA a ++ tail) = f a tail.
Proof. intros H Ha. unfold dbind. now rewrite (cd_round _ _ _ H). Qed.

Lemma bind_prefix {A B} (encA : A -> list Z) decA PA (f : A -> decoder B) a tail p :
  codec encA decA PA -> PA a -> strict_prefix p (encA a ++ tail) ->
  (forall q, strict_prefix q tail -> exists e, f a q = DErr e) ->
  exists e, (dbind decA f) p = DErr e.
Proof.
  intros H Ha Hp Hf. apply strict_prefix_app in Hp. destruct Hp as [Hp|(q & -> & Hq)].
  - destruct (cd_prefix _ _ _ H a p Ha Hp) as [e He]. exists e. unfold dbind. now rewrite He.
  - rewrite (bind_round encA decA PA) by assumption. now apply Hf.
Qed.

(** Vectors. *)
Section Vec.
  Context {A : Type} (enc : A -> list Z) (dec : decoder A) (P : A -> Prop).
  Hypothesis HC : codec enc dec P.

  Lemma flat_map_length_ge l : Forall P l -> (length l <= length (flat_map enc l))%nat.
  Proof.
    induction 1 as [|a l Ha Hl IH]; cbn; [lia|]. rewrite app_length.
    pose proof (cd_nonempty _ _ _ HC a Ha). destruct (enc a); [congruence|cbn; lia].
  Qed.

  Lemma dec_loop_round l rest fuel :
    Forall P l -> (length l <= fuel)%nat ->
    dec_loop dec fuel (Z.of_nat (length l)) (flat_map enc l ++ rest) = DOk l rest.
  Proof.
    intros Hl. revert fuel. induction Hl as [|a l Ha Hl IH]; intros fuel Hf.
    - destruct fuel; reflexivity.
    - destruct fuel as [|fuel]; [cbn in Hf; lia|].
      cbn [dec_loop length]. rewrite Nat2Z.inj_succ.
      assert (Z.succ (Z.of_nat (length l)) <=? 0 = false) as -> by lia.
      cbn [flat_map]. rewrite <- app_assoc. rewrite (cd_round _ _ _ HC) by exact Ha.
      replace (Z.succ (Z.of_nat (length l)) - 1) with (Z.of_nat (length l)) by lia.
      rewrite IH by (cbn in Hf; lia). reflexivity.
  Qed.

  Lemma dec_loop_prefix l p fuel :
    Forall P l -> strict_prefix p (flat_map enc l) ->
    exists e, dec_loop dec fuel (Z.of_nat (length l)) p = DErr e.
  Proof.
    intros Hl. revert p fuel. induction Hl as [|a l Ha Hl IH]; intros p fuel Hp.
    - cbn in Hp. now apply strict_prefix_nil in Hp.
    - destruct fuel as [|fuel].
      + exists OutOfFuel. cbn [dec_loop length]. rewrite Nat2Z.inj_succ.
        assert (Z.succ (Z.of_nat (length l)) <=? 0 = false) as -> by lia. reflexivity.
      + cbn [dec_loop length]. rewrite Nat2Z.inj_succ.
        assert (Z.succ (Z.of_nat (length l)) <=? 0 = false) as -> by lia.
        cbn [flat_map] in Hp. apply strict_prefix_app in Hp.
        destruct Hp as [Hp|(q & -> & Hq)].
        * destruct (cd_prefix _ _ _ HC a p Ha Hp) as [e He]. exists e. now rewrite He.
        * rewrite (cd_round _ _ _ HC) by exact Ha.
          replace (Z.succ (Z.of_nat (length l)) - 1) with (Z.of_nat (length l)) by lia.
          destruct (IH q fuel Hq) as [e He]. exists e. now rewrite He.
  Qed.

  Definition vec_ok (l : list A) : Prop := Forall P l /\ Z.of_nat (length l) < 2 ^ 64.

  Lemma codec_vec : codec (enc_vec enc) (dec_vec dec) vec_ok.
  Proof.
    split.
    - intros l rest [Hl Hlen]. unfold enc_vec, dec_vec.
      rewrite <- app_assoc.
      rewrite (bind_round _ _ _ _ _ _ codec_u64) by (unfold in_u; lia).
      apply dec_loop_round; [exact Hl|].
      rewrite app_length. pose proof (flat_map_length_ge l Hl). lia.
    - intros l p [Hl Hlen] Hp. unfold enc_vec in Hp. unfold dec_vec.
      eapply (bind_prefix _ _ _ _ _ _ _ codec_u64); [|exact Hp|]; [unfold in_u; lia|].
      intros q Hq. apply dec_loop_prefix; assumption.
    - intros l [Hl Hlen]. unfold enc_vec.
      assert (enc_u64 (Z.of_nat (length l)) <> []) as H.
      { apply (cd_nonempty _ _ _ codec_u64). unfold in_u; lia. }
      destruct (enc_u64 (Z.of_nat (length l))); [congruence|discriminate].
    - intros l [Hl Hlen]. unfold enc_vec, bytes_ok. apply Forall_app. split.
      + apply (cd_bytes _ _ _ codec_u64). unfold in_u; lia.
      + clear Hlen. induction Hl as [|a l Ha Hl IH]; cbn; [constructor|].
        apply Forall_app. split; [|exact IH]. apply (cd_bytes _ _ _ HC a Ha).
  Qed.
End Vec.

Definition bytes_vec_ok (l : list Z) : Prop := bytes_ok l /\ Z.of_nat (length l) < 2 ^ 64.

Lemma codec_bytes : codec enc_bytes dec_bytes bytes_vec_ok.
Proof.
  split.
  - intros l rest [Hl Hlen]. unfold enc_bytes, dec_bytes. rewrite <- app_assoc.
    rewrite (bind_round _ _ _ _ _ _ codec_u64) by (unfold in_u; lia).
    assert (Z.of_nat (length (l ++ rest)) <? Z.of_nat (length l) = false) as ->
      by (rewrite app_length; lia).
    rewrite Nat2Z.id. apply dec_take_app.
  - intros l p [Hl Hlen] Hp. unfold dec_bytes.
    eapply (bind_prefix _ _ _ _ _ _ _ codec_u64); [|exact Hp|]; [unfold in_u; lia|].
    intros q Hq. exists UnexpectedEnd. apply strict_prefix_length in Hq.
    assert (Z.of_nat (length q) <? Z.of_nat (length l) = true) as -> by lia. reflexivity.
  - intros l [Hl Hlen]. unfold enc_bytes.
    assert (enc_u64 (Z.of_nat (length l)) <> []) as H.
    { apply (cd_nonempty _ _ _ codec_u64). unfold in_u; lia. }
    destruct (enc_u64 (Z.of_nat (length l))); [congruence|discriminate].
  - intros l [Hl Hlen]. unfold enc_bytes, bytes_ok. apply Forall_app. split; [|exact Hl].
    apply (cd_bytes _ _ _ codec_u64). unfold in_u; lia.
Qed.

Lemma decode_unwrap_ok {A} (d : decoder A) bs a rest :
  d bs = DOk a rest -> decode_unwrap d bs = Ok a.
Proof. intros H. unfold decode_unwrap. now rewrite H. Qed.
