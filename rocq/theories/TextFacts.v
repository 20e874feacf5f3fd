(** Decimal text: printing and parsing of numbers, lines and fields. *)
From Coq Require Import List ZArith Bool Lia ZifyBool.
From Verif Require Import Base Model_Vsri.
Import ListNotations.
Open Scope Z_scope.

Definition digit (c : Z) : Prop := 48 <= c <= 57.
Definition word (c : Z) : Prop := c = 45 \/ digit c.

Lemma digits_parse fuel : forall z, 0 <= z < 10 ^ Z.of_nat fuel -> (fuel <> 0)%nat ->
  Forall digit (digits_fuel fuel z) /\ digits_fuel fuel z <> [] /\
  forall r acc, parse_digits (digits_fuel fuel z ++ r) acc = parse_digits r (acc * 10 ^ Z.of_nat (length (digits_fuel fuel z)) + z).
Proof.
  induction fuel as [|k IH]; intros z Hz Hf; [lia|]. cbn [digits_fuel]. destruct (z <? 10) eqn:E.
  - split; [constructor; [unfold digit; lia|constructor]|]. split; [discriminate|]. intros r acc. cbn [app parse_digits length].
    unfold is_digit. replace ((48 <=? 48 + z) && (48 + z <=? 57)) with true by lia. f_equal. lia.
  - rewrite Nat2Z.inj_succ, Z.pow_succ_r in Hz by lia.
    assert (Hk : (k <> 0)%nat) by (intros ->; cbn in Hz; lia).
    destruct (IH (z / 10)) as (I1 & I2 & I3); [|exact Hk|].
    { split; [apply Z.div_pos; lia|apply Z.div_lt_upper_bound; lia]. }
    assert (M := Z.mod_pos_bound z 10 ltac:(lia)).
    split; [apply Forall_app; split; [exact I1|constructor; [unfold digit; lia|constructor]]|].
    split; [intros H; apply app_eq_nil in H; destruct H as [_ H]; discriminate H|]. intros r acc.
    rewrite <- app_assoc. rewrite I3. cbn [app parse_digits]. unfold is_digit. replace ((48 <=? 48 + z mod 10) && (48 + z mod 10 <=? 57)) with true by lia.
    f_equal. rewrite app_length. cbn [length]. rewrite Nat2Z.inj_add, Z.pow_add_r by lia. cbn [Z.of_nat Z.pow Z.pow_pos Pos.iter].
    assert (D := Z.div_mod z 10 ltac:(lia)). change (10 ^ Z.of_nat 1) with 10. lia.
Qed.

Definition small (z : Z) : Prop := Z.abs z < 10 ^ 40.
Lemma i32_small z : in_s 32 z -> small z.
Proof. unfold in_s, small. change (32 - 1) with 31. lia. Qed.

Lemma show_int_word z : small z -> Forall word (show_int z) /\ show_int z <> [].
Proof.
  unfold small, show_int. intros H. destruct (z <? 0) eqn:E.
  - destruct (digits_parse 40 (- z)) as (H1 & H2 & _); [change (Z.of_nat 40) with 40; lia|lia|]. split; [|discriminate]. constructor; [now left|].
    eapply Forall_impl; [|exact H1]. intros c Hc. now right.
  - destruct (digits_parse 40 z) as (H1 & H2 & _); [change (Z.of_nat 40) with 40; lia|lia|]. split; [|exact H2]. eapply Forall_impl; [|exact H1]. intros c Hc. now right.
Qed.

Lemma parse_show z : in_s 32 z -> parse_i32 (show_int z) = Some z.
Proof.
  intros H. assert (Hs := i32_small z H). unfold small in Hs. unfold show_int, parse_i32. destruct (z <? 0) eqn:E.
  - destruct (digits_parse 40 (- z)) as (H1 & H2 & H3); [change (Z.of_nat 40) with 40; lia|lia|]. destruct (digits_fuel 40 (- z)) as [|c r] eqn:Ed; [congruence|].
    cbn [ch_minus ch_plus Z.eqb Pos.eqb orb]. specialize (H3 [] 0). rewrite app_nil_r in H3. rewrite H3. cbn [parse_digits].
    replace (- (0 * 10 ^ Z.of_nat (length (c :: r)) + - z)) with z by lia. unfold in_sb. unfold in_s in H. replace (_ && _) with true by lia. reflexivity.
  - destruct (digits_parse 40 z) as (H1 & H2 & H3); [change (Z.of_nat 40) with 40; lia|lia|]. destruct (digits_fuel 40 z) as [|c r] eqn:Ed; [congruence|].
    inversion H1 as [|? ? Hc _]; subst. unfold digit in Hc. unfold ch_minus, ch_plus. replace ((c =? 45) || (c =? 43)) with false by lia.
    specialize (H3 [] 0). rewrite app_nil_r in H3. rewrite H3. cbn [parse_digits]. replace (0 * 10 ^ Z.of_nat (length (c :: r)) + z) with z by lia.
    unfold in_sb. unfold in_s in H. replace (_ && _) with true by lia. reflexivity.
Qed.

(** A strict prefix of the text of a number does not read as that number. *)
Lemma parse_digits_digits l : forall acc v, Forall digit l -> parse_digits l acc = Some v -> acc * 10 ^ Z.of_nat (length l) <= v.
Proof.
  induction l as [|c l IH]; intros acc v Hf H; cbn [parse_digits length] in *; [injection H as <-; cbn; lia|].
  inversion Hf as [|? ? Hc Hl]; subst. unfold digit in Hc. unfold is_digit in H. replace ((48 <=? c) && (c <=? 57)) with true in H by lia.
  specialize (IH _ _ Hl H). rewrite Nat2Z.inj_succ, Z.pow_succ_r by lia. assert (0 < 10 ^ Z.of_nat (length l)) by (apply Z.pow_pos_nonneg; lia). nia.
Qed.
Lemma parse_digits_app a : forall b acc, parse_digits (a ++ b) acc = match parse_digits a acc with Some w => parse_digits b w | None => None end.
Proof. induction a as [|c a IH]; intros b acc; cbn [app parse_digits]; [reflexivity|]. destruct (is_digit c); [apply IH|reflexivity]. Qed.
Lemma parse_digits_nonneg l : forall acc v, 0 <= acc -> parse_digits l acc = Some v -> 0 <= v.
Proof. induction l as [|c l IH]; intros acc v Ha H; cbn [parse_digits] in H; [injection H as <-; exact Ha|]. destruct (is_digit c) eqn:E; [|discriminate]. unfold is_digit in E. apply (IH (acc * 10 + (c - 48))); [lia|exact H]. Qed.

Lemma digits_prefix z q r v : 0 <= z < 10 ^ 40 -> digits_fuel 40 z = q ++ r -> r <> [] -> q <> [] -> parse_digits q 0 = Some v -> v <> z.
Proof.
  intros Hz E Hr Hq Hp Hv. subst v. destruct (digits_parse 40 z) as (H1 & H2 & H3); [change (Z.of_nat 40) with 40; lia|lia|].
  specialize (H3 [] 0). rewrite app_nil_r in H3. cbn [parse_digits] in H3. rewrite E, parse_digits_app, Hp in H3.
  rewrite E in H1. apply Forall_app in H1. destruct H1 as [Hdq Hdr].
  assert (P := parse_digits_digits r z _ Hdr H3). rewrite Z.mul_0_l, Z.add_0_l in P.
  assert (10 <= 10 ^ Z.of_nat (length r)).
  { destruct r as [|c r]; [congruence|]. cbn [length]. rewrite Nat2Z.inj_succ, Z.pow_succ_r by lia. assert (0 < 10 ^ Z.of_nat (length r)) by (apply Z.pow_pos_nonneg; lia). lia. }
  assert (z = 0) by nia. subst z. vm_compute in E. destruct q as [|c q]; [congruence|]. injection E as _ E. symmetry in E. apply app_eq_nil in E. now destruct E.
Qed.
Lemma show_prefix z q r : in_s 32 z -> show_int z = q ++ r -> r <> [] -> parse_i32 q <> Some z.
Proof.
  intros H E Hr Hp. assert (Hs := i32_small z H). unfold small in Hs. unfold show_int in E. destruct (z <? 0) eqn:Ez.
  - destruct q as [|c q]; [discriminate Hp|]. cbn [app] in E. assert (Ec : c = ch_minus) by congruence. assert (E2 : digits_fuel 40 (- z) = q ++ r) by congruence. clear E. subst c. unfold parse_i32 in Hp. cbn [ch_minus ch_plus Z.eqb Pos.eqb orb] in Hp.
    destruct q as [|d q]; [discriminate Hp|]. destruct (parse_digits (d :: q) 0) as [v|] eqn:Ev; [|discriminate Hp].
    destruct (in_sb 32 (- v)); [|discriminate Hp]. injection Hp as Hp.
    apply (digits_prefix (- z) (d :: q) r v); auto; try lia. discriminate.
  - destruct q as [|c q]; [discriminate Hp|]. destruct (digits_parse 40 z) as (H1 & H2 & _); [change (Z.of_nat 40) with 40; lia|lia|].
    assert (Hc : digit c) by (rewrite E in H1; now inversion H1). unfold digit in Hc. unfold parse_i32, ch_minus, ch_plus in Hp. replace ((c =? 45) || (c =? 43)) with false in Hp by lia.
    destruct (parse_digits (c :: q) 0) as [v|] eqn:Ev; [|discriminate Hp]. destruct (in_sb 32 v); [|discriminate Hp]. injection Hp as Hp.
    apply (digits_prefix z (c :: q) r v); auto; try lia. discriminate.
Qed.

(** * Trimming, fields, lines *)
Lemma word_not_space c : word c -> is_space c = false.
Proof. unfold word, digit, is_space. lia. Qed.
Lemma trim_start_word l : Forall word l -> trim_start l = l.
Proof. intros H. destruct H as [|c l Hc Hl]; [reflexivity|]. cbn [trim_start]. now rewrite (word_not_space c Hc). Qed.
Lemma trim_word l : Forall word l -> trim l = l.
Proof. intros H. unfold trim. rewrite (trim_start_word l H), trim_start_word by (now apply Forall_rev). apply rev_involutive. Qed.
Lemma parse_unwrap_show z : in_s 32 z -> parse_unwrap (show_int z) = Ok z.
Proof. intros H. unfold parse_unwrap. rewrite trim_word by (apply show_int_word; now apply i32_small). now rewrite (parse_show z H). Qed.

Lemma split_none sep w : ~ In sep w -> split_on sep w = [w].
Proof.
  induction w as [|c w IH]; intros H; [reflexivity|]. cbn [split_on]. replace (c =? sep) with false; [|symmetry; apply Z.eqb_neq; intros ->; apply H; now left].
  rewrite IH; [reflexivity|]. intros Hi. apply H. now right.
Qed.
Lemma split_some sep w r : ~ In sep w -> split_on sep (w ++ sep :: r) = w :: split_on sep r.
Proof.
  induction w as [|c w IH]; intros H; cbn [app split_on]; [now rewrite Z.eqb_refl|]. replace (c =? sep) with false; [|symmetry; apply Z.eqb_neq; intros ->; apply H; now left].
  rewrite IH; [reflexivity|]. intros Hi. apply H. now right.
Qed.
Lemma split_nonempty sep l : split_on sep l <> [].
Proof. destruct l as [|c l]; [discriminate|]. cbn [split_on]. destruct (c =? sep); [discriminate|]. destruct (split_on sep l); discriminate. Qed.

(** A line of text: no line feed and no carriage return. *)
Definition line_char (c : Z) : Prop := c <> 10 /\ c <> 13.
Lemma strip_cr_id w : Forall line_char w -> strip_cr w = w.
Proof.
  intros H. unfold strip_cr. destruct (rev w) as [|c r] eqn:E; [apply (f_equal (@rev Z)) in E; rewrite rev_involutive in E; now rewrite E|].
  assert (Hc : line_char c). { rewrite Forall_forall in H. apply H. apply in_rev. rewrite E. now left. }
  destruct Hc as [_ Hc]. unfold ch_cr. now replace (c =? 13) with false by lia.
Qed.
Lemma not_in_nl w : Forall line_char w -> ~ In ch_nl w.
Proof. intros H Hi. rewrite Forall_forall in H. destruct (H _ Hi). unfold ch_nl in *. lia. Qed.
Lemma lines_cons w r : Forall line_char w -> lines (w ++ ch_nl :: r) = w :: lines r.
Proof.
  intros H. unfold lines. rewrite split_some by now apply not_in_nl. cbn [lines_of]. destruct (split_on ch_nl r) eqn:E; [now apply split_nonempty in E|].
  now rewrite strip_cr_id.
Qed.
Lemma lines_tail w : Forall line_char w -> lines w = match w with [] => [] | _ => [w] end.
Proof. intros H. unfold lines. rewrite split_none by now apply not_in_nl. reflexivity. Qed.
Lemma word_line w : Forall word w -> Forall line_char w.
Proof. apply Forall_impl. unfold word, digit, line_char. lia. Qed.
