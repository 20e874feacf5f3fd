(** The check of [str::from_utf8] accepts exactly the encodings of Unicode text; CSV fields of UTF-8 text are UTF-8. *)
From Coq Require Import List ZArith Bool Lia ZifyBool.
From Verif Require Import Base Model_Vsri Model_Utf8 Spec_Utf8.
Import ListNotations.
Open Scope Z_scope.
Ltac divs := Z.div_mod_to_equations; lia.

Lemma encoded_cases u : scalar u ->
  (0 <= u < 128 /\ encoded u = [u]) \/
  (exists a b, encoded u = [a; b] /\ 194 <= a <= 223 /\ 128 <= b <= 191 /\ u = (a - 192) * 64 + (b - 128)) \/
  (exists a b c, encoded u = [a; b; c] /\ 224 <= a <= 239 /\ (a = 224 -> 160 <= b) /\ (a = 237 -> b <= 159) /\ 128 <= b <= 191 /\ 128 <= c <= 191 /\ u = (a - 224) * 4096 + (b - 128) * 64 + (c - 128)) \/
  (exists a b c d, encoded u = [a; b; c; d] /\ 240 <= a <= 244 /\ (a = 240 -> 144 <= b) /\ (a = 244 -> b <= 143) /\ 128 <= b <= 191 /\ 128 <= c <= 191 /\ 128 <= d <= 191 /\
     u = (a - 240) * 262144 + (b - 128) * 4096 + (c - 128) * 64 + (d - 128)).
Proof.
  intros H. unfold encoded, scalar in *. destruct (u <? 128) eqn:E1; [left; split; [lia|reflexivity]|].
  assert (D1 := Z.div_mod u 64 ltac:(lia)). assert (M1 := Z.mod_pos_bound u 64 ltac:(lia)).
  assert (D2 := Z.div_mod (u / 64) 64 ltac:(lia)). assert (M2 := Z.mod_pos_bound (u / 64) 64 ltac:(lia)).
  assert (D3 := Z.div_mod (u / 64 / 64) 64 ltac:(lia)). assert (M3 := Z.mod_pos_bound (u / 64 / 64) 64 ltac:(lia)).
  change 262144 with (64 * 64 * 64). change 4096 with (64 * 64). rewrite <- !Z.div_div by lia.
  destruct (u <? 2048) eqn:E2; [right; left|right; right; destruct (u <? 65536) eqn:E3; [left|right]].
  - exists (192 + u / 64), (128 + u mod 64). split; [reflexivity|]. lia.
  - exists (224 + u / 64 / 64), (128 + (u / 64) mod 64), (128 + u mod 64). split; [reflexivity|]. lia.
  - exists (240 + u / 64 / 64 / 64), (128 + (u / 64 / 64) mod 64), (128 + (u / 64) mod 64), (128 + u mod 64). split; [reflexivity|]. lia.
Qed.

Lemma encoded_of2 a b : 194 <= a <= 223 -> 128 <= b <= 191 -> scalar ((a - 192) * 64 + (b - 128)) /\ encoded ((a - 192) * 64 + (b - 128)) = [a; b].
Proof.
  intros Ha Hb. split; [unfold scalar; lia|]. unfold encoded. replace (_ <? 128) with false by lia. replace (_ <? 2048) with true by lia.
  f_equal; [|f_equal]; divs.
Qed.
Lemma encoded_of3 a b c : 224 <= a <= 239 -> (a = 224 -> 160 <= b) -> (a = 237 -> b <= 159) -> 128 <= b <= 191 -> 128 <= c <= 191 ->
  let u := (a - 224) * 4096 + (b - 128) * 64 + (c - 128) in scalar u /\ encoded u = [a; b; c].
Proof.
  intros Ha H1 H2 Hb Hc u. split; [unfold scalar, u; lia|]. unfold encoded. replace (u <? 128) with false by (unfold u; lia). replace (u <? 2048) with false by (unfold u; lia). replace (u <? 65536) with true by (unfold u; lia).
  f_equal; [|f_equal; [|f_equal]]; unfold u; divs.
Qed.
Lemma encoded_of4 a b c d : 240 <= a <= 244 -> (a = 240 -> 144 <= b) -> (a = 244 -> b <= 143) -> 128 <= b <= 191 -> 128 <= c <= 191 -> 128 <= d <= 191 ->
  let u := (a - 240) * 262144 + (b - 128) * 4096 + (c - 128) * 64 + (d - 128) in scalar u /\ encoded u = [a; b; c; d].
Proof.
  intros Ha H1 H2 Hb Hc Hd u. split; [unfold scalar, u; lia|]. unfold encoded. replace (u <? 128) with false by (unfold u; lia). replace (u <? 2048) with false by (unfold u; lia). replace (u <? 65536) with false by (unfold u; lia).
  f_equal; [|f_equal; [|f_equal; [|f_equal]]]; unfold u; divs.
Qed.

Lemma is_utf8_nil : is_utf8 []. Proof. exists []. split; [constructor|reflexivity]. Qed.
Lemma is_utf8_cons u t : scalar u -> is_utf8 t -> is_utf8 (encoded u ++ t).
Proof. intros H (us & H1 & ->). exists (u :: us). split; [now constructor|reflexivity]. Qed.
Lemma is_utf8_app a b : is_utf8 a -> is_utf8 b -> is_utf8 (a ++ b).
Proof. intros (us & H1 & ->) (vs & H2 & ->). exists (us ++ vs). split; [now apply Forall_app|]. now rewrite flat_map_app. Qed.
Lemma is_utf8_ascii t : Forall (fun c => 0 <= c < 128) t -> is_utf8 t.
Proof.
  intros H. exists t. split; [eapply Forall_impl; [|exact H]; intros c Hc; cbn in Hc; unfold scalar; lia|]. induction H as [|c t Hc H IH]; [reflexivity|]. cbn [flat_map]. unfold encoded at 1.
  replace (c <? 128) with true by lia. cbn [app]. now f_equal.
Qed.

Theorem utf8_spec : forall t, utf8 t = true <-> is_utf8 t.
Proof.
  intros t. split.
  - assert (G : forall n t, (length t <= n)%nat -> utf8 t = true -> is_utf8 t); [|exact (G _ t (le_n _))]. clear t.
    induction n as [|n IH]; intros t L H; [destruct t; [apply is_utf8_nil|cbn in L; lia]|]. destruct t as [|a t]; [apply is_utf8_nil|]. cbn [utf8] in H. cbn [length] in L. unfold between, continuation, second3, second4, between in H.
    destruct ((0 <=? a) && (a <=? 127)) eqn:E1.
    { change (a :: t) with ([a] ++ t). apply is_utf8_app; [apply is_utf8_ascii; repeat apply Forall_cons; try apply Forall_nil; lia|]. apply IH; [lia|exact H]. }
    destruct ((194 <=? a) && (a <=? 223)) eqn:E2.
    { destruct t as [|b t]; [discriminate H|]. apply andb_true_iff in H. destruct H as [H1 H2]. destruct (encoded_of2 a b ltac:(lia) ltac:(lia)) as [X1 X2].
      change (a :: b :: t) with ([a; b] ++ t). rewrite <- X2. apply is_utf8_cons; [exact X1|]. apply IH; [cbn in L; lia|exact H2]. }
    destruct ((224 <=? a) && (a <=? 239)) eqn:E3.
    { destruct t as [|b [|c t]]; [discriminate H|discriminate H|]. apply andb_true_iff in H. destruct H as [H1 H2].
      assert (K : (a = 224 -> 160 <= b) /\ (a = 237 -> b <= 159) /\ 128 <= b <= 191 /\ 128 <= c <= 191) by (destruct (Z.eqb_spec a 224); destruct (Z.eqb_spec a 237); lia).
      destruct (encoded_of3 a b c ltac:(lia) ltac:(lia) ltac:(lia) ltac:(lia) ltac:(lia)) as [X1 X2].
      change (a :: b :: c :: t) with ([a; b; c] ++ t). rewrite <- X2. apply is_utf8_cons; [exact X1|]. apply IH; [cbn in L; lia|exact H2]. }
    destruct ((240 <=? a) && (a <=? 244)) eqn:E4; [|discriminate H].
    destruct t as [|b [|c [|d t]]]; [discriminate H|discriminate H|discriminate H|]. apply andb_true_iff in H. destruct H as [H1 H2].
    assert (K : (a = 240 -> 144 <= b) /\ (a = 244 -> b <= 143) /\ 128 <= b <= 191 /\ 128 <= c <= 191 /\ 128 <= d <= 191) by (destruct (Z.eqb_spec a 240); destruct (Z.eqb_spec a 244); lia).
    destruct (encoded_of4 a b c d ltac:(lia) ltac:(lia) ltac:(lia) ltac:(lia) ltac:(lia) ltac:(lia)) as [X1 X2].
    change (a :: b :: c :: d :: t) with ([a; b; c; d] ++ t). rewrite <- X2. apply is_utf8_cons; [exact X1|]. apply IH; [cbn in L; lia|exact H2].
  - intros (us & H & ->). induction H as [|u us Hu H IH]; [reflexivity|]. cbn [flat_map].
    destruct (encoded_cases u Hu) as [(R & ->)|[(a & b & -> & A1 & A2 & _)|[(a & b & c & -> & A1 & A2 & A3 & A4 & A5 & _)|(a & b & c & d & -> & A1 & A2 & A3 & A4 & A5 & A6 & _)]]];
    cbn [app utf8]; rewrite IH; unfold continuation, second3, second4, between.
    + now replace ((0 <=? u) && (u <=? 127)) with true by lia.
    + replace ((0 <=? a) && (a <=? 127)) with false by lia. replace ((194 <=? a) && (a <=? 223)) with true by lia. lia.
    + replace ((0 <=? a) && (a <=? 127)) with false by lia. replace ((194 <=? a) && (a <=? 223)) with false by lia. replace ((224 <=? a) && (a <=? 239)) with true by lia.
      destruct (Z.eqb_spec a 224); destruct (Z.eqb_spec a 237); lia.
    + replace ((0 <=? a) && (a <=? 127)) with false by lia. replace ((194 <=? a) && (a <=? 223)) with false by lia. replace ((224 <=? a) && (a <=? 239)) with false by lia.
      replace ((240 <=? a) && (a <=? 244)) with true by lia. destruct (Z.eqb_spec a 240); destruct (Z.eqb_spec a 244); lia.
Qed.

(** A text cut at an ASCII character. *)
Lemma is_utf8_split a c b : 0 <= c < 128 -> is_utf8 (a ++ c :: b) <-> is_utf8 a /\ is_utf8 b.
Proof.
  intros Hc. split.
  - intros (us & H & E). revert a E. induction H as [|u us Hu H IH]; intros a E; [destruct a; discriminate E|]. cbn [flat_map] in E.
    destruct (encoded_cases u Hu) as [(R & Eu)|[(p & q & Eu & A1 & A2 & _)|[(p & q & r & Eu & A1 & A2 & A3 & A4 & A5 & _)|(p & q & r & s & Eu & A1 & A2 & A3 & A4 & A5 & A6 & _)]]];
    rewrite Eu in E; cbn [app] in E.
    + destruct a as [|x a]; cbn [app] in E.
      * split; [apply is_utf8_nil|]. assert (b = flat_map encoded us) by congruence. subst. now exists us.
      * assert (x = u) by congruence. subst x. destruct (IH a) as [I1 I2]; [congruence|]. split; [|exact I2]. change (u :: a) with ([u] ++ a). rewrite <- Eu. now apply is_utf8_cons.
    + destruct a as [|x [|y a]]; cbn [app] in E; [assert (c = p) by congruence; lia|assert (c = q) by congruence; lia|].
      assert (x = p) by congruence. assert (y = q) by congruence. subst. destruct (IH a) as [I1 I2]; [congruence|]. split; [|exact I2]. change (p :: q :: a) with ([p; q] ++ a). rewrite <- Eu. now apply is_utf8_cons.
    + destruct a as [|x [|y [|z a]]]; cbn [app] in E; [assert (c = p) by congruence; lia|assert (c = q) by congruence; lia|assert (c = r) by congruence; lia|].
      assert (x = p) by congruence. assert (y = q) by congruence. assert (z = r) by congruence. subst. destruct (IH a) as [I1 I2]; [congruence|]. split; [|exact I2]. change (p :: q :: r :: a) with ([p; q; r] ++ a). rewrite <- Eu. now apply is_utf8_cons.
    + destruct a as [|x [|y [|z [|w a]]]]; cbn [app] in E; [assert (c = p) by congruence; lia|assert (c = q) by congruence; lia|assert (c = r) by congruence; lia|assert (c = s) by congruence; lia|].
      assert (x = p) by congruence. assert (y = q) by congruence. assert (z = r) by congruence. assert (w = s) by congruence. subst. destruct (IH a) as [I1 I2]; [congruence|]. split; [|exact I2].
      change (p :: q :: r :: s :: a) with ([p; q; r; s] ++ a). rewrite <- Eu. now apply is_utf8_cons.
  - intros [H1 H2]. change (c :: b) with ([c] ++ b). repeat apply is_utf8_app; try assumption. apply is_utf8_ascii. repeat apply Forall_cons; try apply Forall_nil; lia.
Qed.
(** The mark U+FEFF in front of a text. *)
Lemma is_utf8_after_mark r : is_utf8 (239 :: 187 :: 191 :: r) -> is_utf8 r.
Proof.
  intros (us & H & E). destruct H as [|u us Hu H]; [discriminate E|]. cbn [flat_map] in E.
  destruct (encoded_cases u Hu) as [(R & Eu)|[(p & q & Eu & A1 & A2 & _)|[(p & q & s & Eu & _)|(p & q & s & w & Eu & A1 & _)]]]; rewrite Eu in E; cbn [app] in E.
  - assert (u = 239) by congruence. lia.
  - assert (p = 239) by congruence. lia.
  - assert (r = flat_map encoded us) by congruence. subst. now exists us.
  - assert (p = 239) by congruence. lia.
Qed.
