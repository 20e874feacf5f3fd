(** C52: repeated seconds and the 32-bit arithmetic of the index. *)
From Coq Require Import List ZArith Bool Lia ZifyBool Sorting.Sorted.
From Verif Require Import Base Model_Vsri Spec_Vsri VsriFacts VsriLookup Props_Vsri.
Import ListNotations.
Open Scope Z_scope.

(** Two samples in every second from 1 to k, after one at second 0. *)
Definition twice_a_second (k : nat) : list Z := 0 :: flat_map (fun i => [Z.of_nat i; Z.of_nat i]) (seq 1 k).

(** The index has then a two-sample segment per second, starting at sample 2i. *)
Definition pairs (k : nat) : list segment := map (fun i => Seg 1 (2 * Z.of_nat i) (Z.of_nat i) 2) (seq 0 k).

Lemma twice_index p k : Z.of_nat k < 86400 ->
  update_all p vsri_new (twice_a_second k) = Ok (Vsri 0 (Z.of_nat k) (pairs k ++ [Seg 0 (2 * Z.of_nat k) (Z.of_nat k) 1]), repeat true (2 * k + 1)).
Proof.
  induction k as [|k IH]; intros Hk; [reflexivity|].
  assert (E : twice_a_second (S k) = twice_a_second k ++ [Z.of_nat (S k); Z.of_nat (S k)]).
  { unfold twice_a_second. rewrite seq_S, flat_map_app. reflexivity. }
  rewrite E, update_all_app, IH by lia. cbn [bind update_all]. set (y := Z.of_nat (S k)). assert (Ey : y = Z.of_nat k + 1) by lia.
  (* first of the two: completes the open segment *)
  assert (U1 : update_for_point p (Vsri 0 (Z.of_nat k) (pairs k ++ [Seg 0 (2 * Z.of_nat k) (Z.of_nat k) 1])) y = Ok (Vsri 0 y (pairs (S k)), true)).
  { unfold update_for_point. cbn [vs_max vs_min vs_segs]. replace (y <? Z.of_nat k) with false by lia.
    unfold is_fake_segment, generate_segment. rewrite current_snoc. cbn [sg_m sg_x sg_y sg_n Z.eqb negb]. rewrite arith32 by lia. cbn [bind].
    destruct (pairs k ++ [Seg 0 (2 * Z.of_nat k) (Z.of_nat k) 1]) eqn:Ep; [destruct (pairs k); discriminate Ep|]. rewrite <- Ep. unfold set_last. rewrite removelast_last.
    unfold pairs. rewrite seq_S, map_app. cbn [map Nat.add]. replace (y - Z.of_nat k) with 1 by lia. reflexivity. }
  rewrite U1. cbn [bind].
  (* second of the two: does not fit, opens a new segment *)
  assert (U2 : update_for_point p (Vsri 0 y (pairs (S k))) y = Ok (Vsri 0 y (pairs (S k) ++ [Seg 0 (2 * y) y 1]), true)).
  { unfold update_for_point. cbn [vs_max vs_min vs_segs]. replace (y <? y) with false by lia.
    assert (Ep : pairs (S k) = pairs k ++ [Seg 1 (2 * Z.of_nat k) (Z.of_nat k) 2]) by (unfold pairs; rewrite seq_S, map_app; reflexivity).
    destruct (pairs (S k)) eqn:E2; [destruct (pairs k); discriminate Ep|]. rewrite Ep in *. clear E2 Ep.
    unfold is_fake_segment, fits_segment, create_fake_segment, calculate_b. rewrite !current_snoc. cbn [sg_m sg_x sg_y sg_n Z.eqb].
    repeat (first [rewrite arith32 by lia | progress cbn [bind]]).
    unfold i32_div. cbn [Z.eqb]. rewrite andb_false_r. rewrite Z.quot_1_r. cbn [bind]. rewrite ?arith32 by lia. cbn [bind].
    match goal with |- context [if ?c then _ else _] => replace c with false by lia end.
    repeat (first [rewrite arith32 by lia | progress cbn [bind]]).
    replace (2 * Z.of_nat k + 2) with (2 * y) by lia. reflexivity. }
  rewrite U2. cbn [bind]. do 2 f_equal. replace (2 * S k + 1)%nat with (2 * k + 1 + 2)%nat by lia. rewrite (repeat_app _ (2 * k + 1)). reflexivity.
Qed.

(** C52: twice-a-second samples for k seconds, a pause of g seconds, one sample, and one more: all within one day and never going back,
    yet if 2*k*g reaches 2^31 (for instance half a day of each) a build with overflow checks panics. *)
Theorem C52_repeated_seconds_overflow_refuted : forall k g y, 0 < g -> Z.of_nat k + g < 86400 -> Z.of_nat k + g <= y < 86400 -> 2 ^ 31 <= g * (2 * Z.of_nat k) ->
  StronglySorted Z.le (twice_a_second k ++ [Z.of_nat k + g; y]) /\ Forall (fun t => 0 <= t < 86400) (twice_a_second k ++ [Z.of_nat k + g; y]) /\
  update_all Dev vsri_new (twice_a_second k ++ [Z.of_nat k + g; y]) = Panic POverflow.
Proof.
  intros k g y Hg Hkg Hy Ho. assert (R : forall t, In t (twice_a_second k) -> 0 <= t <= Z.of_nat k).
  { intros t [<-|H]; [lia|]. apply in_flat_map in H. destruct H as (i & Hi & Ht). apply in_seq in Hi. destruct Ht as [<-|[<-|[]]]; lia. }
  split; [|split].
  - assert (S0 : forall n a, StronglySorted Z.le (flat_map (fun i => [Z.of_nat i; Z.of_nat i]) (seq a n) ++ []) -> True) by auto. clear S0.
    assert (S1 : forall n a tail, StronglySorted Z.le tail -> Forall (fun t => Z.of_nat (a + n) <= t) tail -> StronglySorted Z.le (flat_map (fun i => [Z.of_nat i; Z.of_nat i]) (seq a n) ++ tail) /\
       Forall (fun t => Z.of_nat a <= t) (flat_map (fun i => [Z.of_nat i; Z.of_nat i]) (seq a n) ++ tail)).
    { induction n as [|n IH]; intros a tail Ht Hf; cbn [seq flat_map app]; [rewrite Nat.add_0_r in Hf; auto|].
      destruct (IH (S a) tail Ht) as [I1 I2]; [eapply Forall_impl; [|exact Hf]; cbn; intros; lia|].
      assert (F : Forall (fun t => Z.of_nat a <= t) (flat_map (fun i => [Z.of_nat i; Z.of_nat i]) (seq (S a) n) ++ tail)) by (eapply Forall_impl; [|exact I2]; cbn beta; intros; lia).
      split; repeat constructor; try exact I1; try exact F; lia. }
    unfold twice_a_second. cbn [app]. destruct (S1 k 1%nat [Z.of_nat k + g; y]) as [I1 I2].
    + repeat constructor; lia.
    + repeat constructor; lia.
    + constructor; [exact I1|]. eapply Forall_impl; [|exact I2]. cbn beta; intros; lia.
  - apply Forall_app. split; [apply Forall_forall; intros t Ht; specialize (R t Ht); lia|]. repeat constructor; lia.
  - rewrite update_all_app, (twice_index Dev k) by lia. cbn [bind update_all].
    assert (U1 : update_for_point Dev (Vsri 0 (Z.of_nat k) (pairs k ++ [Seg 0 (2 * Z.of_nat k) (Z.of_nat k) 1])) (Z.of_nat k + g) = Ok (Vsri 0 (Z.of_nat k + g) (pairs k ++ [Seg g (2 * Z.of_nat k) (Z.of_nat k) 2]), true)).
    { unfold update_for_point. cbn [vs_max vs_min vs_segs]. replace (Z.of_nat k + g <? Z.of_nat k) with false by lia.
      unfold is_fake_segment, generate_segment. rewrite current_snoc. cbn [sg_m sg_x sg_y sg_n Z.eqb negb]. rewrite arith32 by lia. cbn [bind].
      destruct (pairs k ++ [Seg 0 (2 * Z.of_nat k) (Z.of_nat k) 1]) eqn:Ep; [destruct (pairs k); discriminate Ep|]. rewrite <- Ep. unfold set_last. rewrite removelast_last.
      do 6 f_equal. lia. }
    rewrite U1. cbn [bind].
    assert (U2 : update_for_point Dev (Vsri 0 (Z.of_nat k + g) (pairs k ++ [Seg g (2 * Z.of_nat k) (Z.of_nat k) 2])) y = Panic POverflow).
    { unfold update_for_point. cbn [vs_max vs_min vs_segs]. replace (y <? Z.of_nat k + g) with false by lia.
      destruct (pairs k ++ [Seg g (2 * Z.of_nat k) (Z.of_nat k) 2]) eqn:Ep; [destruct (pairs k); discriminate Ep|]. rewrite <- Ep.
      unfold is_fake_segment, fits_segment, calculate_b. rewrite !current_snoc. cbn [sg_m sg_x sg_y sg_n]. replace (g =? 0) with false by lia.
      unfold arith_s at 1, in_sb. change (32 - 1) with 31. replace (_ && _) with false by lia. reflexivity. }
    rewrite U2. reflexivity.
Qed.
Print Assumptions C52_repeated_seconds_overflow_refuted.
Example C52_example : forall k, Z.of_nat k = 43200 -> 0 < 43000 /\ Z.of_nat k + 43000 < 86400 /\ Z.of_nat k + 43000 <= 86399 < 86400 /\ 2 ^ 31 <= 43000 * (2 * Z.of_nat k).
Proof. intros k ->. lia. Qed.

(** The release build accepts the same history (C27_release_never_panics). *)
Theorem C52_release_accepts : forall k g y, 0 < g -> Z.of_nat k + g < 86400 -> Z.of_nat k + g <= y < 86400 ->
  exists v ans, update_all Release vsri_new (twice_a_second k ++ [Z.of_nat k + g; y]) = Ok (v, ans).
Proof.
  intros k g y Hg Hkg Hy. apply C27_release_never_panics. unfold i32_points. apply Forall_app. split; [|repeat constructor; lia].
  apply Forall_forall. intros t [<-|H]; [lia|]. apply in_flat_map in H. destruct H as (i & Hi & Ht). apply in_seq in Hi. destruct Ht as [<-|[<-|[]]]; lia.
Qed.
Print Assumptions C52_release_accepts.
