(** The fields of a UTF-8 file are UTF-8. *)
From Coq Require Import List ZArith Bool Lia ZifyBool.
From Verif Require Import Base Model_Float Model_Vsri Model_Utf8 Spec_Utf8 Utf8Facts Model_Csv Spec_Csv CsvFacts.
Import ListNotations.
Open Scope Z_scope.

(** The state after characters that are no separator, quote or line end. *)
Definition after (st : csv_state) : csv_state := match st with InQuoted => InQuoted | _ => InField end.
Lemma run_high c st field record r : 128 <= c -> csv_run st field record (c :: r) = csv_run (after st) (field ++ [c]) record r.
Proof.
  intros H. cbn [csv_run]. unfold is_term, ch_quote, ch_comma, ch_nl, ch_cr. replace (c =? 34) with false by lia. replace (c =? 44) with false by lia. replace ((c =? 10) || (c =? 13)) with false by lia.
  destruct st; reflexivity.
Qed.
Lemma after_after st : after (after st) = after st. Proof. destruct st; reflexivity. Qed.

Lemma run_utf8 us : Forall scalar us -> forall st field record, is_utf8 field -> Forall is_utf8 record -> Forall (Forall is_utf8) (csv_run st field record (flat_map encoded us)).
Proof.
  induction 1 as [|u us Hu H IH]; intros st field record Hf Hr.
  - cbn [flat_map csv_run]. destruct st; repeat constructor; apply Forall_app; split; try assumption; constructor; auto.
  - assert (N : Forall is_utf8 (record ++ [field])) by (apply Forall_app; split; [exact Hr|]; constructor; [exact Hf|constructor]).
    assert (M : forall t, is_utf8 t -> is_utf8 (field ++ t)) by (intros t Ht; now apply is_utf8_app). assert (Eu : is_utf8 (encoded u)) by (rewrite <- (app_nil_r (encoded u)); apply is_utf8_cons; [exact Hu|apply is_utf8_nil]).
    cbn [flat_map]. destruct (encoded_cases u Hu) as [(R & E)|[(a & b & E & A1 & A2 & _)|[(a & b & c & E & A1 & A2 & A3 & A4 & A5 & _)|(a & b & c & d & E & A1 & A2 & A3 & A4 & A5 & A6 & _)]]];
    rewrite E in *; cbn [app].
    + cbn [csv_run]. assert (Z0 := is_utf8_nil). destruct (u =? ch_quote), (u =? ch_comma), (is_term u), st; auto.
    + rewrite !run_high, after_after by lia. apply IH; [|exact Hr]. rewrite <- !app_assoc. cbn [app]. auto.
    + rewrite !run_high, !after_after by lia. apply IH; [|exact Hr]. rewrite <- !app_assoc. cbn [app]. auto.
    + rewrite !run_high, !after_after by lia. apply IH; [|exact Hr]. rewrite <- !app_assoc. cbn [app]. auto.
Qed.
Lemma records_utf8 t : is_utf8 t -> Forall (Forall is_utf8) (csv_records t).
Proof.
  intros H. unfold csv_records. assert (G : is_utf8 (strip_bom t)).
  { unfold strip_bom. destruct t as [|a [|b [|c r]]]; try exact H. destruct ((a =? 239) && (b =? 187) && (c =? 191)) eqn:G; [|exact H].
    assert (a = 239) by lia. assert (b = 187) by lia. assert (c = 191) by lia. subst. now apply is_utf8_after_mark. }
  destruct G as (us & G & E). rewrite E. apply run_utf8; [exact G|apply is_utf8_nil|constructor].
Qed.
