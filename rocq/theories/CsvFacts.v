(** Reading plain CSV text. *)
From Coq Require Import List ZArith Bool Lia ZifyBool.
From Verif Require Import Base Model_Float Model_Vsri TextFacts Model_Utf8 Spec_Utf8 Utf8Facts Model_Csv Spec_Csv.
Import ListNotations.
Open Scope Z_scope.

Lemma plain_char c : 0 <= c < 128 /\ c <> 44 /\ c <> 34 /\ c <> 10 /\ c <> 13 ->
  (c =? ch_quote) = false /\ (c =? ch_comma) = false /\ is_term c = false.
Proof. intros H. unfold ch_quote, ch_comma, is_term, ch_nl, ch_cr. repeat split; lia. Qed.

Lemma run_in_field f : forall acc rec rest, plain f -> csv_run InField acc rec (f ++ rest) = csv_run InField (acc ++ f) rec rest.
Proof.
  induction f as [|c f IH]; intros acc rec rest H; [now rewrite app_nil_r|]. inversion H as [|? ? Hc Hf]; subst. destruct (plain_char c Hc) as (H1 & H2 & H3).
  cbn [app csv_run]. rewrite H2, H3, IH by exact Hf. now rewrite <- app_assoc.
Qed.

(** A plain field read from the start of a field: afterwards the reader acts as in a field (or still at its start, if empty); both
    treat a comma or a terminator alike. *)
Definition in_or_start (st : csv_state) : Prop := st = InField \/ st = StartField.
Lemma run_field f rec rest : plain f -> exists st, in_or_start st /\ csv_run StartField [] rec (f ++ rest) = csv_run st f rec rest.
Proof.
  intros H. destruct f as [|c f]; [exists StartField; split; [now right|reflexivity]|]. exists InField. split; [now left|].
  inversion H as [|? ? Hc Hf]; subst. destruct (plain_char c Hc) as (H1 & H2 & H3). cbn [app csv_run]. rewrite H1, H2, H3. now rewrite run_in_field.
Qed.
Lemma run_comma st f rec rest : in_or_start st -> csv_run st f rec (44 :: rest) = csv_run StartField [] (rec ++ [f]) rest.
Proof. intros [-> | ->]; reflexivity. Qed.
Lemma run_eol st f rec eol rest : in_or_start st -> eol_ok eol -> csv_run st f rec (eol ++ rest) = (rec ++ [f]) :: csv_run StartRecord [] [] rest.
Proof. intros [-> | ->] [-> | [-> | ->]]; reflexivity. Qed.
Lemma run_eof st f rec : in_or_start st -> csv_run st f rec [] = [rec ++ [f]].
Proof. intros [-> | ->]; reflexivity. Qed.

Lemma run_row r : forall rec eol rest, r <> [] -> Forall plain r -> eol_ok eol ->
  csv_run StartField [] rec (row_text r ++ eol ++ rest) = (rec ++ r) :: csv_run StartRecord [] [] rest.
Proof.
  induction r as [|f r IH]; intros rec eol rest Hne Hp He; [congruence|]. inversion Hp as [|? ? Hf Hr]; subst. destruct r as [|g r].
  - cbn [row_text]. destruct (run_field f rec (eol ++ rest) Hf) as (st & Hs & ->). now apply run_eol.
  - change (row_text (f :: g :: r)) with (f ++ [44] ++ row_text (g :: r)). rewrite <- !app_assoc. cbn [app].
    destruct (run_field f rec (44 :: row_text (g :: r) ++ eol ++ rest) Hf) as (st & Hs & ->). rewrite run_comma by exact Hs.
    rewrite IH by (try assumption; discriminate). now rewrite <- app_assoc.
Qed.
Lemma run_last_row r : forall rec, r <> [] -> Forall plain r -> csv_run StartField [] rec (row_text r) = [rec ++ r].
Proof.
  induction r as [|f r IH]; intros rec Hne Hp; [congruence|]. inversion Hp as [|? ? Hf Hr]; subst. destruct r as [|g r].
  - cbn [row_text]. rewrite <- (app_nil_r f) at 1. destruct (run_field f rec [] Hf) as (st & Hs & ->). now apply run_eof.
  - change (row_text (f :: g :: r)) with (f ++ [44] ++ row_text (g :: r)). cbn [app].
    destruct (run_field f rec (44 :: row_text (g :: r)) Hf) as (st & Hs & ->). rewrite run_comma by exact Hs.
    rewrite IH by (try assumption; discriminate). now rewrite <- app_assoc.
Qed.

(** The first character of a row is no line end. *)
Lemma row_head r : row_ok r -> exists c t, row_text r = c :: t /\ is_term c = false /\ c < 128.
Proof.
  intros (H1 & H2 & H3). destruct r as [|f r]; [congruence|]. inversion H3 as [|? ? Hf Hr]; subst. destruct f as [|c f].
  - destruct r as [|g r]; [exfalso; apply H2; reflexivity|]. exists 44, (row_text (g :: r)). split; [reflexivity|]. split; [reflexivity|lia].
  - inversion Hf as [|? ? Hc _]; subst. destruct (plain_char c Hc) as (_ & _ & T). destruct r; eexists; eexists; (split; [reflexivity|]; split; [exact T|lia]).
Qed.
Lemma start_row r rest : row_ok r -> csv_run StartRecord [] [] (row_text r ++ rest) = csv_run StartField [] [] (row_text r ++ rest).
Proof. intros H. destruct (row_head r H) as (c & t & -> & T & _). cbn [app csv_run]. now rewrite T. Qed.
Lemma start_term eol : (eol = [] \/ eol_ok eol) -> csv_run StartRecord [] [] eol = [].
Proof. intros [-> | [-> | [-> | ->]]]; reflexivity. Qed.

Lemma run_table eol last_eol rows : eol_ok eol -> last_eol = eol \/ last_eol = [] -> Forall row_ok rows ->
  csv_run StartRecord [] [] (table_text eol last_eol rows) = rows.
Proof.
  intros He Hl. induction rows as [|r rows IH]; intros H; [reflexivity|]. inversion H as [|? ? Hr Hrs]; subst. destruct rows as [|r2 rows].
  - cbn [table_text]. rewrite start_row by exact Hr. destruct Hr as (H1 & H2 & H3). destruct Hl as [-> | ->].
    + rewrite <- (app_nil_r eol). rewrite run_row by assumption. reflexivity.
    + rewrite app_nil_r. now rewrite run_last_row.
  - change (table_text eol last_eol (r :: r2 :: rows)) with (row_text r ++ eol ++ table_text eol last_eol (r2 :: rows)).
    rewrite start_row by exact Hr. destruct Hr as (H1 & H2 & H3). rewrite run_row by assumption. now rewrite IH.
Qed.

Lemma strip_bom_id t : match t with c :: _ => c < 128 | [] => True end -> strip_bom t = t.
Proof.
  destruct t as [|a [|b [|c t]]]; try reflexivity. intros H. unfold strip_bom. replace (a =? 239) with false by lia. reflexivity.
Qed.

Lemma records_table rows t : Forall row_ok rows -> file_of rows t -> csv_records t = rows.
Proof.
  intros H (eol & last_eol & He & Hl & ->). unfold csv_records. rewrite strip_bom_id; [now apply run_table|].
  destruct rows as [|r rows]; [exact I|]. inversion H as [|? ? Hr _]; subst. destruct (row_head r Hr) as (c & t & E & _ & L).
  destruct rows as [|r2 rows]; cbn [table_text]; rewrite E; exact L.
Qed.

Lemma text_eqb_spec a b : text_eqb a b = true <-> a = b.
Proof. unfold text_eqb. destruct (list_eq_dec Z.eq_dec a b); split; congruence. Qed.

Lemma position_first n headers : match position n headers with Some i => first_column n headers i | None => ~ In n headers end.
Proof.
  induction headers as [|h r IH]; cbn [position]; [intros []|]. destruct (text_eqb h n) eqn:E.
  - apply text_eqb_spec in E. subst. split; [reflexivity|]. intros j Hj. lia.
  - assert (h <> n) by (intros ->; now rewrite (proj2 (text_eqb_spec n n) eq_refl) in E). destruct (position n r) as [i|]; cbn [option_map].
    + destruct IH as [I1 I2]. split; [exact I1|]. intros [|j] Hj; cbn [nth_error]; [congruence|apply I2; lia].
    + intros [H1|H1]; [congruence|now apply IH].
Qed.
Lemma first_column_unique n headers i j : first_column n headers i -> first_column n headers j -> i = j.
Proof.
  intros [A1 A2] [B1 B2]. destruct (Nat.lt_trichotomy i j) as [L|[L|L]]; [|exact L|]; [exfalso; now apply (B2 i L)|exfalso; now apply (A2 j L)].
Qed.
Lemma first_column_in n headers i : first_column n headers i -> In n headers.
Proof. intros [H _]. eapply nth_error_In; exact H. Qed.

Lemma plain_utf8 f : plain f -> utf8 f = true.
Proof. intros H. apply utf8_spec, is_utf8_ascii. eapply Forall_impl; [|exact H]. intros c Hc. cbn in Hc. lia. Qed.
Lemma row_utf8 r : row_ok r -> forallb utf8 r = true.
Proof. intros (_ & _ & H). apply forallb_forall. intros f Hf. apply plain_utf8. rewrite Forall_forall in H. now apply H. Qed.
Lemma cells_utf8 r : forallb utf8 r = true <-> Forall is_utf8 r.
Proof. rewrite forallb_forall, Forall_forall. split; intros H f Hf; apply utf8_spec, H, Hf. Qed.

Lemma collect_good nt w i rows vals : Forall (fun r : list text => length r = w /\ forallb utf8 r = true) rows -> Forall2 (reads_as nt i) rows vals ->
  forall rest acc, collect_samples nt w i (rows ++ rest) acc = collect_samples nt w i rest (acc ++ map (Sample 0) vals).
Proof.
  intros Hw H. revert Hw. induction H as [|r v rows vals (f & H1 & H2) H IH]; intros Hw rest acc; cbn [app map]; [now rewrite app_nil_r|].
  inversion Hw as [|? ? [Hr Hu] Hrs]; subst. cbn [collect_samples]. rewrite Nat.eqb_refl, Hu, H1, H2. cbn [andb]. rewrite IH by exact Hrs. now rewrite <- app_assoc.
Qed.

Lemma radix_digits l : forall acc, parse_radix 10 dec_digit l acc = parse_digits l acc.
Proof. induction l as [|c l IH]; intros acc; cbn [parse_radix parse_digits]; [reflexivity|]. unfold dec_digit. destruct (is_digit c); [apply IH|reflexivity]. Qed.

Lemma parse_signed_show z : in_s 64 z -> parse_signed 64 10 dec_digit (show_int z) = Some z.
Proof.
  intros H. assert (Hs : Z.abs z < 10 ^ 40) by (unfold in_s in H; change (64 - 1) with 63 in H; lia). unfold show_int, parse_signed. destruct (z <? 0) eqn:E.
  - destruct (digits_parse 40 (- z)) as (H1 & H2 & H3); [change (Z.of_nat 40) with 40; lia|lia|]. destruct (digits_fuel 40 (- z)) as [|c r] eqn:Ed; [congruence|].
    cbn [ch_minus ch_plus Z.eqb Pos.eqb orb]. specialize (H3 [] 0). rewrite app_nil_r in H3. rewrite radix_digits, H3. cbn [parse_digits].
    replace (- (0 * 10 ^ Z.of_nat (length (c :: r)) + - z)) with z by lia. unfold in_sb. unfold in_s in H. replace (_ && _) with true by lia. reflexivity.
  - destruct (digits_parse 40 z) as (H1 & H2 & H3); [change (Z.of_nat 40) with 40; lia|lia|]. destruct (digits_fuel 40 z) as [|c r] eqn:Ed; [congruence|].
    inversion H1 as [|? ? Hc _]; subst. unfold digit in Hc. unfold ch_minus, ch_plus. replace ((c =? 45) || (c =? 43)) with false by lia.
    specialize (H3 [] 0). rewrite app_nil_r in H3. rewrite radix_digits, H3. cbn [parse_digits]. replace (0 * 10 ^ Z.of_nat (length (c :: r)) + z) with z by lia.
    unfold in_sb. unfold in_s in H. replace (_ && _) with true by lia. reflexivity.
Qed.
Lemma parse_i64_show z : in_s 64 z -> parse_i64 (show_int z) = Some z.
Proof.
  intros H. rewrite <- (parse_signed_show z H). destruct (show_int_word z) as [W _]; [unfold small, in_s in *; change (64 - 1) with 63 in H; lia|].
  unfold parse_i64. destruct (show_int z) as [|a [|b r]]; [reflexivity|reflexivity|]. inversion W as [|? ? _ W']; subst. inversion W' as [|? ? Hb _]; subst.
  unfold word, digit in Hb. replace (b =? 120) with false by lia. now rewrite andb_false_r.
Qed.
Lemma show_int_plain z : in_s 64 z -> plain (show_int z) /\ show_int z <> [].
Proof.
  intros H. destruct (show_int_word z) as [W N]; [unfold small, in_s in *; change (64 - 1) with 63 in H; lia|]. split; [|exact N].
  eapply Forall_impl; [|exact W]. unfold word, digit. cbn beta. intros; lia.
Qed.

Lemma written_table nt samples : samples <> [] ->
  write_samples_text nt samples = table_text [10] [10] ([field_timestamp; field_value] :: map (fun s => [show_int (sm_ts s); show_f64 nt (sm_val s)]) samples).
Proof.
  intros H. destruct samples as [|s samples]; [congruence|]. unfold write_samples_text. generalize (s :: samples) as l. clear. intros l.
  enough (E : forall r, row_text r ++ [10] ++ flat_map (fun s => show_int (sm_ts s) ++ [ch_comma] ++ show_f64 nt (sm_val s) ++ [ch_nl]) l =
     table_text [10] [10] (r :: map (fun s => [show_int (sm_ts s); show_f64 nt (sm_val s)]) l)) by exact (E [field_timestamp; field_value]).
  induction l as [|s l IH]; intros r; [reflexivity|]. cbn [flat_map map].
  change (table_text [10] [10] (r :: ?x :: ?y)) with (row_text r ++ [10] ++ table_text [10] [10] (x :: y)). do 2 f_equal. rewrite <- IH. cbn [row_text]. unfold ch_comma, ch_nl. now rewrite <- !app_assoc.
Qed.
