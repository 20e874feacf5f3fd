(** C40: the timestamps that have a second of the day, by the calendar. *)
From Coq Require Import List ZArith Bool Lia ZifyBool.
From Verif Require Import Base Model_Vsri Props_Tools.
Import ListNotations.
Open Scope Z_scope.

(** The Gregorian calendar, extended to all years: every fourth year is a leap year, except the hundreds that are not four-hundreds. *)
Definition leap (y : Z) : Prop := y mod 4 = 0 /\ (y mod 100 <> 0 \/ y mod 400 = 0).
(** [starts y] is the first second of year [y], counted from the first second of 1970: 365 days a year and one more in a leap year. *)
Definition year_starts (starts : Z -> Z) : Prop :=
  starts 1970 = 0 /\ forall y, (leap y -> starts (y + 1) = starts y + 366 * 86400) /\ (~ leap y -> starts (y + 1) = starts y + 365 * 86400).
Definition year_start (y : Z) : Z := 86400 * (365 * (y - 1) + (y - 1) / 4 - (y - 1) / 100 + (y - 1) / 400 - 719162).
Lemma year_start_ok : year_starts year_start.
Proof. split; [reflexivity|]. intros y. unfold year_start, leap. replace (y + 1 - 1) with y by lia. split; intros H; Z.to_euclidean_division_equations; lia. Qed.
Lemma year_starts_unique f : year_starts f -> forall y, f y = year_start y.
Proof.
  intros [H1 H2] y. destruct year_start_ok as [G1 G2].
  assert (D : forall y, leap y \/ ~ leap y) by (intros z; unfold leap; lia).
  assert (St : forall y, f (y + 1) - f y = year_start (y + 1) - year_start y).
  { intros z. destruct (H2 z), (G2 z). destruct (D z) as [L|L]; [rewrite H, H3 by exact L|rewrite H0, H4 by exact L]; lia. }
  assert (U : forall n : nat, f (1970 + Z.of_nat n) = year_start (1970 + Z.of_nat n) /\ f (1970 - Z.of_nat n) = year_start (1970 - Z.of_nat n)).
  { induction n as [|n [I1 I2]]; [change (Z.of_nat 0) with 0; rewrite Z.add_0_r, Z.sub_0_r; split; congruence|]. rewrite Nat2Z.inj_succ.
    replace (1970 + Z.succ (Z.of_nat n)) with (1970 + Z.of_nat n + 1) by lia. assert (A := St (1970 + Z.of_nat n)). assert (B := St (1970 - Z.succ (Z.of_nat n))).
    replace (1970 - Z.succ (Z.of_nat n) + 1) with (1970 - Z.of_nat n) in B by lia. split; lia. }
  destruct (Z_le_gt_dec 1970 y); [destruct (U (Z.to_nat (y - 1970))) as [E _]; replace (1970 + Z.of_nat (Z.to_nat (y - 1970))) with y in E by lia; exact E|].
  destruct (U (Z.to_nat (1970 - y))) as [_ E]. replace (1970 - Z.of_nat (Z.to_nat (1970 - y))) with y in E by lia. exact E.
Qed.

(** Exactly the timestamps of the years -262143 to 262142 have a second of the day; the call panics on all others. *)
Theorem C40_calendar : forall starts t, year_starts starts ->
  (starts (-262143) <= t < starts 262143 <-> day_elapsed_seconds t = Ok (t mod 86400)) /\
  (t < starts (-262143) \/ starts 262143 <= t <-> day_elapsed_seconds t = Panic PUnwrap).
Proof.
  intros starts t H. rewrite !(year_starts_unique starts H). destruct (C40_second_of_day t) as (H1 & H2 & _).
  change (year_start (-262143)) with chrono_min. replace (year_start 262143) with (chrono_max + 1) by reflexivity.
  split; split; intros G.
  - apply H1. lia.
  - destruct (Z_lt_le_dec t chrono_min); [rewrite H2 in G by lia; discriminate G|]. destruct (Z_lt_le_dec chrono_max t); [rewrite H2 in G by lia; discriminate G|]. lia.
  - apply H2. lia.
  - destruct (Z_lt_le_dec t chrono_min); [lia|]. destruct (Z_lt_le_dec chrono_max t); [lia|]. rewrite H1 in G by lia. discriminate G.
Qed.
Print Assumptions C40_calendar.
(** The first second of 2024 is 1704067200, that of 2025 comes 366 days later. *)
Example C40_calendar_example : year_start 2024 = 1704067200 /\ year_start 2025 = 1704067200 + 366 * 86400 /\ leap 2024.
Proof. repeat split; try reflexivity. left. discriminate. Qed.
