(** Calls that run at the same time, directory calls of atsc among them. *)
From Coq Require Import List ZArith Bool.
From Verif Require Import Base Model_Float Model_Csv Model_Stream Model_Cli Model_Disk Model_Parallel.
Import ListNotations.
Open Scope Z_scope.

(** A call on one file (Model_Parallel), or atsc on a directory (atsc/src/main.rs:50-68) whose listing yields these paths. *)
Inductive tool := Once (c : call) | Walk (a : atsc_args) (entries : list name).

(** Where it is: in a call on one file; in the loop of main.rs:52 with these entries still to come; in process_single_file on the entry [n], for
    the first time (main.rs:55) or [again] (main.rs:65); at its end. *)
Inductive place :=
  | One (ph : phase)
  | Next (a : atsc_args) (rest : list name)
  | Doing (a : atsc_args) (n : name) (again : bool) (rest : list name) (ph : phase)
  | Ended (o : outcome).
Definition start (t : tool) : place := match t with Once c => One (Ready c) | Walk a entries => Next a entries end.
Definition ends_with (st : place) (o : outcome) : Prop := st = Ended o \/ st = One (Busy [] o).

Section ParallelDir.
Variable e : env.
Variable p : profile.
Variable nt : number_text.
Variable in_pieces : bool.

(** One step. [is_file] (main.rs:54) is a step of its own; so is each operation of process_single_file. *)
Inductive step : files -> place -> files -> place -> Prop :=
| single fs ph fs1 ph1 : move e p nt in_pieces fs ph fs1 ph1 -> step fs (One ph) fs1 (One ph1)
| no_more a fs : step fs (Next a []) fs (Ended Done)
| skips a n rest fs : fs n = None -> step fs (Next a (n :: rest)) fs (Next a rest)
| takes a n rest fs : fs n <> None -> step fs (Next a (n :: rest)) fs (Doing a n false rest (Ready (Atsc a n)))
| works a n again rest fs ph fs1 ph1 : move e p nt in_pieces fs ph fs1 ph1 -> step fs (Doing a n again rest ph) fs1 (Doing a n again rest ph1)
| goes_on a n again rest fs : step fs (Doing a n again rest (Busy [] Done)) fs (Next a rest)
| panics a n again rest fs : step fs (Doing a n again rest (Busy [] Panicked)) fs (Ended Panicked)
| tries_again a n rest er fs : step fs (Doing a n false rest (Busy [] (Failed er))) fs (Doing a n true rest (Ready (Atsc a n)))
| gives_up a n rest er fs : step fs (Doing a n true rest (Busy [] (Failed er))) fs (Ended (Failed er)).

(** Any number of steps, each by any of the calls. *)
Inductive side_by_side : files -> list place -> files -> list place -> Prop :=
| at_rest fs sts : side_by_side fs sts fs sts
| one_steps fs before st after fs1 st1 fs' sts' :
    step fs st fs1 st1 -> side_by_side fs1 (before ++ st1 :: after) fs' sts' -> side_by_side fs (before ++ st :: after) fs' sts'.
End ParallelDir.

(** The same call with nobody else around. *)
Definition by_itself (e : env) (p : profile) (nt : number_text) (t : tool) (fs : files) : files * outcome :=
  match t with Once c => alone e p nt c fs | Walk a entries => process_directory e p nt a fs entries end.
