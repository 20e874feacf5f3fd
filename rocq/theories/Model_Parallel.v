(** Several calls of the tools at the same time. A call looks at its input files in one step (Model_Disk computes what it is going to do then) and
    carries out its file operations one by one; the steps of all calls interleave in any order. *)
From Coq Require Import List ZArith Bool.
From Verif Require Import Base Model_Float Model_Csv Model_Stream Model_Cli Model_Disk.
Import ListNotations.
Open Scope Z_scope.

(** A call of atsc on one file (atsc/src/main.rs:70-127) or of csv-compressor (csv-compressor/src/main.rs:141-211). *)
Inductive call := Atsc (a : atsc_args) (n : name) | Csvc (c : csvc_args).

(** Where a call is: before looking at its input, or with these operations still to be done and this end. *)
Inductive phase := Ready (c : call) | Busy (ops : list disk_op) (o : outcome).

Section Parallel.
Variable e : env.
Variable p : profile.
Variable nt : number_text.
(** Whether the operating system may carry out a write in several pieces, between which other calls come to act. *)
Variable in_pieces : bool.

Definition plan_of (c : call) (fs : files) : list disk_op * outcome :=
  match c with Atsc a n => ops_single_file e p nt a fs n | Csvc c => ops_csvc e p nt c fs end.

Inductive move : files -> phase -> files -> phase -> Prop :=
| looks c fs : move fs (Ready c) fs (Busy (fst (plan_of c fs)) (snd (plan_of c fs)))
| acts op ops o fs : move fs (Busy (op :: ops) o) (do_op fs op) (Busy ops o)
| acts_in_part n off b k ops o fs : in_pieces = true ->
    move fs (Busy (WriteAt n off b :: ops) o) (do_op fs (WriteAt n off (firstn k b))) (Busy (WriteAt n (off + length (firstn k b)) (skipn k b) :: ops) o).

(** Any number of steps, each by any of the calls. *)
Inductive together : files -> list phase -> files -> list phase -> Prop :=
| rest_now fs phs : together fs phs fs phs
| one_moves fs before ph after fs1 ph1 fs' phs' :
    move fs ph fs1 ph1 -> together fs1 (before ++ ph1 :: after) fs' phs' -> together fs (before ++ ph :: after) fs' phs'.
End Parallel.

(** The same call with nobody else around. *)
Definition alone (e : env) (p : profile) (nt : number_text) (c : call) (fs : files) : files * outcome :=
  match c with Atsc a n => process_single_file e p nt a fs n | Csvc c => csvc_process_args e p nt c fs end.
