(** Vocabulary for comparing the two ways the crates are built: with overflow checks ([Dev], cargo's default) and without them
    ([Release]). *)
From Coq Require Import List ZArith.
From Verif Require Import Base Model_Cli.

(** The second call returns what the first returns, whenever the first returns at all. *)
Definition follows {A} (checked unchecked : res A) : Prop := forall a, checked = Ok a -> unchecked = Ok a.

(** The same for a call of a command-line tool: unless the checked build panics, the other one ends in the same way and leaves the
    same files. *)
Definition follows_on_disk (checked unchecked : files * outcome) : Prop := snd checked <> Panicked -> unchecked = checked.
