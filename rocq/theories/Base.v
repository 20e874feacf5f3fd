(** Shared vocabulary of the model: panics, results, bytes, fixed-width integers.
    Nothing here models a particular file of /repo; the comments in the Model_*.v
    files do. *)
From Coq Require Export List ZArith Lia Bool Arith.
Export ListNotations.
Open Scope Z_scope.

(** Why a Rust program panics. The reason is informative only: no theorem equates
    two panics with different reasons unless it says so. *)
Inductive panic :=
| PUnwrap          (* Result::unwrap / expect / Option::unwrap on the bad case *)
| PTodo            (* todo!() *)
| PIndex           (* slice / array index or split_at out of bounds *)
| PDivZero         (* integer division by zero, step_by(0) *)
| POverflow        (* arithmetic overflow in a build with overflow checks *)
| PExplicit        (* panic!() *)
| PFuel.           (* never produced by Rust: the model's recursion ran out of fuel *)

(** The result of a call that may panic. *)
Inductive res (A : Type) :=
| Ok (a : A)
| Panic (p : panic).
Arguments Ok {A} a.
Arguments Panic {A} p.

Lemma ok_inj {A} (a b : A) : Ok a = Ok b -> a = b.
Proof. intros H. exact (match H in _ = r return match r with Ok c => a = c | Panic _ => True end with eq_refl => eq_refl end). Qed.

Definition bind {A B} (x : res A) (f : A -> res B) : res B :=
  match x with Ok a => f a | Panic p => Panic p end.
Notation "'do' x <- e ; f" := (bind e (fun x => f))
  (at level 200, x pattern, e at level 100, f at level 200, right associativity).

(** [map] for a function that may panic, left to right (Rust iterator order). *)
Fixpoint map_res {A B} (f : A -> res B) (l : list A) : res (list B) :=
  match l with
  | [] => Ok []
  | a :: l' => do b <- f a; do r <- map_res f l'; Ok (b :: r)
  end.

(** [for x in l { s = f(s, x)? }]. *)
Fixpoint fold_res {A S} (f : S -> A -> res S) (l : list A) (s : S) : res S :=
  match l with
  | [] => Ok s
  | a :: l' => do s' <- f s a; fold_res f l' s'
  end.

(** Bytes are integers in [0,256). *)
Definition byte_ok (b : Z) : Prop := 0 <= b < 256.
Definition bytes_ok (l : list Z) : Prop := Forall byte_ok l.

(** Build profile: Cargo's dev profile has overflow checks, release does not
    (Cargo.toml sets neither explicitly). *)
Inductive profile := Dev | Release.

(** Two's complement reduction to [bits] bits, signed and unsigned ([as] casts). *)
Definition wrap_u (bits : Z) (z : Z) : Z := z mod 2 ^ bits.
Definition wrap_s (bits : Z) (z : Z) : Z :=
  (z + 2 ^ (bits - 1)) mod 2 ^ bits - 2 ^ (bits - 1).

Definition in_u (bits : Z) (z : Z) : Prop := 0 <= z < 2 ^ bits.
Definition in_s (bits : Z) (z : Z) : Prop := - 2 ^ (bits - 1) <= z < 2 ^ (bits - 1).
Definition in_ub (bits : Z) (z : Z) : bool := (0 <=? z) && (z <? 2 ^ bits).
Definition in_sb (bits : Z) (z : Z) : bool :=
  (- 2 ^ (bits - 1) <=? z) && (z <? 2 ^ (bits - 1)).

(** Result of an i32 / unsigned arithmetic operation with exact value [z]. *)
Definition arith_s (p : profile) (bits z : Z) : res Z :=
  if in_sb bits z then Ok z
  else match p with Dev => Panic POverflow | Release => Ok (wrap_s bits z) end.
Definition arith_u (p : profile) (bits z : Z) : res Z :=
  if in_ub bits z then Ok z
  else match p with Dev => Panic POverflow | Release => Ok (wrap_u bits z) end.
