(** [str::from_utf8] (core/src/str/validations.rs run_utf8_validation), called by the csv crate on every field of a record it turns into
    a [StringRecord] (csv 1.3 ByteRecord::validate; its shortcut for a record of ASCII bytes gives the same answer). *)
From Coq Require Import List ZArith Bool.
Import ListNotations.
Open Scope Z_scope.

Definition between (a b c : Z) : bool := (a <=? c) && (c <=? b).
Definition continuation (c : Z) : bool := between 128 191 c.
(** The second byte of a sequence of three or four bytes that starts with [a]. *)
Definition second3 (a b : Z) : bool := between (if a =? 224 then 160 else 128) (if a =? 237 then 159 else 191) b.
Definition second4 (a b : Z) : bool := between (if a =? 240 then 144 else 128) (if a =? 244 then 143 else 191) b.

Fixpoint utf8 (t : list Z) : bool :=
  match t with
  | [] => true
  | a :: r =>
    if between 0 127 a then utf8 r
    else if between 194 223 a then match r with b :: r => continuation b && utf8 r | _ => false end
    else if between 224 239 a then match r with b :: c :: r => second3 a b && continuation c && utf8 r | _ => false end
    else if between 240 244 a then match r with b :: c :: d :: r => second4 a b && continuation c && continuation d && utf8 r | _ => false end
    else false
  end.
