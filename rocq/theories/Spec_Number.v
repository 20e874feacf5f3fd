(** Numbers as text: the vocabulary. *)
From Coq Require Import List ZArith Reals String Ascii.
From Flocq Require Import Core.
From Verif Require Import Base Model_Float Spec.
Import ListNotations.
Open Scope Z_scope.

(** The ASCII digits, and the whole number that digits write in the decimal system. *)
Definition digit (c : Z) : Prop := 48 <= c <= 57.
Fixpoint whole (ds : list Z) : Z :=
  match ds with
  | [] => 0
  | c :: r => (c - 48) * 10 ^ Z.of_nat (length r) + whole r
  end.

(** A sign: nothing, a plus (43), or a minus (45). *)
Definition sign_is (neg : bool) (t : list Z) : Prop :=
  (t = [] /\ neg = false) \/ (t = [43] /\ neg = false) \/ (t = [45] /\ neg = true).

(** An exponent: nothing, or e (101) or E (69), a sign, and digits. *)
Definition exponent_is (x : Z) (t : list Z) : Prop :=
  (t = [] /\ x = 0) \/
  exists c sg ds neg, t = c :: sg ++ ds /\ (c = 101 \/ c = 69) /\ sign_is neg sg /\ Forall digit ds /\ ds <> [] /\
    x = if neg then - whole ds else whole ds.

(** Without sign: digits, perhaps with a point (46) somewhere, perhaps an exponent. The number written is [m] times ten to the [k]. *)
Definition decimal_is (m k : Z) (t : list Z) : Prop :=
  exists a point b e x, t = a ++ point ++ b ++ e /\ Forall digit a /\ Forall digit b /\ a ++ b <> [] /\
    (point = [46] \/ point = [] /\ b = []) /\ exponent_is x e /\ m = whole (a ++ b) /\ k = x - Z.of_nat (length b).

Definition ten_to (k : Z) : R := powerRZ 10 k.

(** The text writes the number -v (neg) or v. *)
Definition writes (t : list Z) (neg : bool) (v : R) : Prop :=
  exists sg m k t', t = sg ++ t' /\ sign_is neg sg /\ decimal_is m k t' /\ v = (IZR m * ten_to k)%R.

(** [x] is the double for the number -v or v, 0 <= v: the nearest one, of two equally near the one with the even mantissa, and an infinity from
    2^1024 - 2^970 on. It has the sign written, also if it is 0. *)
Definition nearest64 (v : R) : R := round radix2 (FLT_exp (-1074) 53) ZnearestE v.
Definition double_for (neg : bool) (v : R) (x : f64) : Prop :=
  Binary.Bsign 53 1024 x = neg /\
  (((v < bpow radix2 1024 - bpow radix2 970)%R /\ finite x /\ R64 x = (if neg then - nearest64 v else nearest64 v)%R) \/
   ((bpow radix2 1024 - bpow radix2 970 <= v)%R /\ fis_infinite x = true)).

(** Words: equal up to the case of letters. *)
Definition same_letter (c d : Z) : Prop := c = d \/ (97 <= d <= 122 /\ c = d - 32).
Definition same_word (t w : list Z) : Prop := Forall2 same_letter t w.

Definition ascii_text (s : string) : list Z := map (fun c => Z.of_nat (nat_of_ascii c)) (list_ascii_of_string s).
Arguments ascii_text s%string.

(** The number [v] can be written with [n] digits, zeros before the first and after the last digit not counted. *)
Definition with_digits (n : nat) (v : R) : Prop := exists m k, 0 < m < 10 ^ Z.of_nat n /\ v = (IZR m * ten_to k)%R.

(** The usual text of an integer: a minus if it is negative, and digits that do not start with 0 (48) except for 0 itself. *)
Definition integer_text (z : Z) (t : list Z) : Prop :=
  exists ds, t = (if z <? 0 then [45] else []) ++ ds /\ Forall digit ds /\ whole ds = Z.abs z /\ (z = 0 -> ds = [48]) /\ (z <> 0 -> ds <> [] /\ hd_error ds <> Some 48).
