(** UTF-8: the encoding of a sequence of Unicode scalar values (RFC 3629). *)
From Coq Require Import List ZArith.
Import ListNotations.
Open Scope Z_scope.

(** Code points U+0000..U+10FFFF without the surrogates U+D800..U+DFFF. *)
Definition scalar (u : Z) : Prop := 0 <= u < 55296 \/ 57344 <= u < 1114112.
(** One to four bytes: 0xxxxxxx, 110xxxxx 10xxxxxx, 1110xxxx 10xxxxxx 10xxxxxx, 11110xxx 10xxxxxx 10xxxxxx 10xxxxxx. *)
Definition encoded (u : Z) : list Z :=
  if u <? 128 then [u]
  else if u <? 2048 then [192 + u / 64; 128 + u mod 64]
  else if u <? 65536 then [224 + u / 4096; 128 + (u / 64) mod 64; 128 + u mod 64]
  else [240 + u / 262144; 128 + (u / 4096) mod 64; 128 + (u / 64) mod 64; 128 + u mod 64].
Definition is_utf8 (t : list Z) : Prop := exists us, Forall scalar us /\ t = flat_map encoded us.
