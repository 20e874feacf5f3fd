(** Numbers as text: what the Rust standard library and the ryu crate do for the two places where /repo turns text into doubles and
    back: [value.parse::<f64>()] (atsc/src/csv.rs:85-93 and 113-120, csv-compressor/src/csv.rs:43-47 through csv's deserializer,
    whose [deserialize_f64] is [field.parse()]) and [writer.serialize(sample)] (csv-compressor/src/csv.rs:50-59; csv's
    [serialize_f64] writes [ryu::Buffer::format]).
    Neither crate is part of /repo: this file models their documented behaviour, and the theorems about it say what that is in terms
    of real numbers. Simplification: the standard library stops reading the digits of an exponent at 65536, which makes a difference
    only for texts of more than 65000 characters. *)
From Coq Require Import List ZArith Bool.
From Flocq Require Import Core.Zaux Core.FLT Core.Digits Calc.Bracket Calc.Div IEEE754.BinarySingleNaN IEEE754.Binary IEEE754.Bits.
From Verif Require Import Base Model_Float Model_Vsri Model_Csv.
Import ListNotations.
Open Scope Z_scope.

(** The result of a rounding as a double (it is representable, so that nothing is rounded here). *)
Definition sf_as_f64 (z : SpecFloat.spec_float) : f64 :=
  match z with
  | SpecFloat.S754_zero s => B754_zero 53 1024 s
  | SpecFloat.S754_infinity s => B754_infinity 53 1024 s
  | SpecFloat.S754_nan => proj1_sig default_nan_pl64
  | SpecFloat.S754_finite s m e => Binary.binary_normalize 53 1024 prec53_gt_0 prec53_lt_emax mode_NE (SpecFloat.cond_Zopp s (Zpos m)) e s
  end.

(** The double nearest to n/d (n, d positive), ties to even, with the given sign. *)
Definition nearest_ratio (neg : bool) (n d : Z) : f64 :=
  let '(m, e, l) := Fdiv (FLT_exp (-1074) 53) (Defs.Float radix2 n 0) (Defs.Float radix2 d 0) in
  sf_as_f64 (BinarySingleNaN.binary_round_aux 53 1024 mode_NE neg m e l).

(** The double nearest to m*10^k (m not negative). *)
Definition nearest_decimal (neg : bool) (m k : Z) : f64 :=
  if m =? 0 then B754_zero 53 1024 neg
  else if 0 <=? k then nearest_ratio neg (m * 10 ^ k) 1 else nearest_ratio neg m (10 ^ (- k)).

(** * core::num::dec2flt: [str::parse::<f64>]. *)
Fixpoint take_digits (t : text) : text * text :=
  match t with
  | c :: r => if is_digit c then let '(a, b) := take_digits r in (c :: a, b) else ([], t)
  | [] => ([], [])
  end.
Definition digits_value (ds : text) : Z := fold_left (fun a c => 10 * a + (c - 48)) ds 0.

(** An optional sign. *)
Definition take_sign (t : text) : bool * text :=
  match t with
  | c :: r => if c =? ch_minus then (true, r) else if c =? ch_plus then (false, r) else (false, t)
  | [] => (false, [])
  end.

(** parse_scientific: the exponent, which must end the text. *)
Definition parse_exponent (t : text) : option Z :=
  match t with
  | [] => Some 0
  | c :: r =>
    if (c =? 101) || (c =? 69) then
      let '(neg, r1) := take_sign r in
      match take_digits r1 with
      | (d :: ds, []) => let v := digits_value (d :: ds) in Some (if neg then - v else v)
      | _ => None
      end
    else None
  end.

(** parse_number: digits with an optional point, at least one digit, and an optional exponent; gives (m, k) for m*10^k. *)
Definition parse_decimal (t : text) : option (Z * Z) :=
  let '(a, r) := take_digits t in
  let '(b, r') := match r with
                  | c :: r1 => if c =? 46 then take_digits r1 else ([], r)
                  | [] => ([], [])
                  end in
  match a ++ b with
  | [] => None
  | ds => match parse_exponent r' with Some x => Some (digits_value ds, x - Z.of_nat (length b)) | None => None end
  end.

(** parse_inf_nan, ignoring the case of letters. *)
Definition lower (c : Z) : Z := if (65 <=? c) && (c <=? 90) then c + 32 else c.
Definition word_inf : text := [105; 110; 102].
Definition word_infinity : text := [105; 110; 102; 105; 110; 105; 116; 121].
Definition word_nan : text := [110; 97; 110].
Definition nan_f64 (neg : bool) : f64 := from_bits (if neg then 18444492273895866368 else 9221120237041090560).
Definition parse_special (neg : bool) (t : text) : option f64 :=
  let w := map lower t in
  if text_eqb w word_inf || text_eqb w word_infinity then Some (B754_infinity 53 1024 neg)
  else if text_eqb w word_nan then Some (nan_f64 neg) else None.

Definition std_parse (t : text) : option f64 :=
  let '(neg, r) := take_sign t in
  match parse_decimal r with
  | Some (m, k) => Some (nearest_decimal neg m k)
  | None => parse_special neg r
  end.

(** * ryu: the shortest decimal that reads back as the same double, and of those the one nearest to it. *)

Definition radix10 : radix := Build_radix 10 eq_refl.
(** For a number between 10^(E-1) and 10^E, E. *)
Definition decimal_exponent (n d : Z) : Z := Zdigits radix10 (n * 10 ^ 400 / d) - 400.
(** floor and remainder test of (n/d)/10^k: the quotient and twice the remainder against the divisor. *)
Definition scaled (n d k : Z) : Z * comparison :=
  let n' := if 0 <=? k then n else n * 10 ^ (- k) in
  let d' := if 0 <=? k then d * 10 ^ k else d in
  (n' / d', Z.compare (2 * (n' mod d')) d').
Definition same_bits (x y : f64) : bool := to_bits x =? to_bits y.

(** Decimals of [digits] digits and more: the two neighbours of n/d with that many digits are tried; if both read back as [x] the
    nearer one is taken; at equal distance [tie] tells from the lower one whether to go up (the two printers of Rust programs differ here). *)
Fixpoint shortest (tie : Z -> bool) (fuel : nat) (x : f64) (neg : bool) (n d expo digits : Z) : option (Z * Z) :=
  match fuel with
  | O => None
  | S fuel' =>
    let k := expo - digits in
    let '(lo, c) := scaled n d k in
    let below := same_bits (nearest_decimal neg lo k) x in
    let above := same_bits (nearest_decimal neg (lo + 1) k) x in
    let up := match c with Lt => false | Gt => true | Eq => tie lo end in
    if below && above then Some (if up then lo + 1 else lo, k)
    else if below then Some (lo, k)
    else if above then Some (lo + 1, k)
    else shortest tie fuel' x neg n d expo (digits + 1)
  end.

(** A decimal of n digits may come out as 10^n: it is then one digit. *)
Definition stripped (m k digits : Z) : Z * Z := if m =? 10 ^ digits then (1, k + digits) else (m, k).

(** ryu's pretty::format64: the digits of [m] and the exponent [k] laid out. *)
Definition zeros (n : Z) : text := repeat 48 (Z.to_nat n).
Definition layout (m k : Z) : text :=
  let ds := show_int m in
  let len := Z.of_nat (length ds) in
  let kk := len + k in
  if (0 <=? k) && (kk <=? 16) then ds ++ zeros k ++ [46; 48]
  else if (0 <? kk) && (kk <=? 16) then firstn (Z.to_nat kk) ds ++ [46] ++ skipn (Z.to_nat kk) ds
  else if (-5 <? kk) && (kk <=? 0) then [48; 46] ++ zeros (- kk) ++ ds
  else if len =? 1 then ds ++ [101] ++ show_int (kk - 1)
  else firstn 1 ds ++ [46] ++ skipn 1 ds ++ [101] ++ show_int (kk - 1).

(** The shortest decimal laid out by [lay]; the words and zeros are the same in both printers. *)
Definition shown (tie : Z -> bool) (lay : Z -> Z -> text) (x : f64) : text :=
  match x with
  | B754_nan _ _ _ _ _ => [78; 97; 78]
  | B754_infinity _ _ s => (if s then [45] else []) ++ word_inf
  | B754_zero _ _ s => (if s then [45] else []) ++ [48; 46; 48]
  | B754_finite _ _ s m e _ =>
    let n := if 0 <=? e then Zpos m * 2 ^ e else Zpos m in
    let d := if 0 <=? e then 1 else 2 ^ (- e) in
    let expo := decimal_exponent n d in
    (if s then [45] else []) ++
    match shortest tie 17 x s n d expo 1 with
    | Some (m', k) => let '(m'', k'') := stripped m' k (expo - k) in lay m'' k''
    | None => []
    end
  end.

(** ryu takes the even one of two equally near decimals. *)
Definition ryu_show : f64 -> text := shown Z.odd layout.

Definition std_numbers : number_text := {| parse_f64 := std_parse; show_f64 := ryu_show |}.
