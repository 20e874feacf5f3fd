(** Model of vsri/src/lib.rs: the Very Small Rolo Index.
    All 32-bit arithmetic goes through [arith_s p 32]: it panics on overflow in the dev profile and wraps
    in release. The [debug!]/[warn!] lines are not modelled (they have no effect on the results; the only
    arithmetic in them, lib.rs:417, is repeated on the next statement). *)
From Coq Require Import List ZArith Bool Lia.
From Verif Require Import Base.
Import ListNotations.
Open Scope Z_scope.

(** vsri/src/lib.rs:107 [i32; 4]: [Sample Rate (m), X0, Y0, # of Samples]. *)
Record segment := Seg { sg_m : Z; sg_x : Z; sg_y : Z; sg_n : Z }.

(** vsri/src/lib.rs:102-108 struct Vsri. [index_file] only names the file used by [flush]; it is not modelled. *)
Record vsri := Vsri { vs_min : Z; vs_max : Z; vs_segs : list segment }.

(** vsri/src/lib.rs:46 MAX_INDEX_SAMPLES. *)
Definition max_index_samples : Z := 86400.

(** Rust's [a / b] on i32: panics if b = 0, and on i32::MIN / -1 in both profiles; truncates toward zero. *)
Definition i32_div (a b : Z) : res Z :=
  if b =? 0 then Panic PDivZero
  else if (a =? - 2 ^ 31) && (b =? -1) then Panic POverflow
  else Ok (Z.quot a b).

(** vsri/src/lib.rs:113-121 Vsri::new. *)
Definition vsri_new : vsri := Vsri 0 0 [].

(** vsri/src/lib.rs:303-308 current_segment. *)
Definition current_segment (v : vsri) : segment := last (vs_segs v) (Seg 0 0 0 0).

(** vsri/src/lib.rs:296-300 calculate_b. *)
Definition calculate_b (p : profile) (s : segment) : res Z :=
  do mx <- arith_s p 32 (sg_m s * sg_x s); arith_s p 32 (sg_y s - mx).

(** vsri/src/lib.rs:364-367 get_sample_count. *)
Definition get_sample_count (p : profile) (v : vsri) : res Z :=
  let s := current_segment v in arith_s p 32 (sg_n s + sg_x s).

(** vsri/src/lib.rs:371-383 generate_segment. *)
Definition generate_segment (p : profile) (v : vsri) (y : Z) : res segment :=
  let s := current_segment v in
  if negb (sg_m s =? 0) then Ok s
  else do m <- arith_s p 32 (y - sg_y s); Ok (Seg m (sg_x s) (sg_y s) 2).

(** vsri/src/lib.rs:388-394 create_fake_segment. *)
Definition create_fake_segment (p : profile) (v : vsri) (y : Z) : res segment :=
  let s := current_segment v in
  do x <- arith_s p 32 (sg_x s + sg_n s); Ok (Seg 0 x y 1).

(** vsri/src/lib.rs:397-400 is_fake_segment. *)
Definition is_fake_segment (v : vsri) : bool := sg_m (current_segment v) =? 0.

(** vsri/src/lib.rs:403-420 fits_segment. *)
Definition fits_segment (p : profile) (v : vsri) (y : Z) : res bool :=
  let s := current_segment v in
  do b <- calculate_b p s;
  do yb <- arith_s p 32 (y - b);
  do xv <- i32_div yb (sg_m s);
  do nx <- arith_s p 32 (sg_n s + sg_x s);
  Ok (xv =? nx).

(** [self.vsri_segments[segment_count - 1] = s]. *)
Definition set_last (l : list segment) (s : segment) : list segment := removelast l ++ [s].

(** vsri/src/lib.rs:249-284 update_for_point. The boolean is [true] for Ok(()), [false] for
    Err(UpdateIndexForPointError). *)
Definition update_for_point (p : profile) (v : vsri) (y : Z) : res (vsri * bool) :=
  if y <? vs_max v then Ok (v, false)
  else
    let v1 := Vsri (vs_min v) y (vs_segs v) in
    match vs_segs v with
    | [] => do s <- create_fake_segment p v1 y; Ok (Vsri y y [s], true)
    | _ :: _ =>
      if is_fake_segment v1
      then do s <- generate_segment p v1 y; Ok (Vsri (vs_min v) y (set_last (vs_segs v) s), true)
      else
        do f <- fits_segment p v1 y;
        if f
        then let s := current_segment v1 in
             do n <- arith_s p 32 (sg_n s + 1);
             Ok (Vsri (vs_min v) y (set_last (vs_segs v) (Seg (sg_m s) (sg_x s) (sg_y s) n)), true)
        else do s <- create_fake_segment p v1 y; Ok (Vsri (vs_min v) y (vs_segs v ++ [s]), true)
    end.

(** A history of calls to [update_for_point] on a new index, with the answers. *)
Fixpoint update_all (p : profile) (v : vsri) (ys : list Z) : res (vsri * list bool) :=
  match ys with
  | [] => Ok (v, [])
  | y :: ys' => do (v1, b) <- update_for_point p v y; do (v2, bs) <- update_all p v1 ys'; Ok (v2, b :: bs)
  end.

(** [y0 + (sample_rate * (num_samples - 1))], lib.rs:221 and 317. *)
Definition segment_end (p : profile) (s : segment) : res Z :=
  do k <- arith_s p 32 (sg_n s - 1); do mk <- arith_s p 32 (sg_m s * k); arith_s p 32 (sg_y s + mk).

(** vsri/src/lib.rs:311-327 get_sample. *)
Fixpoint get_sample_in (p : profile) (segs : list segment) (y : Z) : res (option Z) :=
  match segs with
  | [] => Ok None
  | s :: r =>
    do e <- segment_end p s;
    if (sg_y s <=? y) && (y <=? e)
    then do b <- calculate_b p s; do yb <- arith_s p 32 (y - b); do x <- i32_div yb (sg_m s); Ok (Some x)
    else get_sample_in p r y
  end.
Definition get_sample (p : profile) (v : vsri) (y : Z) : res (option Z) := get_sample_in p (vs_segs v) y.

(** vsri/src/lib.rs:330-350 get_time. *)
Fixpoint get_time_in (p : profile) (segs : list segment) (x : Z) : res (option Z) :=
  match segs with
  | [] => Ok None
  | s :: r =>
    if sg_x s <=? x
    then do e <- arith_s p 32 (sg_x s + sg_n s);
         if x <? e
         then do mx <- arith_s p 32 (sg_m s * x); do y <- arith_s p 32 (sg_y s + mx); Ok (Some y)
         else get_time_in p r x
    else get_time_in p r x
  end.
Definition get_time (p : profile) (v : vsri) (x : Z) : res (option Z) :=
  if x =? 0 then Ok (Some (vs_min v))
  else
    do c <- get_sample_count p v;
    if c <? x then Ok None else if x =? c then Ok (Some (vs_max v)) else get_time_in p (vs_segs v) x.

(** vsri/src/lib.rs:352-362 get_all_timestamps; [(0..samples)] is empty when samples <= 0. *)
Definition segment_timestamps (p : profile) (s : segment) : res (list Z) :=
  map_res (fun f => do fm <- arith_s p 32 (Z.of_nat f * sg_m s); arith_s p 32 (fm + sg_y s)) (seq 0 (Z.to_nat (sg_n s))).
Definition get_all_timestamps (p : profile) (v : vsri) : res (list Z) :=
  do ls <- map_res (segment_timestamps p) (vs_segs v); Ok (concat ls).

(** vsri/src/lib.rs:154-169 get_next_sample: the segments are visited from the last to the first. *)
Fixpoint next_in (segs : list segment) (y : Z) : option Z :=
  match segs with
  | [] => None
  | s :: r => if y <=? sg_y s then Some (sg_x s) else next_in r y
  end.
Definition get_next_sample (v : vsri) (y : Z) : option Z :=
  if y <? vs_min v then Some 0
  else if vs_max v <=? y then None
  else next_in (rev (vs_segs v)) y.

(** vsri/src/lib.rs:175-193 get_previous_sample. *)
Fixpoint previous_in (p : profile) (segs : list segment) (y : Z) : res (option Z) :=
  match segs with
  | [] => Ok None
  | s :: r => if y <? sg_y s then do x <- arith_s p 32 (sg_x s - 1); Ok (Some x) else previous_in p r y
  end.
Definition get_previous_sample (p : profile) (v : vsri) (y : Z) : res (option Z) :=
  if y <? vs_min v then Ok None
  else if vs_max v <=? y then do c <- get_sample_count p v; Ok (Some c)
  else previous_in p (vs_segs v) y.

(** vsri/src/lib.rs:137-141 get_this_or_next ([or_else]: the second lookup only runs if the first gives None). *)
Definition get_this_or_next (p : profile) (v : vsri) (y : Z) : res (option Z) :=
  do r <- get_sample p v y; Ok (match r with Some x => Some x | None => get_next_sample v y end).

(** vsri/src/lib.rs:144-148 get_this_or_previous ([or]: both lookups always run). *)
Definition get_this_or_previous (p : profile) (v : vsri) (y : Z) : res (option Z) :=
  do r <- get_sample p v y; do q <- get_previous_sample p v y; Ok (match r with Some x => Some x | None => q end).

(** vsri/src/lib.rs:197-245 is_empty. The loop carries the end of the previous segment and whether this is not
    the first segment. *)
Fixpoint is_empty_in (p : profile) (segs : list segment) (first : bool) (prev_end a b : Z) : res bool :=
  match segs with
  | [] => Ok true
  | s :: r =>
    do e <- segment_end p s;
    if negb first && (prev_end <? a) && (b <? sg_y s) then Ok true
    else if ((sg_y s <=? a) && (a <? e)) || ((b <? e) && (sg_y s <=? b)) then Ok false
    else if (a <? sg_y s) && (e <? b) then Ok false
    else is_empty_in p r false e a b
  end.
Definition is_empty (p : profile) (v : vsri) (a b : Z) : res bool :=
  match vs_segs v with
  | [_] =>
    if ((vs_min v <=? a) && (a <=? vs_max v)) || ((b <=? vs_max v) && (vs_min v <=? b)) then Ok false
    else if (a <? vs_min v) && (vs_max v <? b) then Ok false
    else Ok true
  | segs => is_empty_in p segs true 0 a b
  end.

(** * Text form *)
(** Characters are byte values. The model covers ASCII files only: on bytes of 128 and more the real [lines()]
    checks UTF-8 and [trim] knows Unicode spaces; [load] below is only claimed for files without such bytes
    (everything [flush_to] writes is ASCII). *)
Definition ch_nl : Z := 10.
Definition ch_cr : Z := 13.
Definition ch_comma : Z := 44.
Definition ch_minus : Z := 45.
Definition ch_plus : Z := 43.

(** Decimal digits of a non-negative number, most significant first ([Display for i32], core). *)
Fixpoint digits_fuel (fuel : nat) (z : Z) : list Z :=
  match fuel with
  | O => []
  | S k => if z <? 10 then [48 + z] else digits_fuel k (z / 10) ++ [48 + z mod 10]
  end.
(** [Display for i32]; 40 digits are more than enough for 32-bit (10) and 64-bit (19) numbers. *)
Definition show_int (z : Z) : list Z :=
  if z <? 0 then ch_minus :: digits_fuel 40 (- z) else digits_fuel 40 z.

(** vsri/src/lib.rs:434-453 flush_to: the bytes written to the file. *)
Definition show_segment (s : segment) : list Z :=
  show_int (sg_m s) ++ [ch_comma] ++ show_int (sg_x s) ++ [ch_comma] ++ show_int (sg_y s) ++ [ch_comma] ++ show_int (sg_n s) ++ [ch_nl].
Definition flush_bytes (v : vsri) : list Z :=
  show_int (vs_min v) ++ [ch_nl] ++ show_int (vs_max v) ++ [ch_nl] ++ concat (map show_segment (vs_segs v)).

(** [str::parse::<i32>] (core::num::from_str_radix): an optional sign, at least one digit, only digits,
    the value in range. *)
Definition is_digit (c : Z) : bool := (48 <=? c) && (c <=? 57).
Fixpoint parse_digits (l : list Z) (acc : Z) : option Z :=
  match l with
  | [] => Some acc
  | c :: r => if is_digit c then parse_digits r (acc * 10 + (c - 48)) else None
  end.
Definition parse_i32 (l : list Z) : option Z :=
  let check v := if in_sb 32 v then Some v else None in
  match l with
  | [] => None
  | c :: r =>
    if (c =? ch_minus) || (c =? ch_plus)
    then match r with
         | [] => None
         | _ :: _ => match parse_digits r 0 with Some v => check (if c =? ch_minus then - v else v) | None => None end
         end
    else match parse_digits l 0 with Some v => check v | None => None end
  end.

(** [str::trim] on ASCII: tab, line feed, vertical tab, form feed, carriage return and space. *)
Definition is_space (c : Z) : bool := ((9 <=? c) && (c <=? 13)) || (c =? 32).
Fixpoint trim_start (l : list Z) : list Z :=
  match l with
  | [] => []
  | c :: r => if is_space c then trim_start r else l
  end.
Definition trim (l : list Z) : list Z := rev (trim_start (rev (trim_start l))).

(** [str::split(',')]: always at least one (possibly empty) part. *)
Fixpoint split_on (sep : Z) (l : list Z) : list (list Z) :=
  match l with
  | [] => [[]]
  | c :: r =>
    if c =? sep then [] :: split_on sep r
    else match split_on sep r with
         | h :: t => (c :: h) :: t
         | [] => [[c]]
         end
  end.

(** [BufRead::lines]: split at line feeds, drop the empty part after a final line feed, and drop one carriage
    return before each line feed. *)
Definition strip_cr (l : list Z) : list Z :=
  match rev l with
  | c :: r => if c =? ch_cr then rev r else l
  | [] => []
  end.
Fixpoint lines_of (parts : list (list Z)) : list (list Z) :=
  match parts with
  | [] => []
  | [lst] => match lst with [] => [] | _ :: _ => [lst] end
  | h :: t => strip_cr h :: lines_of t
  end.
Definition lines (l : list Z) : list (list Z) := lines_of (split_on ch_nl l).

(** [.parse::<i32>().unwrap()]. *)
Definition parse_unwrap (l : list Z) : res Z :=
  match parse_i32 (trim l) with Some v => Ok v | None => Panic PUnwrap end.

(** vsri/src/lib.rs:473-479: one segment line. A line with other than four numbers fails in [try_into().unwrap()]. *)
Definition load_segment (line : list Z) : res segment :=
  do vals <- map_res parse_unwrap (split_on ch_comma line);
  match vals with
  | [a; b; c; d] => Ok (Seg a b c d)
  | _ => Panic PUnwrap
  end.

(** vsri/src/lib.rs:457-490 load, given the bytes of the file (opening it is not modelled: a missing file is an
    I/O error). *)
Definition load (bytes : list Z) : res vsri :=
  match lines bytes with
  | [] => Ok (Vsri 0 0 [])
  | [l1] => do mn <- parse_unwrap l1; Ok (Vsri mn 0 [])
  | l1 :: l2 :: rest =>
    do mn <- parse_unwrap l1; do mx <- parse_unwrap l2; do segs <- map_res load_segment rest; Ok (Vsri mn mx segs)
  end.

(** vsri/src/lib.rs:125-134 get_sample_location; [None] for a file that cannot be opened. *)
Definition get_sample_location (p : profile) (file : option (list Z)) (y : Z) : res (option Z) :=
  match file with
  | None => Ok None
  | Some bytes =>
    do v <- load bytes;
    if (vs_min v <=? y) && (y <=? vs_max v) then get_sample p v y else Ok None
  end.

(** vsri/src/lib.rs:50-58 day_elapsed_seconds. [DateTime::from_timestamp] (chrono) accepts the seconds whose date
    fits chrono's calendar, years -262143 to 262142; out of it [unwrap] panics. Within it the time of day is the
    Euclidean remainder by 86400 split into hours, minutes and seconds. *)
Definition chrono_min : Z := -8334601228800.
Definition chrono_max : Z := 8210266876799.
Definition hour_of (t : Z) : Z := t mod 86400 / 3600.
Definition minute_of (t : Z) : Z := t mod 3600 / 60.
Definition second_of (t : Z) : Z := t mod 60.
Definition day_elapsed_seconds (t : Z) : res Z :=
  if (chrono_min <=? t) && (t <=? chrono_max)
  then Ok (hour_of t * 3600 + minute_of t * 60 + second_of t)
  else Panic PUnwrap.

(** vsri/src/lib.rs:61-66 start_day_ts, on a DateTime with timestamp [t]. *)
Definition start_day_ts (t : Z) : Z := t - (hour_of t * 3600 + minute_of t * 60 + second_of t).
