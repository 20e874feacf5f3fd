(** Plain CSV text: what a table looks like in a file, independently of how it is read. *)
From Coq Require Import List ZArith.
From Verif Require Import Base Model_Float Model_Csv.
Import ListNotations.
Open Scope Z_scope.

(** An ASCII field without comma (44), double quote (34), line feed (10) or carriage return (13). *)
Definition plain (f : text) : Prop := Forall (fun c => 0 <= c < 128 /\ c <> 44 /\ c <> 34 /\ c <> 10 /\ c <> 13) f.

(** Fields separated by commas. *)
Fixpoint row_text (r : list text) : text :=
  match r with
  | [] => []
  | [f] => f
  | f :: r' => f ++ [44] ++ row_text r'
  end.

(** Rows ended by [eol] (LF, CRLF or CR); the end of the last row, [last_eol], may be missing. *)
Definition eol_ok (eol : text) : Prop := eol = [10] \/ eol = [13; 10] \/ eol = [13].
Fixpoint table_text (eol last_eol : text) (rows : list (list text)) : text :=
  match rows with
  | [] => []
  | [r] => row_text r ++ last_eol
  | r :: rs => row_text r ++ eol ++ table_text eol last_eol rs
  end.

(** A row that can be told from an empty line: at least one field, and not just one empty field. *)
Definition row_ok (r : list text) : Prop := r <> [] /\ r <> [[]] /\ Forall plain r.

(** A file holding the rows. *)
Definition file_of (rows : list (list text)) (t : text) : Prop :=
  exists eol last_eol, eol_ok eol /\ (last_eol = eol \/ last_eol = []) /\ t = table_text eol last_eol rows.

(** [i] is the first column named [n]. *)
Definition first_column (n : text) (headers : list text) (i : nat) : Prop :=
  nth_error headers i = Some n /\ forall j, (j < i)%nat -> nth_error headers j <> Some n.

(** Field [i] of the row is the number [v] / no number. *)
Definition reads_as (nt : number_text) (i : nat) (row : list text) (v : f64) : Prop :=
  exists f, nth_error row i = Some f /\ parse_f64 nt f = Some v.
Definition unreadable (nt : number_text) (i : nat) (row : list text) : Prop :=
  exists f, nth_error row i = Some f /\ parse_f64 nt f = None.

(** The text printed for a number is plain, not empty, and reads as that number (true of ryu and Rust's parser for every
    double but NaN, whose payload is not printed). *)
Definition text_exact (nt : number_text) (x : f64) : Prop :=
  plain (show_f64 nt x) /\ show_f64 nt x <> [] /\ parse_f64 nt (show_f64 nt x) = Some x.

(** The column names csv-compressor knows, as ASCII codes: t i m e s t a m p and v a l u e. *)
Definition name_timestamp : list Z := [116; 105; 109; 101; 115; 116; 97; 109; 112].
Definition name_value : list Z := [118; 97; 108; 117; 101].
