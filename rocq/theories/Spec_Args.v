(** Vocabulary of C80: command lines as their user writes them. Nothing here mentions how they are parsed. *)
From Coq Require Import List ZArith String.
From Verif Require Import Base Model_Float Model_Csv Spec_CsvTable Model_Stream Model_Cli Model_Args.
Import ListNotations.
Open Scope Z_scope.
Local Open Scope string_scope.
Local Open Scope list_scope.
Local Open Scope Z_scope.

(** A separate value, or the input: no word that starts with a dash (45), except the dash alone. *)
Definition undashed (t : text) : Prop := t = [45] \/ hd_error t <> Some 45.

(** [line ds uses ws]: the words [ws] spell the uses, with the options [ds] declared as (short letter, long name, takes a value). *)
Inductive line (ds : list opt_decl) : list occurrence -> list text -> Prop :=
| line_end : line ds [] []
| line_input t os ws : undashed t -> line ds os ws -> line ds (Input t :: os) (t :: ws)
| line_long_value i s n v os ws : nth_error ds i = Some (Opt s (Some n) true) -> line ds os ws ->
    line ds (Given i v :: os) ((txt "--" ++ n ++ txt "=" ++ v) :: ws)                       (* --name=value *)
| line_long_next i s n v os ws : nth_error ds i = Some (Opt s (Some n) true) -> undashed v -> line ds os ws ->
    line ds (Given i v :: os) ((txt "--" ++ n) :: v :: ws)                                   (* --name value *)
| line_long_flag i s n os ws : nth_error ds i = Some (Opt s (Some n) false) -> line ds os ws ->
    line ds (Flag i :: os) ((txt "--" ++ n) :: ws)                                           (* --name *)
| line_short_value i c n v os ws : nth_error ds i = Some (Opt (Some c) n true) -> v <> [] -> hd_error v <> Some 61 -> line ds os ws ->
    line ds (Given i v :: os) ((txt "-" ++ c :: v) :: ws)                                    (* -nvalue *)
| line_short_equals i c n v os ws : nth_error ds i = Some (Opt (Some c) n true) -> line ds os ws ->
    line ds (Given i v :: os) ((txt "-" ++ c :: txt "=" ++ v) :: ws)                         (* -n=value *)
| line_short_next i c n v os ws : nth_error ds i = Some (Opt (Some c) n true) -> undashed v -> line ds os ws ->
    line ds (Given i v :: os) ((txt "-" ++ [c]) :: v :: ws)                                  (* -n value *)
| line_short_flag i c n os ws : nth_error ds i = Some (Opt (Some c) n false) -> line ds os ws ->
    line ds (Flag i :: os) ((txt "-" ++ [c]) :: ws)                                          (* -n *)
| line_cluster i c n d r os ws : nth_error ds i = Some (Opt (Some c) n false) -> d <> 45 -> line ds os ((txt "-" ++ d :: r) :: ws) ->
    line ds (Flag i :: os) ((txt "-" ++ c :: d :: r) :: ws)                                  (* -n before the letters of another word *)
| line_rest ts : line ds (map Input ts) (txt "--" :: ts).                                    (* after -- everything is input *)

(** No option and no input twice. *)
Definition which (o : occurrence) : option nat := match o with Given i _ | Flag i => Some i | Input _ => None end.
Definition each_once (os : list occurrence) : Prop := NoDup (map which os).
(** What option [i] is set to: [f] relates its value to the setting; [d] is the setting if it is not given. *)
Definition set_to {A} (os : list occurrence) (i : nat) (f : text -> A -> Prop) (d a : A) : Prop :=
  (exists v, In (Given i v) os /\ f v a) \/ ((forall v, ~ In (Given i v) os) /\ a = d).

(** The values of the options. *)
Definition compressor_text (t : text) (c : compressor) : Prop :=
  In (t, c) [(txt "auto", Auto); (txt "noop", Noop); (txt "fft", FFT); (txt "constant", Constant); (txt "polynomial", Polynomial); (txt "idw", Idw); (txt "rle", RLE)].
Definition number_to (top : Z) (t : text) (z : Z) : Prop := signed_text 10 t z /\ 0 <= z <= top.

(** The options of the two tools, as their help lists them: (letter, long name, takes a value). *)
Definition atsc_options : list opt_decl :=
  let long_only s := Opt None (Some (txt s)) in let both c s := Opt (Some c) (Some (txt s)) in
  [ long_only "compressor" true; both 101 "error" true; Opt (Some 117) None false; both 99 "compression-selection-sample-level" true;
    long_only "verbose" false; long_only "csv" false; long_only "no-header" false; long_only "fields" true;
    both 104 "help" false; both 86 "version" false ].
Definition csvc_options : list opt_decl :=
  let long_only s := Opt None (Some (txt s)) in let both c s := Opt (Some c) (Some (txt s)) in
  [ both 111 "output" true; Opt (Some 117) None false; long_only "no-compression" false; long_only "output-vsri" false; long_only "output-wavbrro" false;
    long_only "output-csv" false; long_only "compressor" true; both 101 "error" true; both 99 "compression-selection-sample-level" true;
    both 104 "help" false; both 86 "version" false ].

(** atsc's options by number: 0 --compressor, 1 --error, 2 -u, 3 --compression-selection-sample-level, 4 --verbose, 5 --csv, 6 --no-header, 7 --fields,
    8 --help, 9 --version. [atsc_means uses ws input a]: the words [ws] spell the uses, and these mean [input] and [a]. *)
Record atsc_means (uses : list occurrence) (ws : list text) (input : name) (a : atsc_args) : Prop := {
  am_line : line atsc_options uses ws;
  am_once : each_once uses;
  am_runs : ~ In (Flag 8) uses /\ ~ In (Flag 9) uses;
  am_input : In (Input input) uses /\ input <> [];
  am_compressor : set_to uses 0 compressor_text Auto (a_compressor a);
  am_error : set_to uses 1 (number_to 50) 3 (a_error a);
  am_level : set_to uses 3 (number_to 6) 0 (a_level a);
  am_fields : set_to uses 7 eq (txt "time,value") (a_fields a);
  am_uncompress : a_uncompress a = true <-> In (Flag 2) uses;
  am_csv : a_csv a = true <-> In (Flag 5) uses;
  am_no_header : a_no_header a = true <-> In (Flag 6) uses }.

(** csv-compressor's options: 0 --output, 1 -u, 2 --no-compression, 3 --output-vsri, 4 --output-wavbrro, 5 --output-csv, 6 --compressor, 7 --error,
    8 --compression-selection-sample-level, 9 --help, 10 --version. *)
Record csvc_means (uses : list occurrence) (ws : list text) (c : csvc_args) : Prop := {
  cm_line : line csvc_options uses ws;
  cm_once : each_once uses;
  cm_runs : ~ In (Flag 9) uses /\ ~ In (Flag 10) uses;
  cm_input : In (Input (c_input c)) uses /\ c_input c <> [];
  cm_output : set_to uses 0 (fun t o => t <> [] /\ o = Some t) None (c_output c);
  cm_compressor : set_to uses 6 (fun t k => compressor_text t k /\ k <> RLE) Auto (c_compressor c);
  cm_error : set_to uses 7 (number_to 50) 5 (c_error c);
  cm_level : set_to uses 8 (number_to 6) 0 (c_level c);
  cm_uncompress : c_uncompress c = true <-> In (Flag 1) uses;
  cm_no_compression : c_no_compression c = true <-> In (Flag 2) uses;
  cm_vsri : c_output_vsri c = true <-> In (Flag 3) uses;
  cm_wavbrro : c_output_wavbrro c = true <-> In (Flag 4) uses }.
