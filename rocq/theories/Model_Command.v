(** The two tools from the words of the command line to the exit status. *)
From Coq Require Import List ZArith.
From Verif Require Import Base Model_Float Model_Csv Model_Stream Model_Cli Model_Args.
Import ListNotations.
Open Scope Z_scope.

(** What a path that is no regular file can be: a directory with the names the operating system lists in it, or something else. *)
Inductive special := Listing (entries : list name) | Neither.
Definition specials := name -> option special.

(** A panic of the main thread ends the process with status 101 (Rust's runtime). *)
Definition status_of (o : outcome) : Z := match o with Done => 0 | Failed _ => 1 | Panicked => 101 end.

Section Commands.
Variable e : env.
Variable p : profile.
Variable nt : number_text.

(** DirEntry::path (std::fs on Unix): the directory as given, a slash unless it ends with one, and the name. *)
Definition join (dir n : name) : name := match rev dir with [] => n | c :: _ => if c =? ch_slash then dir ++ n else dir ++ [ch_slash] ++ n end.
(** atsc/src/main.rs:28-48 process_args: metadata fails for a path that is not there. *)
Definition atsc_process_args (a : atsc_args) (fs : files) (sp : specials) (input : name) : files * outcome :=
  match fs input with
  | Some _ => process_single_file e p nt a fs input
  | None =>
    match sp input with
    | Some (Listing entries) => process_directory e p nt a fs (map (join input) entries)
    | Some Neither | None => (fs, Failed IoError)
    end
  end.
(** main.rs:234-243 main. Status [None]: clap ended the process (2 for a refused command line, 0 after the help or the version). *)
Definition atsc_command (ws : list text) (fs : files) (sp : specials) : files * option Z :=
  match atsc_parse ws with
  | None => (fs, None)
  | Some (input, a) => let (fs', o) := atsc_process_args a fs sp input in (fs', Some (status_of o))
  end.

(** csv-compressor/src/main.rs:213-231 main: every failure is a panic. *)
Definition csvc_command (ws : list text) (fs : files) : files * option Z :=
  match csvc_parse ws with
  | None => (fs, None)
  | Some c =>
    match fs (c_input c) with
    | Some _ => let (fs', o) := csvc_process_args e p nt c fs in (fs', Some (status_of o))
    | None => (fs, Some 101)
    end
  end.
End Commands.
