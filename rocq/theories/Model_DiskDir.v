(** The file operations of a directory run of atsc, one by one (compare Model_Disk for single files). *)
From Coq Require Import List ZArith Bool.
From Verif Require Import Base Model_Float Model_Csv Model_Stream Model_Cli Model_Disk.
Import ListNotations.
Open Scope Z_scope.

Section Tool.
Variable e : env.
Variable p : profile.
Variable nt : number_text.

(** atsc/src/main.rs:50-68 process_directory; the operations of a call are those of Model_Disk's [ops_single_file], and the next entry
    meets the files the finished call leaves. *)
Fixpoint ops_directory (a : atsc_args) (fs : files) (entries : list name) : list disk_op * outcome :=
  match entries with
  | [] => ([], Done)
  | n :: rest =>
    match fs n with
    | None => ops_directory a fs rest
    | Some _ =>
      let (ops1, o1) := ops_single_file e p nt a fs n in
      let fs1 := fst (process_single_file e p nt a fs n) in
      match o1 with
      | Done => let (ops2, o2) := ops_directory a fs1 rest in (ops1 ++ ops2, o2)
      | Panicked => (ops1, Panicked)
      | Failed _ =>
        let (ops2, o2) := ops_single_file e p nt a fs1 n in
        match o2 with
        | Done => let (ops3, o3) := ops_directory a (fst (process_single_file e p nt a fs1 n)) rest in (ops1 ++ ops2 ++ ops3, o3)
        | _ => (ops1 ++ ops2, o2)
        end
      end
    end
  end.
End Tool.
