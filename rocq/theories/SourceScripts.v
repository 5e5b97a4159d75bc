(* The scripts of /repo/encoding_tables as programs: their text (FileScripts.v), parsed and run by PyEval.v.
   A script runs in the directory it is in. *)
From Coq Require Import List NArith String.
From Verif Require Import FileText FileScripts ModelScripts ModelFiles PySyntax PyParse PyEval.
Import ListNotations.

(* the program in a file; source files are read as text files are *)
Definition program (file : list line) : option (list stmt) :=
  match py_decode (contents file) with
  | Some cs => parse (py_newlines cs)
  | None => None
  end.
(* running a script on the files; fuel: as in PyEval.v *)
Definition run_file (dir : path) (file : list line) (fuel : nat) (f : files) : res unit :=
  match program file with
  | Some p => run_script dir p fuel f
  | None => Wrong
  end.

(* /repo/encoding_tables/single_byte/generate_ascii_ext_tables.py *)
Definition run_ascii_ext : nat -> files -> res unit := run_file single_byte_dir generate_ascii_ext_tables_py.
(* /repo/encoding_tables/whatwg/generate_big5.py *)
Definition run_big5 : nat -> files -> res unit := run_file whatwg_dir generate_big5_py.
(* /repo/encoding_tables/whatwg/generate_shiftjis.py *)
Definition run_shiftjis : nat -> files -> res unit := run_file whatwg_dir generate_shiftjis_py.

(* the script ends (with any fuel from some amount on) as the model says, and leaves the files as the model says *)
Definition ends_as (script : nat -> files -> res unit) (f : files) (r : run) : Prop :=
  exists enough, forall fuel, enough <= fuel ->
    match r with
    | Done f' => exists w, script fuel f = Val tt w /\ forall p, disk w p = f' p
    | Raised f' => exists w, script fuel f = Raise w /\ forall p, disk w p = f' p
    end.
