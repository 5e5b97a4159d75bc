(* Literals for lines of text files, as their bytes. *)
From Coq Require Import List NArith Init.Byte.
Import ListNotations.

Inductive line := Line (l : list byte).
Definition to_line (l : list byte) : line := Line l.
Definition of_line (s : line) : list byte := match s with Line l => l end.
Declare Scope line_scope.
Delimit Scope line_scope with line.
String Notation line to_line of_line : line_scope.

(* the bytes of a literal *)
Definition str (s : line) : list N := map Byte.to_N (of_line s).
Arguments str s%line_scope.

(* the contents of a file whose lines all end with a newline *)
Definition contents (ls : list line) : list N := flat_map (fun l => str l ++ [10%N]) ls.
