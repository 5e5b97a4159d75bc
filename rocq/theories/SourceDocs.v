(* The examples in the documentation of the crate, as programs. *)
From Coq Require Import List NArith Bool String.
From Verif Require Import Prelude FileText FileSource RustSyntax RustParse RustEval RustProgram RustLink SourceCrate.
Import ListNotations.
Local Open Scope list_scope.

(* what follows the prefix p *)
Fixpoint without (p l : list N) : option (list N) :=
  match p, l with
  | [], _ => Some l
  | x :: p, y :: l => if N.eqb x y then without p l else None
  | _, [] => None
  end.
Definition starts (p l : list N) : bool := match without p l with Some _ => true | None => false end.

(* the line of documentation in a line of the file *)
Definition doc_line (l : list N) : option (list N) :=
  match without (str "//! ") l with
  | Some d => Some d
  | None => without (str "//!") l
  end.
(* a line that is not shown in the documentation *)
Definition shown (l : list N) : list N := match without (str "# ") l with Some d => d | None => l end.
(* the examples are what is between lines of three backquotes; code: the lines of the example so far, from the last *)
Fixpoint examples (ls : list (list N)) (code : option (list (list N))) : list (list (list N)) :=
  match ls with
  | [] => []
  | l :: ls =>
      match doc_line l with
      | None => examples ls code
      | Some d =>
          match code with
          | None => examples ls (if starts (str "```") d then Some [] else None)
          | Some c => if starts (str "```") d then rev c :: examples ls None else examples ls (Some (shown d :: c))
          end
      end
  end.
(* rustdoc puts the lines into a function main() of a crate that uses the crate.  Here what an example imports is put before this
   function and not into it. *)
Definition doc_program (code : list (list N)) : list N :=
  let lines := flat_map (fun l => l ++ [10%N]) in
  let is_use := starts (str "use ") in
  lines (filter is_use code) ++ str "fn main() {" ++ [10%N] ++ lines (filter (fun l => negb (is_use l)) code) ++ str "}".
Definition doc_programs (file : list line) : list (list item) :=
  map (fun c => match parse (doc_program c) with Some l => l | None => [] end) (examples (map str file) None).

(* main() runs to its end *)
Definition doc_passes (max : N) (fuel depth : nat) (items : list item) : Prop :=
  let prog := link "text_encoding" (text_encoding max) items in
  exists f r, find_fn prog [] ["main"%string] = Some ([], f) /\ call max prog fuel depth [] f [] = Ret (unit_value, r).
