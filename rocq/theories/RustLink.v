(* A program in one file that uses another crate.  Nothing in this file is specific to the crate. *)
From Coq Require Import List NArith String.
From Verif Require Import Prelude RustSyntax RustEval RustProgram.
Import ListNotations.
Local Open Scope string_scope.
Local Open Scope list_scope.

Section Link.
Variable x : string.             (* the name of the other crate, as in `extern crate x;` *)
Variable dep : program.          (* the other crate *)
Variable items : list item.      (* the items in the file, which contains no modules *)

(* what a path in the file stands for in the other crate; look: as find_fn and find_const.  A glob import takes the items of a
   module with what this module itself imports. *)
Definition imported {A} (look : path -> path -> option A) (p : path) : option A :=
  match p with
  | [] => None
  | y :: q =>
      if String.eqb y x then look [] q
      else
        first (fun i =>
          match i with
          | Import (z :: u) => if String.eqb z x then if String.eqb (last u "") y then look [] (u ++ q) else None else None
          | Glob (z :: u) => if String.eqb z x then look u p else None
          | _ => None
          end) (flat_map (fun i => match i with IUse l => l | _ => [] end) items)
  end.
(* the module m of the other crate is x :: m *)
Definition moved {A} (o : option (path * A)) : option (path * A) :=
  match o with Some (m, a) => Some (x :: m, a) | None => None end.
Definition link : program :=
  Program
    (fun m p =>
       match m with
       | [] =>
           match (match p with [f] => first (get_fn f) items | _ => None end) with
           | Some f => Some ([], f)
           | None => moved (imported (find_fn dep) p)
           end
       | _ :: m => moved (find_fn dep m p)
       end)
    (fun m p =>
       match m with
       | [] => imported (find_const dep) p
       | _ :: m => find_const dep m p
       end).
End Link.
