(* What the crate exports, from its files. *)
From Coq Require Import List NArith String.
From Verif Require Import FileText RustSyntax RustLex RustParse RustExports SourceCrate.
Import ListNotations.
Local Open Scope string_scope.
Local Open Scope list_scope.

(* the declarations in each file; None if one of them cannot be read *)
Fixpoint all_decls (files : list (string * list line)) : option (list (string * list decl)) :=
  match files with
  | [] => Some []
  | (name, t) :: files =>
      match tokens (contents t) with
      | Some ts =>
          match file_decls ts, all_decls files with
          | Some l, Some r => Some ((name, l) :: r)
          | _, _ => None
          end
      | None => None
      end
  end.
Definition decls_in (files : list (string * list decl)) (name : string) : list decl :=
  match find (fun e => String.eqb (fst e) name) files with Some e => snd e | None => [] end.
(* what a crate with these files exports; nothing may be nested deeper than 7 levels, counting files *)
Definition exports_of (files : list (string * list line)) (main : string) : option (list (string * path * list token)) :=
  match all_decls files with
  | Some fs => Some (exported (decls_in fs) 8 [] (decls_in fs main))
  | None => None
  end.
Definition source_exports : option (list (string * path * list token)) := exports_of source_files "lib.rs".
