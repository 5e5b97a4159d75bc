(* What a crate exports: the declarations in its files, with their visibility and their types, which RustParse.v leaves out.  Nothing
   in this file is specific to the crate.  Declarations inside functions are not looked at; they cannot be seen from outside. *)
From Coq Require Import List NArith Bool String.
From Verif Require Import RustSyntax RustLex RustParse RustProgram.
Import ListNotations.
Local Open Scope string_scope.
Local Open Scope list_scope.

(* a declaration: is it public, is it of a "fn", "mod", "struct", "field", "enum", "variant", "type", "const", "static" or "use", its name, its
   attributes followed by the rest of the declaration (of functions, fields and type synonyms), the declarations in it *)
Inductive decl :=
| Decl (public : bool) (kind name : string) (rest : list token) (inner : list decl)
| File (name : string).                  (* the declarations in another file *)

(* the tokens before and after the next of the given ones that is not in brackets *)
Fixpoint until (l : list string) (d : nat) (ts : list token) : list token * list token :=
  match ts with
  | [] => ([], [])
  | t :: r =>
      if one_of l ts && Nat.eqb d 0 then ([], ts)
      else
        let d := if one_of ["("; "["; "{"] ts then S d else if one_of [")"; "]"; "}"] ts then pred d else d in
        let p := until l d r in (t :: fst p, snd p)
  end.
(* a comma before a closing bracket means nothing in a list of parameters *)
Fixpoint no_comma (ts : list token) : list token :=
  match ts with
  | [] => []
  | t :: r => if sees [","; ")"] ts then no_comma r else t :: no_comma r
  end.

(* `pub` means public, `pub(crate)` and the like do not *)
Definition visibility (ts : list token) : bool * list token :=
  if sees ["pub"; "("] ts then (false, skip_brackets 0 (skipn 2 ts))
  else if sees ["pub"] ts then (true, tl ts)
  else (false, ts).

(* the attribute at the front *)
Definition attribute (ts : list token) : list token := firstn (List.length ts - List.length (skip_brackets 0 (skipn 2 ts))) ts.

(* the fields of a struct, or the variants of an enum, with the closing brace *)
Fixpoint members (fuel : nat) (kind : string) (attrs ts : list token) : option (list decl * list token) :=
  match fuel with
  | O => None
  | S f =>
      if sees ["}"] ts then Some ([], tl ts)
      else if sees ["#"; "["] ts then members f kind (attrs ++ attribute ts) (skip_brackets 0 (skipn 2 ts))
      else
        let v := visibility ts in
        do x, ts <- ident_tok (snd v);
        let p := until [","; "}"] 0 (if sees [":"] ts then tl ts else ts) in
        do l, ts <- members f kind [] (if sees [","] (snd p) then tl (snd p) else snd p);
        Some (Decl (fst v || String.eqb kind "variant") kind x (attrs ++ fst p) [] :: l, ts)
  end.

(* declarations up to a closing brace or the end of the file; those for tests are left out *)
Fixpoint decls (fuel : nat) (test : bool) (attrs ts : list token) : option (list decl * list token) :=
  match fuel with
  | O => None
  | S f =>
      let more d ts := do l, ts <- decls f false [] ts; Some ((if test then l else d :: l), ts) in
      match ts with
      | [] => Some ([], [])
      | _ =>
          if sees ["}"] ts then Some ([], ts)
          else if sees ["#"; "["; "test"; "]"] ts then decls f true attrs (skipn 4 ts)
          else if sees ["#"; "["; "cfg"; "("; "test"; ")"; "]"] ts then decls f true attrs (skipn 7 ts)
          else if sees ["#"; "["] ts then decls f test (attrs ++ attribute ts) (skip_brackets 0 (skipn 2 ts))
          else if sees ["#"; "!"; "["] ts then decls f test attrs (skip_brackets 0 (skipn 3 ts))
          else if sees ["include"; "!"; "("] ts then
            match skipn 3 ts with
            | TStr s :: r => do _, r <- sym ")" r; do _, r <- sym ";" r; more (File (text s)) r
            | _ => None
            end
          else
            let v := visibility ts in
            let ts := snd v in
            let r := tl ts in
            if sees ["use"] ts then
              let p := until [";"] 0 r in more (Decl (fst v) "use" "" (attrs ++ fst p) []) (tl (snd p))
            else if sees ["fn"] ts then
              do x, r <- ident_tok r;
              let p := until ["{"] 0 r in more (Decl (fst v) "fn" x (attrs ++ no_comma (fst p)) []) (skip_brackets 0 (tl (snd p)))
            else if sees ["mod"] ts then
              do x, r <- ident_tok r;
              if sees [";"] r then more (Decl (fst v) "mod" x attrs [File (x ++ ".rs")]) (tl r)
              else do _, r <- sym "{" r; do l, r <- decls f false [] r; do _, r <- sym "}" r; more (Decl (fst v) "mod" x attrs l) r
            else if sees ["type"] ts then
              do x, r <- ident_tok r;
              let p := until [";"] 0 r in more (Decl (fst v) "type" x (attrs ++ fst p) []) (tl (snd p))
            else if one_of ["const"; "static"] ts then
              do k, r <- ident_tok ts;
              do x, r <- ident_tok r;
              let p := until [";"] 0 r in more (Decl (fst v) k x attrs []) (tl (snd p))
            else if sees ["struct"] ts then
              do x, r <- ident_tok r; do _, r <- sym "{" r;
              do l, r <- members f "field" [] r; more (Decl (fst v) "struct" x attrs l) r
            else if sees ["enum"] ts then
              do x, r <- ident_tok r; do _, r <- sym "{" r;
              do l, r <- members f "variant" [] r; more (Decl (fst v) "enum" x attrs l) r
            else None
      end
  end.
Definition file_decls (ts : list token) : option (list decl) :=
  match decls (List.length ts + 1) false [] ts with
  | Some (l, []) => Some l
  | _ => None
  end.

(* what can be named from outside: kind, path, and the attributes and the rest of the declaration *)
Section Exports.
Variable file : string -> list decl.     (* the declarations in a file *)
Fixpoint exported (fuel : nat) (m : path) (ds : list decl) : list (string * path * list token) :=
  match fuel with
  | O => []
  | S f =>
      flat_map (fun d =>
        match d with
        | File x => exported f m (file x)
        | Decl false _ _ _ _ => []
        | Decl true k x rest inner => (k, m ++ [x], rest) :: exported f (m ++ [x]) inner
        end) ds
  end.
End Exports.
