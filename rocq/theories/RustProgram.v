(* From files to programs: which function or constant a path stands for in a module.  Nothing in this file is specific to the
   crate.  The rules are those of the 2015 edition: the path of a `use` starts at the root of the crate, other paths start in
   the module at hand; `super` is the module around. *)
From Coq Require Import List NArith Bool String Ascii.
From Verif Require Import Prelude RustSyntax RustEval.
Import ListNotations.
Local Open Scope string_scope.
Local Open Scope list_scope.

(* the text of a string literal *)
Fixpoint text (bs : list N) : string :=
  match bs with
  | [] => ""
  | b :: bs => String (ascii_of_N b) (text bs)
  end.
Fixpoint path_eqb (p q : path) : bool :=
  match p, q with
  | [], [] => true
  | x :: p, y :: q => String.eqb x y && path_eqb p q
  | _, _ => false
  end.

(** ** Loading *)

(* the modules of a program, with their items *)
Definition modules := list (path * list item).

Section Load.
Variable file : string -> list item.     (* the items in a file *)

(* include! puts the items of another file, which contains no modules, in its place *)
Definition included (items : list item) : list item :=
  flat_map (fun i => match i with IInclude f => file (text f) | _ => [i] end) items.
(* the module m with the given items, and the modules in it; `mod x;` is the file x.rs *)
Fixpoint load (fuel : nat) (m : path) (items : list item) : modules :=
  match fuel with
  | O => []
  | S f =>
      (m, included items) ::
      flat_map (fun i =>
        match i with
        | IMod _ x (Some l) => load f (m ++ [x]) l
        | IMod _ x None => load f (m ++ [x]) (file (x ++ ".rs"))
        | _ => []
        end) items
  end.
End Load.

(** ** Names *)

Section Resolve.
Variable mods : modules.

Definition items_in (m : path) : option (list item) :=
  match find (fun e => path_eqb (fst e) m) mods with Some e => Some (snd e) | None => None end.
Definition is_module (m : path) : bool := match items_in m with Some _ => true | None => false end.
Fixpoint first {A B} (f : A -> option B) (l : list A) : option B :=
  match l with
  | [] => None
  | x :: l => match f x with Some y => Some y | None => first f l end
  end.
Definition imports (m : path) : list import :=
  match items_in m with
  | Some l => flat_map (fun i => match i with IUse l => l | _ => [] end) l
  | None => []
  end.
(* a path that may start with super, in the module m, as the path of a module from the root *)
Fixpoint supers (m p : path) : path :=
  match p with
  | x :: p => if String.eqb x "super" then supers (removelast m) p else m ++ x :: p
  | [] => m
  end.
(* the path of a `use` in the module m, from the root *)
Definition use_path (m p : path) : path :=
  match p with
  | x :: _ => if String.eqb x "super" then supers m p else p
  | [] => []
  end.

(* the item that p stands for in the module m, and its module; get: the kind of item *)
Fixpoint resolve {A} (get : string -> item -> option A) (fuel : nat) (m p : path) : option (path * A) :=
  match fuel with
  | O => None
  | S f =>
      match p with
      | [] => None
      | x :: q =>
          if String.eqb x "super" then resolve get f (removelast m) q
          else
            (* in the module itself *)
            match (match q with
                   | [] =>
                       match items_in m with
                       | Some l => match first (get x) l with Some a => Some (m, a) | None => None end
                       | None => None
                       end
                   | _ => if is_module (m ++ [x]) then resolve get f (m ++ [x]) q else None
                   end) with
            | Some a => Some a
            | None =>
                (* through an import *)
                first (fun i =>
                  match i with
                  | Import u => if String.eqb (last u "") x then resolve get f [] (use_path m u ++ q) else None
                  | Glob u => resolve get f (use_path m u) p
                  end) (imports m)
            end
      end
  end.
End Resolve.

Definition get_fn (x : string) (i : item) : option fn :=
  match i with IFn _ y f => if String.eqb x y then Some f else None | _ => None end.
Definition get_const (x : string) (i : item) : option (ty * expr) :=
  match i with IConst y t e => if String.eqb x y then Some (t, e) else None | _ => None end.

(* how far names are followed through modules and imports *)
Definition steps : nat := 6.

Definition no_items : program := Program (fun _ _ => None) (fun _ _ => None).
(* the value of a constant; its expression refers to nothing else *)
Definition const_value (max : N) (m : path) (t : ty) (e : expr) : option value :=
  match eval max no_items 0 20 m e [] with
  | Ret (_, SVal v) => match coerce max t v with Ret v => Some v | _ => None end
  | _ => None
  end.
Definition program_of (max : N) (mods : modules) : program :=
  Program
    (resolve mods get_fn steps)
    (fun m p =>
       match resolve mods get_const steps m p with
       | Some (m, (t, e)) => const_value max m t e
       | None => None
       end).

(* the tests in a module *)
Definition tests_in (mods : modules) (m : path) : list (string * fn) :=
  match items_in mods m with
  | Some l => flat_map (fun i => match i with IFn true x f => [(x, f)] | _ => [] end) l
  | None => []
  end.
