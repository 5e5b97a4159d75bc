(* Abstract syntax of the part of Python in which the scripts are written: the result of PyParse.v, the input of PyEval.v.
   Nothing in this file is specific to the scripts. *)
From Coq Require Import List NArith String.
Import ListNotations.

Inductive binop := Add | Sub | Mul | FloorDiv | Mod | BitAnd.
Inductive cmpop := Lt | Gt | Le | Ge | Eq | Ne | In | NotIn | Is | IsNot.

(* what a loop assigns to: x, or (x, y) *)
Inductive target := TName (x : string) | TTuple (xs : list string).

Inductive expr :=
| EName (x : string)
| EInt (n : N)
| EStr (cs : list N)                                    (* its code points *)
| ENone
| ETuple (es : list expr)
| EList (es : list expr)
| ESet (es : list expr)                                 (* {a, b} *)
| EComp (e : expr) (t : target) (l : expr) (c : option expr)    (* [e for t in l if c] *)
| ECond (c a b : expr)                                  (* a if c else b *)
| EAnd (a b : expr)
| EOr (a b : expr)
| ENot (a : expr)
| ECmp (op : cmpop) (a b : expr)
| EBin (op : binop) (a b : expr)
| EIndex (e i : expr)                                   (* e[i] *)
| EFrom (e i : expr)                                    (* e[i:] *)
| ECall (f : string) (args : list expr) (kwargs : list (string * expr))
| EMethod (e : expr) (f : string) (args : list expr).

Inductive stmt :=
| SExpr (e : expr)
| SAssign (x : string) (e : expr)
| SAug (op : binop) (x : string) (e : expr)             (* x += e *)
| SIf (c : expr) (a b : list stmt)
| SWhile (c : expr) (body : list stmt)
| SFor (t : target) (e : expr) (body : list stmt)
| SReturn (e : expr)
| SRaise (e : expr)
| SContinue
| SDef (f : string) (params : list string) (body : list stmt).
