(* Abstract syntax of the part of Rust in which the crate is written: the result of RustParse.v, the input of RustEval.v.
   Nothing in this file is specific to the crate.  Left out by the parser: lifetimes, visibility, attributes other than
   #[test] and #[cfg(test)], comments, and the declarations of types. *)
From Coq Require Import List NArith String.
Import ListNotations.

(* the segments of a path written with :: *)
Definition path := list string.

(* types *)
Inductive ty :=
| TyPath (p : path) (args : list ty)           (* usize, char, Option<T> *)
| TyRef (mutable : bool) (t : ty)              (* &T, &mut T *)
| TySlice (t : ty)                             (* [T] *)
| TyArr (t : ty) (n : N)                       (* [T; n] *)
| TyTuple (ts : list ty).                      (* (T, U) *)

(* literals; the suffix of a number is empty if there is none *)
Inductive lit :=
| LInt (n : N) (suffix : string)
| LBool (b : bool)
| LChar (c : N)
| LStr (bytes : list N)
| LByteStr (bytes : list N).

(* patterns *)
Inductive pat :=
| PWild                                        (* _ *)
| PVar (x : string)                            (* x, mut x *)
| PLit (l : lit)
| PTuple (ps : list pat)                       (* (p, q) *)
| PRef (p : pat)                               (* &p *)
| PCon (c : path) (ps : list pat).             (* None, Some(p), Encoding::Utf8 *)

Inductive binop := Add | Sub | Mul | Div | Rem | BitAnd | BitOr | Shl | Shr | Eq | Ne | Lt | Le | Gt | Ge.

Inductive expr :=
| ELit (l : lit)
| EPath (p : path)                             (* a variable, constant, unit variant *)
| ETuple (es : list expr)
| EArr (es : list expr)                        (* [a, b] *)
| ERepeat (e n : expr)                         (* [e; n] *)
| EStruct (p : path) (fs : list (string * expr))
| ERef (mutable : bool) (e : expr)             (* &e, &mut e *)
| EDeref (e : expr)                            (* *e *)
| ENot (e : expr)                              (* !e *)
| EBin (op : binop) (a b : expr)
| EAnd (a b : expr)                            (* a && b *)
| EOr (a b : expr)                             (* a || b *)
| ECast (e : expr) (t : ty)                    (* e as t *)
| EField (e : expr) (f : string)               (* e.f, e.0 *)
| EIndex (e i : expr)                          (* e[i] *)
| ERange (lo hi : option expr) (incl : bool)   (* lo..hi, lo..=hi *)
| ECall (p : path) (args : list expr)
| EMethod (e : expr) (f : string) (args : list expr)
| EMacro (f : string) (args : list expr)
| EClosure (ps : list pat) (e : expr)          (* |p| e *)
| EBlock (ss : list stmt) (tail : option expr)
| EIf (c a : expr) (b : option expr)
| EIfLet (p : pat) (e a : expr) (b : option expr)
| EMatch (e : expr) (arms : list (pat * expr))
| EWhile (c body : expr)
| EWhileLet (p : pat) (e body : expr)
| EFor (p : pat) (e body : expr)
| EAssign (place e : expr)
| EOpAssign (op : binop) (place e : expr)
| EBreak
| EContinue
| EReturn (e : option expr)
with stmt :=
| SLet (p : pat) (t : option ty) (e : expr)
| SExpr (e : expr).

Record fn := Fn { fn_params : list (string * ty); fn_ret : option ty; fn_body : expr }.

(* what a use declaration imports: one name, or everything in a module *)
Inductive import := Import (p : path) | Glob (p : path).

Inductive item :=
| IFn (test : bool) (name : string) (f : fn)
| IMod (test : bool) (name : string) (items : option (list item))
| IUse (is : list import)
| IConst (name : string) (t : ty) (e : expr)
| IInclude (file : list N)                     (* include!("file"); *)
| IProp (name : string) (x : string) (gen body : expr)
                                               (* in proptest!: fn name(x in gen) body, with x or `mut x` or `ref x` *)
| IOther.                                      (* struct, enum, type, extern crate *)
