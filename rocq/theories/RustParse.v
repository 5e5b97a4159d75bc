(* A recursive-descent parser for the part of Rust in RustSyntax.v, from tokens.  Nothing in this file is specific to the crate.
   Every function takes fuel (enough of it is the number of tokens, see [parse]), and returns what it has read and the tokens that
   follow, or None if there is no such phrase. *)
From Coq Require Import List NArith Bool String Ascii.
From Verif Require Import RustSyntax RustLex.
Import ListNotations.
Local Open Scope string_scope.
Local Open Scope list_scope.

Definition parser (A : Type) := list token -> option (A * list token).
Definition pbind {A B} (p : option (A * list token)) (k : A -> parser B) : option (B * list token) :=
  match p with Some (a, ts) => k a ts | None => None end.
Notation "'do' x , ts '<-' p ; k" := (pbind p (fun x ts => k)) (at level 200, x pattern, ts name, p at level 100, k at level 200).

(* the tokens begin with these operators and keywords *)
Fixpoint sees (l : list string) (ts : list token) : bool :=
  match l, ts with
  | [], _ => true
  | s :: l, TP x :: ts => String.eqb x s && sees l ts
  | s :: l, TId x :: ts => String.eqb x s && sees l ts
  | _, _ => false
  end.
(* they begin with this one, which is read *)
Definition sym (s : string) : parser unit := fun ts => if sees [s] ts then Some (tt, tl ts) else None.
Definition ident_tok : parser string := fun ts => match ts with TId x :: r => Some (x, r) | _ => None end.

(* items separated by commas up to the closing token, which is also read; a comma may follow the last item *)
Fixpoint comma_list {A} (fuel : nat) (p : parser A) (close : string) (ts : list token) : option (list A * list token) :=
  match fuel with
  | O => None
  | S f =>
      if sees [close] ts then Some ([], tl ts)
      else
        do x, ts <- p ts;
        if sees [","] ts then do xs, ts <- comma_list f p close (tl ts); Some (x :: xs, ts)
        else do _, ts <- sym close ts; Some ([x], ts)
  end.

(** ** Paths and types *)

(* a::b::c *)
Fixpoint path_tok (fuel : nat) (ts : list token) : option (path * list token) :=
  match fuel with
  | O => None
  | S f =>
      do x, ts <- ident_tok ts;
      if sees ["::"] ts then do p, ts <- path_tok f (tl ts); Some (x :: p, ts) else Some ([x], ts)
  end.

(* lifetimes, without what follows *)
Definition skip_life (ts : list token) : list token :=
  match ts with
  | TLife _ :: r => if sees [","] r then tl r else r
  | _ => ts
  end.

Fixpoint type_tok (fuel : nat) (ts : list token) : option (ty * list token) :=
  match fuel with
  | O => None
  | S f =>
      if sees ["&"] ts then
        let r := skip_life (tl ts) in
        if sees ["mut"] r then do t, r <- type_tok f (tl r); Some (TyRef true t, r)
        else do t, r <- type_tok f r; Some (TyRef false t, r)
      else if sees ["["] ts then
        do t, r <- type_tok f (tl ts);
        if sees ["]"] r then Some (TySlice t, tl r)
        else
          do _, r <- sym ";" r;
          match r with
          | TNum n _ :: r => do _, r <- sym "]" r; Some (TyArr t n, r)
          | _ => None
          end
      else if sees ["("] ts then do l, r <- comma_list f (type_tok f) ")" (tl ts); Some (TyTuple l, r)
      else
        do p, r <- path_tok f ts;
        if sees ["<"] r then do l, r <- comma_list f (type_tok f) ">" (skip_life (tl r)); Some (TyPath p l, r)
        else Some (TyPath p [], r)
  end.

(** ** Patterns *)

Definition literal (ts : list token) : option (lit * list token) :=
  match ts with
  | TNum n s :: r => Some (LInt n s, r)
  | TStr s :: r => Some (LStr s, r)
  | TByteStr s :: r => Some (LByteStr s, r)
  | TChar c :: r => Some (LChar c, r)
  | _ =>
      if sees ["true"] ts then Some (LBool true, tl ts)
      else if sees ["false"] ts then Some (LBool false, tl ts)
      else None
  end.

(* does a name begin with a capital letter: in a pattern, such a name is a variant, not a variable *)
Definition capital (s : string) : bool :=
  match s with String a _ => (65 <=? N_of_ascii a)%N && (N_of_ascii a <=? 90)%N | EmptyString => false end.

Fixpoint pattern (fuel : nat) (ts : list token) : option (pat * list token) :=
  match fuel with
  | O => None
  | S f =>
      match literal ts with
      | Some (l, r) => Some (PLit l, r)
      | None =>
          if sees ["_"] ts then Some (PWild, tl ts)
          else if sees ["mut"] ts then do x, r <- ident_tok (tl ts); Some (PVar x, r)
          else if sees ["&"] ts then do p, r <- pattern f (tl ts); Some (PRef p, r)
          else if sees ["("] ts then do l, r <- comma_list f (pattern f) ")" (tl ts); Some (PTuple l, r)
          else
            do p, r <- path_tok f ts;
            if sees ["("] r then do l, r <- comma_list f (pattern f) ")" (tl r); Some (PCon p l, r)
            else match p with
                 | [x] => if capital x then Some (PCon p [], r) else Some (PVar x, r)
                 | _ => Some (PCon p [], r)
                 end
      end
  end.

(** ** Expressions *)

(* the binary operators, with their strengths *)
Definition binaries : list (string * ((expr -> expr -> expr) * nat)) :=
  [("*", (EBin Mul, 9)); ("/", (EBin Div, 9)); ("%", (EBin Rem, 9));
   ("+", (EBin Add, 8)); ("-", (EBin Sub, 8));
   ("<<", (EBin Shl, 7)); (">>", (EBin Shr, 7));
   ("&", (EBin BitAnd, 6));
   ("|", (EBin BitOr, 5));
   ("==", (EBin Eq, 4)); ("!=", (EBin Ne, 4)); ("<", (EBin Lt, 4)); ("<=", (EBin Le, 4)); (">", (EBin Gt, 4)); (">=", (EBin Ge, 4));
   ("&&", (EAnd, 3));
   ("||", (EOr, 2))].
Definition compounds : list (string * binop) :=
  [("+=", Add); ("-=", Sub); ("*=", Mul); ("/=", Div); ("%=", Rem); ("&=", BitAnd); ("|=", BitOr); ("<<=", Shl); (">>=", Shr)].
(* tokens that end an expression *)
Definition ends (ts : list token) : bool :=
  sees [","] ts || sees [")"] ts || sees ["]"] ts || sees [";"] ts || sees ["}"] ts.
(* the entry for the first token *)
Fixpoint entry {A} (l : list (string * A)) (ts : list token) : option A :=
  match l with
  | [] => None
  | (s, a) :: l => if sees [s] ts then Some a else entry l ts
  end.
Definition symbol {A} (l : list (string * A)) (ts : list token) : option A := if ends ts then None else entry l ts.


(* expressions that end with a block need no semicolon as statements *)
Definition block_like (ts : list token) : bool :=
  sees ["if"] ts || sees ["match"] ts || sees ["while"] ts || sees ["for"] ts || sees ["unsafe"] ts || sees ["{"] ts.

(* as T as U *)
Fixpoint casts (fuel : nat) (a : expr) (ts : list token) : option (expr * list token) :=
  match fuel with
  | O => None
  | S f =>
      if sees ["as"] ts then do p, ts <- path_tok f (tl ts); casts f (ECast a (TyPath p [])) ts
      else Some (a, ts)
  end.

(* st: is a struct literal allowed (it is not in the condition of an if or while, or where a block must follow) *)
Fixpoint expression (fuel : nat) (st : bool) (ts : list token) : option (expr * list token) :=
  match fuel with
  | O => None
  | S f =>
      do a, ts <- range f st ts;
      if sees ["="] ts then do b, ts <- expression f st (tl ts); Some (EAssign a b, ts)
      else
        match symbol compounds ts with
        | Some op => do b, ts <- expression f st (tl ts); Some (EOpAssign op a b, ts)
        | None => Some (a, ts)
        end
  end
with range (fuel : nat) (st : bool) (ts : list token) : option (expr * list token) :=
  match fuel with
  | O => None
  | S f =>
      if sees [".."] ts then
        if ends (tl ts) then Some (ERange None None false, tl ts)
        else do b, ts <- operand f st 2 (tl ts); Some (ERange None (Some b) false, ts)
      else
        do a, ts <- operand f st 2 ts;
        if sees [".."] ts then
          if ends (tl ts) then Some (ERange (Some a) None false, tl ts)
          else do b, ts <- operand f st 2 (tl ts); Some (ERange (Some a) (Some b) false, ts)
        else if sees ["..="] ts then do b, ts <- operand f st 2 (tl ts); Some (ERange (Some a) (Some b) true, ts)
        else Some (a, ts)
  end
(* an expression of binary operators of strength n and more *)
with operand (fuel : nat) (st : bool) (n : nat) (ts : list token) : option (expr * list token) :=
  match fuel with
  | O => None
  | S f => do a, ts <- cast f st ts; operators_from f st n a ts
  end
with operators_from (fuel : nat) (st : bool) (n : nat) (a : expr) (ts : list token) : option (expr * list token) :=
  match fuel with
  | O => None
  | S f =>
      match symbol binaries ts with
      | Some (mk, k) =>
          if Nat.leb n k then do b, ts <- operand f st (S k) (tl ts); operators_from f st n (mk a b) ts
          else Some (a, ts)
      | None => Some (a, ts)
      end
  end
with cast (fuel : nat) (st : bool) (ts : list token) : option (expr * list token) :=
  match fuel with
  | O => None
  | S f => do a, ts <- unary f st ts; casts f a ts
  end
with unary (fuel : nat) (st : bool) (ts : list token) : option (expr * list token) :=
  match fuel with
  | O => None
  | S f =>
      if sees ["!"] ts then do a, r <- unary f st (tl ts); Some (ENot a, r)
      else if sees ["*"] ts then do a, r <- unary f st (tl ts); Some (EDeref a, r)
      else if sees ["&"; "mut"] ts then do a, r <- unary f st (skipn 2 ts); Some (ERef true a, r)
      else if sees ["&"] ts then do a, r <- unary f st (tl ts); Some (ERef false a, r)
      else do a, r <- primary f st ts; postfix f a r
  end
(* method calls, fields and indices *)
with postfix (fuel : nat) (a : expr) (ts : list token) : option (expr * list token) :=
  match fuel with
  | O => None
  | S f =>
      if sees ["."] ts then
        match tl ts with
        | TId m :: r =>
            if sees ["("] r then do l, r <- comma_list f (expression f true) ")" (tl r); postfix f (EMethod a m l) r
            else postfix f (EField a m) r
        | TNum n _ :: r => postfix f (EField a (String (ascii_of_N (48 + n)) "")) r
        | _ => None
        end
      else if sees ["["] ts then do i, r <- expression f true (tl ts); do _, r <- sym "]" r; postfix f (EIndex a i) r
      else Some (a, ts)
  end
with primary (fuel : nat) (st : bool) (ts : list token) : option (expr * list token) :=
  match fuel with
  | O => None
  | S f =>
      match literal ts with
      | Some (l, r) => Some (ELit l, r)
      | None =>
          let r := tl ts in
          if sees ["("] ts then
            (* (), (e) or a tuple *)
            if sees [")"] r then Some (ETuple [], tl r)
            else
              do a, r <- expression f true r;
              if sees [")"] r then Some (a, tl r)
              else do _, r <- sym "," r; do l, r <- comma_list f (expression f true) ")" r; Some (ETuple (a :: l), r)
          else if sees ["["] ts then
            if sees ["]"] r then Some (EArr [], tl r)
            else
              do a, r <- expression f true r;
              if sees [";"] r then do n, r <- expression f true (tl r); do _, r <- sym "]" r; Some (ERepeat a n, r)
              else if sees ["]"] r then Some (EArr [a], tl r)
              else do _, r <- sym "," r; do l, r <- comma_list f (expression f true) "]" r; Some (EArr (a :: l), r)
          else if sees ["|"] ts then
            do p, r <- pattern f r; do _, r <- sym "|" r; do e, r <- expression f st r; Some (EClosure [p] e, r)
          else if sees ["{"] ts then block f ts
          else if sees ["unsafe"] ts then block f r
          else if sees ["if"] ts then if_expr f r
          else if sees ["match"] ts then
            do e, r <- expression f false r; do _, r <- sym "{" r; do arms, r <- match_arms f r; Some (EMatch e arms, r)
          else if sees ["while"; "let"] ts then
            do p, r <- pattern f (tl r); do _, r <- sym "=" r; do e, r <- expression f false r; do b, r <- block f r;
            Some (EWhileLet p e b, r)
          else if sees ["while"] ts then do c, r <- expression f false r; do b, r <- block f r; Some (EWhile c b, r)
          else if sees ["for"] ts then
            do p, r <- pattern f r; do _, r <- sym "in" r; do e, r <- expression f false r; do b, r <- block f r;
            Some (EFor p e b, r)
          else if sees ["break"] ts then Some (EBreak, r)
          else if sees ["continue"] ts then Some (EContinue, r)
          else if sees ["return"] ts then
            if ends r then Some (EReturn None, r) else do e, r <- expression f st r; Some (EReturn (Some e), r)
          else
            do p, r <- path_tok f ts;
            if sees ["("] r then do l, r <- comma_list f (expression f true) ")" (tl r); Some (ECall p l, r)
            else if sees ["!"; "("] r then
              do l, r <- comma_list f (expression f true) ")" (skipn 2 r); Some (EMacro (last p "") l, r)
            else if sees ["!"; "["] r then do a, r <- primary f st (tl r); Some (EMacro (last p "") [a], r)
            else if st && sees ["{"] r && capital (last p "") then do l, r <- comma_list f (field f) "}" (tl r); Some (EStruct p l, r)
            else Some (EPath p, r)
      end
  end
(* name: e *)
with field (fuel : nat) (ts : list token) : option (string * expr * list token) :=
  match fuel with
  | O => None
  | S f => do x, ts <- ident_tok ts; do _, ts <- sym ":" ts; do e, ts <- expression f true ts; Some ((x, e), ts)
  end
(* after `if` *)
with if_expr (fuel : nat) (ts : list token) : option (expr * list token) :=
  match fuel with
  | O => None
  | S f =>
      if sees ["let"] ts then
        do p, ts <- pattern f (tl ts); do _, ts <- sym "=" ts; do e, ts <- expression f false ts; do a, ts <- block f ts;
        do b, ts <- else_expr f ts; Some (EIfLet p e a b, ts)
      else do c, ts <- expression f false ts; do a, ts <- block f ts; do b, ts <- else_expr f ts; Some (EIf c a b, ts)
  end
with else_expr (fuel : nat) (ts : list token) : option (option expr * list token) :=
  match fuel with
  | O => None
  | S f =>
      if sees ["else"; "if"] ts then do e, r <- if_expr f (skipn 2 ts); Some (Some e, r)
      else if sees ["else"] ts then do e, r <- block f (tl ts); Some (Some e, r)
      else Some (None, ts)
  end
(* after the opening brace of a match; after an arm that is a block, the comma may be missing *)
with match_arms (fuel : nat) (ts : list token) : option (list (pat * expr) * list token) :=
  match fuel with
  | O => None
  | S f =>
      if sees ["}"] ts then Some ([], tl ts)
      else
        do p, ts <- pattern f ts; do _, ts <- sym "=>" ts;
        if sees ["{"] ts then
          do e, ts <- block f ts;
          do rest, ts <- match_arms f (if sees [","] ts then tl ts else ts); Some ((p, e) :: rest, ts)
        else
          do e, ts <- expression f true ts;
          if sees ["}"] ts then Some ([(p, e)], tl ts)
          else do _, ts <- sym "," ts; do rest, ts <- match_arms f ts; Some ((p, e) :: rest, ts)
  end
with block (fuel : nat) (ts : list token) : option (expr * list token) :=
  match fuel with
  | O => None
  | S f => do _, ts <- sym "{" ts; do b, ts <- statements f ts; Some (EBlock (fst b) (snd b), ts)
  end
with statements (fuel : nat) (ts : list token) : option (list stmt * option expr * list token) :=
  match fuel with
  | O => None
  | S f =>
      let more s ts := do b, ts <- statements f ts; Some ((s :: fst b, snd b), ts) in
      if sees ["}"] ts then Some (([], None), tl ts)
      else if sees ["let"] ts then
        do p, ts <- pattern f (tl ts);
        do t, ts <- (if sees [":"] ts then do t, ts <- type_tok f (tl ts); Some (Some t, ts) else Some (None, ts));
        do _, ts <- sym "=" ts; do e, ts <- expression f true ts; do _, ts <- sym ";" ts;
        more (SLet p t e) ts
      else if block_like ts then
        do e, ts <- primary f true ts;
        if sees ["}"] ts then Some (([], Some e), tl ts)
        else more (SExpr e) (if sees [";"] ts then tl ts else ts)
      else
        do e, ts <- expression f true ts;
        if sees ["}"] ts then Some (([], Some e), tl ts)
        else do _, ts <- sym ";" ts; more (SExpr e) ts
  end.

(** ** Items *)

(* the first token is one of these *)
Definition one_of (l : list string) (ts : list token) : bool := existsb (fun s => sees [s] ts) l.
(* the tokens after the bracket that closes the one before ts; d: how many are open within *)
Fixpoint skip_brackets (d : nat) (ts : list token) : list token :=
  match ts with
  | [] => []
  | _ :: r =>
      if one_of ["("; "["; "{"] ts then skip_brackets (S d) r
      else if one_of [")"; "]"; "}"] ts then match d with O => r | S d => skip_brackets d r end
      else skip_brackets d r
  end.
(* the tokens after the next semicolon *)
Fixpoint skip_semi (ts : list token) : list token :=
  match ts with
  | [] => []
  | _ :: r => if sees [";"] ts then r else skip_semi r
  end.
(* the tokens after the declaration of a struct or enum: its braces *)
Fixpoint skip_decl (ts : list token) : list token :=
  match ts with
  | [] => []
  | _ :: r => if sees ["{"] ts then skip_brackets 0 r else skip_decl r
  end.

(* what is imported by a::b, a::*, {..}, a::{..}, with a prefix *)
Fixpoint use_tree (fuel : nat) (pre : path) (ts : list token) : option (list import * list token) :=
  match fuel with
  | O => None
  | S f =>
      if sees ["*"] ts then Some ([Glob pre], tl ts)
      else if sees ["{"] ts then do l, r <- comma_list f (use_tree f pre) "}" (tl ts); Some (List.concat l, r)
      else
        do x, r <- ident_tok ts;
        if sees ["::"] r then use_tree f (pre ++ [x]) (tl r) else Some ([Import (pre ++ [x])], r)
  end.

(* x: T, mut x: T *)
Definition param (fuel : nat) (ts : list token) : option (string * ty * list token) :=
  do x, ts <- ident_tok (if sees ["mut"] ts then tl ts else ts);
  do _, ts <- sym ":" ts; do t, ts <- type_tok fuel ts; Some ((x, t), ts).

(* after `fn`; generic parameters are lifetimes only *)
Definition function (fuel : nat) (ts : list token) : option (string * fn * list token) :=
  do x, ts <- ident_tok ts;
  do _, ts <- (if sees ["<"] ts then sym ">" (skip_life (tl ts)) else Some (tt, ts));
  do _, ts <- sym "(" ts; do ps, ts <- comma_list fuel (param fuel) ")" ts;
  do t, ts <- (if sees ["->"] ts then do t, ts <- type_tok fuel (tl ts); Some (Some t, ts) else Some (None, ts));
  do b, ts <- block fuel ts;
  Some ((x, Fn ps t b), ts).

(* the tests in proptest! { .. }, with the closing brace *)
Fixpoint prop_tests (fuel : nat) (ts : list token) : option (list item * list token) :=
  match fuel with
  | O => None
  | S f =>
      if sees ["}"] ts then Some ([], tl ts)
      else if sees ["#"; "["; "test"; "]"] ts then prop_tests f (skipn 4 ts)
      else if sees ["#"; "!"; "["] ts then prop_tests f (skip_brackets 0 (skipn 3 ts))
      else
        do _, ts <- sym "fn" ts; do x, ts <- ident_tok ts; do _, ts <- sym "(" ts;
        do y, ts <- ident_tok (if one_of ["ref"; "mut"] ts then tl ts else ts);
        do _, ts <- sym "in" ts; do g, ts <- expression f true ts; do _, ts <- sym ")" ts;
        do b, ts <- block f ts;
        do l, ts <- prop_tests f ts; Some (IProp x y g b :: l, ts)
  end.

(* items up to a closing brace or the end of the file; test: is there an attribute #[test] or #[cfg(test)] before this *)
Fixpoint items (fuel : nat) (test : bool) (ts : list token) : option (list item * list token) :=
  match fuel with
  | O => None
  | S f =>
      let more i ts := do l, ts <- items f false ts; Some (i :: l, ts) in
      let r := tl ts in
      match ts with
      | [] => Some ([], [])
      | _ =>
          if sees ["}"] ts then Some ([], ts)
          else if sees ["#"; "["; "test"; "]"] ts then items f true (skipn 4 ts)
          else if sees ["#"; "["; "cfg"; "("; "test"; ")"; "]"] ts then items f true (skipn 7 ts)
          else if sees ["#"; "["] ts then items f test (skip_brackets 0 (skipn 2 ts))
          else if sees ["#"; "!"; "["] ts then items f test (skip_brackets 0 (skipn 3 ts))
          else if sees ["pub"] ts then items f test r
          else if sees ["fn"] ts then do d, r <- function f r; more (IFn test (fst d) (snd d)) r
          else if sees ["mod"] ts then
            do x, r <- ident_tok r;
            if sees [";"] r then more (IMod test x None) (tl r)
            else do _, r <- sym "{" r; do l, r <- items f false r; do _, r <- sym "}" r; more (IMod test x (Some l)) r
          else if sees ["use"] ts then do l, r <- use_tree f [] r; do _, r <- sym ";" r; more (IUse l) r
          else if sees ["const"] ts then
            do x, r <- ident_tok r; do _, r <- sym ":" r; do t, r <- type_tok f r; do _, r <- sym "=" r;
            do e, r <- expression f true r; do _, r <- sym ";" r; more (IConst x t e) r
          else if sees ["include"; "!"; "("] ts then
            match skipn 3 ts with
            | TStr s :: r => do _, r <- sym ")" r; do _, r <- sym ";" r; more (IInclude s) r
            | _ => None
            end
          else if one_of ["type"; "extern"] ts then more IOther (skip_semi r)
          else if one_of ["struct"; "enum"] ts then more IOther (skip_decl r)
          else if sees ["proptest"; "!"; "{"] ts then
            do l, r <- prop_tests f (skipn 3 ts); do l', r <- items f false r; Some (l ++ l', r)
          else None
      end
  end.

(* a whole file *)
Definition parse (text : list N) : option (list item) :=
  match tokens text with
  | Some ts =>
      match items (10 * List.length ts + 10) false ts with
      | Some (l, []) => Some l
      | _ => None
      end
  | None => None
  end.
