(* Parser for the part of Python in PySyntax.v.  Nothing in this file is specific to the scripts.
   Every function returns the rest of the tokens; fuel bounds the nesting. *)
From Coq Require Import List NArith Bool String.
From Verif Require Import PySyntax PyLex.
Import ListNotations.
Local Open Scope string_scope.
Local Open Scope list_scope.

Definition parser (A : Type) := list token -> option (A * list token).
Definition keywords : list string :=
  ["and"; "continue"; "def"; "else"; "for"; "if"; "in"; "is"; "None"; "not"; "or"; "raise"; "return"; "while"].
Definition is_keyword (s : string) : bool := existsb (String.eqb s) keywords.
Definition id_is (s : string) (ts : list token) : bool := match ts with TId x :: _ => String.eqb x s | _ => false end.
Definition p_is (s : string) (ts : list token) : bool := match ts with TP x :: _ => String.eqb x s | _ => false end.
(* after the given token *)
Definition eat (s : string) {A} (k : parser A) : parser A := fun ts => if p_is s ts then k (tl ts) else None.
Definition eat_id (s : string) {A} (k : parser A) : parser A := fun ts => if id_is s ts then k (tl ts) else None.
Definition then_ {A B} (p : parser A) (k : A -> parser B) : parser B :=
  fun ts => match p ts with Some (a, ts) => k a ts | None => None end.
Definition ret {A} (a : A) : parser A := fun ts => Some (a, ts).
Definition name : parser string := fun ts => match ts with TId x :: ts => if is_keyword x then None else Some (x, ts) | _ => None end.

(* names, separated by commas, to the closing bracket *)
Fixpoint names (fuel : nat) (close : string) (ts : list token) : option (list string * list token) :=
  match fuel with
  | O => None
  | S f =>
      if p_is close ts then Some ([], tl ts)
      else then_ name (fun x ts =>
             if p_is "," ts then then_ (names f close) (fun xs => ret (x :: xs)) (tl ts)
             else eat close (ret [x]) ts) ts
  end.
Definition target_ (fuel : nat) : parser target := fun ts =>
  if p_is "(" ts then then_ (names fuel ")") (fun xs => ret (TTuple xs)) (tl ts) else then_ name (fun x => ret (TName x)) ts.

(* the binary operators, by their precedence; the number of their tokens *)
Definition operator (level : nat) (ts : list token) : option ((expr -> expr -> expr) * nat) :=
  match level with
  | 1 => if id_is "or" ts then Some (EOr, 1) else None
  | 2 => if id_is "and" ts then Some (EAnd, 1) else None
  | 4 =>
      if p_is "<" ts then Some (ECmp Lt, 1) else if p_is ">" ts then Some (ECmp Gt, 1)
      else if p_is "<=" ts then Some (ECmp Le, 1) else if p_is ">=" ts then Some (ECmp Ge, 1)
      else if p_is "==" ts then Some (ECmp Eq, 1) else if p_is "!=" ts then Some (ECmp Ne, 1)
      else if id_is "in" ts then Some (ECmp In, 1)
      else if id_is "not" ts then if id_is "in" (tl ts) then Some (ECmp NotIn, 2) else None
      else if id_is "is" ts then if id_is "not" (tl ts) then Some (ECmp IsNot, 2) else Some (ECmp Is, 1)
      else None
  | 5 => if p_is "+" ts then Some (EBin Add, 1) else if p_is "-" ts then Some (EBin Sub, 1) else None
  | 6 =>
      if p_is "*" ts then Some (EBin Mul, 1) else if p_is "//" ts then Some (EBin FloorDiv, 1)
      else if p_is "%" ts then Some (EBin Mod, 1) else None
  | _ => None
  end.

(* level 0: conditional expressions; 1-6: binary operators (3: not); 7: indexing and calls *)
Fixpoint expr_ (fuel : nat) (level : nat) (ts : list token) {struct fuel} : option (expr * list token) :=
  match fuel with
  | O => None
  | S f =>
      match level with
      | 0 =>
          then_ (expr_ f 1) (fun a ts =>
            if id_is "if" ts then then_ (expr_ f 1) (fun c => eat_id "else" (then_ (expr_ f 0) (fun b => ret (ECond c a b)))) (tl ts)
            else ret a ts) ts
      | 3 => if id_is "not" ts then then_ (expr_ f 3) (fun a => ret (ENot a)) (tl ts) else expr_ f 4 ts
      | 7 =>
          match ts with
          | TInt n :: ts => postfix f (EInt n) ts
          | TStr s :: ts => postfix f (EStr s) ts
          | TId x :: ts =>
              if String.eqb x "None" then Some (ENone, ts)
              else if is_keyword x then None
              else if p_is "(" ts then then_ (args f) (fun a => postfix f (ECall x (fst a) (snd a))) (tl ts)
              else postfix f (EName x) ts
          | _ =>
              if p_is "(" ts then
                then_ (expr_ f 0) (fun e ts =>
                  if p_is "," ts then then_ (exprs f ")") (fun es => postfix f (ETuple (e :: es))) (tl ts)
                  else eat ")" (postfix f e) ts) (tl ts)
              else if p_is "{" ts then then_ (exprs f "}") (fun es => postfix f (ESet es)) (tl ts)
              else if p_is "[" ts then
                if p_is "]" (tl ts) then postfix f (EList []) (tl (tl ts))
                else
                  then_ (expr_ f 0) (fun e ts =>
                    if id_is "for" ts then
                      then_ (target_ f) (fun t => eat_id "in" (then_ (expr_ f 1) (fun l ts =>
                        if id_is "if" ts then then_ (expr_ f 1) (fun c => eat "]" (postfix f (EComp e t l (Some c)))) (tl ts)
                        else eat "]" (postfix f (EComp e t l None)) ts))) (tl ts)
                    else if p_is "," ts then then_ (exprs f "]") (fun es => postfix f (EList (e :: es))) (tl ts)
                    else eat "]" (postfix f (EList [e])) ts) (tl ts)
              else None
          end
      | _ => then_ (expr_ f (S level)) (operators f level) ts
      end
  end
(* the operators of a level after their left operand; comparisons do not repeat *)
with operators (fuel : nat) (level : nat) (a : expr) (ts : list token) {struct fuel} : option (expr * list token) :=
  match fuel with
  | O => None
  | S f =>
      match operator level ts with
      | Some (op, k) =>
          then_ (expr_ f (S level)) (fun b => if Nat.eqb level 4 then ret (op a b) else operators f level (op a b)) (skipn k ts)
      | None => Some (a, ts)
      end
  end
with postfix (fuel : nat) (e : expr) (ts : list token) {struct fuel} : option (expr * list token) :=
  match fuel with
  | O => None
  | S f =>
      if p_is "[" ts then
        then_ (expr_ f 0) (fun i ts =>
          if p_is ":" ts then eat "]" (postfix f (EFrom e i)) (tl ts) else eat "]" (postfix f (EIndex e i)) ts) (tl ts)
      else if p_is "." ts then
        then_ name (fun m => eat "(" (then_ (exprs f ")") (fun es => postfix f (EMethod e m es)))) (tl ts)
      else Some (e, ts)
  end
(* expressions, separated by commas, to the closing bracket *)
with exprs (fuel : nat) (close : string) (ts : list token) {struct fuel} : option (list expr * list token) :=
  match fuel with
  | O => None
  | S f =>
      if p_is close ts then Some ([], tl ts)
      else then_ (expr_ f 0) (fun e ts =>
             if p_is "," ts then then_ (exprs f close) (fun es => ret (e :: es)) (tl ts)
             else eat close (ret [e]) ts) ts
  end
(* arguments, those with names last *)
with args (fuel : nat) (ts : list token) {struct fuel} : option (list expr * list (string * expr) * list token) :=
  match fuel with
  | O => None
  | S f =>
      if p_is ")" ts then Some ([], [], tl ts)
      else if p_is "=" (tl ts) then
        then_ name (fun x => eat "=" (then_ (expr_ f 0) (fun e ts =>
          then_ (if p_is "," ts then fun ts => args f (tl ts) else eat ")" (ret ([], [])))
            (fun a ts => match fst a with [] => Some (([], (x, e) :: snd a), ts) | _ => None end) ts))) ts
      else
        then_ (expr_ f 0) (fun e ts =>
          then_ (if p_is "," ts then fun ts => args f (tl ts) else eat ")" (ret ([], []))) (fun a => ret (e :: fst a, snd a)) ts) ts
  end.

Definition newline {A} (k : parser A) : parser A := fun ts => match ts with TNewline :: ts => k ts | _ => None end.
(* the end of a simple statement *)
Definition end_stmt {A} (k : parser A) : parser A := fun ts => if p_is ";" ts then newline k (tl ts) else newline k ts.

Definition augmented (ts : list token) : option binop :=
  if p_is "+=" ts then Some Add else if p_is "-=" ts then Some Sub else if p_is "&=" ts then Some BitAnd else None.

(* statements up to a dedent or the end *)
Fixpoint stmts (fuel : nat) (ts : list token) {struct fuel} : option (list stmt * list token) :=
  match fuel with
  | O => None
  | S f =>
      let block : parser (list stmt) := eat ":" (newline (fun ts =>
        match ts with
        | TIndent :: ts => then_ (stmts f) (fun ss ts => match ts with TDedent :: ts => Some (ss, ts) | _ => None end) ts
        | _ => None
        end)) in
      let go (s : stmt) : parser (list stmt) := then_ (stmts f) (fun ss => ret (s :: ss)) in
      match ts with
      | [] | TDedent :: _ => Some ([], ts)
      | TId x :: r =>
          if String.eqb x "def" then
            then_ name (fun g => eat "(" (then_ (names f ")") (fun ps => then_ block (fun b => go (SDef g ps b))))) r
          else if String.eqb x "for" then
            then_ (target_ f) (fun t => eat_id "in" (then_ (expr_ f 0) (fun e => then_ block (fun b => go (SFor t e b))))) r
          else if String.eqb x "while" then then_ (expr_ f 0) (fun c => then_ block (fun b => go (SWhile c b))) r
          else if String.eqb x "if" then
            then_ (expr_ f 0) (fun c => then_ block (fun a ts =>
              if id_is "else" ts then then_ block (fun b => go (SIf c a b)) (tl ts) else go (SIf c a []) ts)) r
          else if String.eqb x "return" then then_ (expr_ f 0) (fun e => end_stmt (go (SReturn e))) r
          else if String.eqb x "raise" then then_ (expr_ f 0) (fun e => end_stmt (go (SRaise e))) r
          else if String.eqb x "continue" then end_stmt (go SContinue) r
          else if p_is "=" r then then_ name (fun x => eat "=" (then_ (expr_ f 0) (fun e => end_stmt (go (SAssign x e))))) ts
          else match augmented r with
               | Some op => then_ name (fun x ts => then_ (expr_ f 0) (fun e => end_stmt (go (SAug op x e))) (tl ts)) ts
               | None => then_ (expr_ f 0) (fun e => end_stmt (go (SExpr e))) ts
               end
      | _ => then_ (expr_ f 0) (fun e => end_stmt (go (SExpr e))) ts
      end
  end.
(* a file *)
Definition parse (cs : list N) : option (list stmt) :=
  match tokens cs with
  | Some ts => match stmts (S (List.length ts)) ts with Some (ss, []) => Some ss | _ => None end
  | None => None
  end.
