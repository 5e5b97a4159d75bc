(* Lexical analysis of Python source text (its code points), for the part of Python in PySyntax.v.
   Nothing in this file is specific to the scripts. *)
From Coq Require Import List NArith Arith Bool String Ascii.
Import ListNotations.
Local Open Scope N_scope.

Inductive token :=
| TId (s : string)            (* identifiers and keywords *)
| TInt (n : N)
| TStr (cs : list N)
| TP (s : string)             (* operators and punctuation *)
| TNewline | TIndent | TDedent.

Definition in_range (lo c hi : N) : bool := (lo <=? c) && (c <=? hi).
Definition is_digit (c : N) : bool := in_range 48 c 57.
Definition is_alpha (c : N) : bool := in_range 65 c 90 || in_range 97 c 122 || (c =? 95).
Definition cons_char (c : N) (s : string) : string := String (ascii_of_N c) s.

(* the longest prefix of identifier characters *)
Fixpoint ident (cs : list N) : string * list N :=
  match cs with
  | c :: r => if is_alpha c || is_digit c then let (s, r) := ident r in (cons_char c s, r) else (EmptyString, cs)
  | [] => (EmptyString, cs)
  end.
Definition digit_value (c : N) : option N :=
  if in_range 48 c 57 then Some (c - 48)
  else if in_range 65 c 70 then Some (c - 55)
  else if in_range 97 c 102 then Some (c - 87)
  else None.
(* the longest prefix of digits in a base *)
Fixpoint digits (base acc : N) (cs : list N) : N * list N :=
  match cs with
  | c :: r =>
      match digit_value c with
      | Some d => if d <? base then digits base (acc * base + d) r else (acc, cs)
      | None => (acc, cs)
      end
  | [] => (acc, cs)
  end.
(* 0x... or decimal *)
Definition number (cs : list N) : N * list N :=
  match cs with
  | 48 :: 120 :: r => digits 16 0 r
  | _ => digits 10 0 cs
  end.

(* the character after a backslash *)
Definition escape (c : N) : option N :=
  if c =? 110 then Some 10
  else if (c =? 92) || (c =? 39) || (c =? 34) then Some c
  else None.
(* the rest of a string, after its opening quote q; triple: it ends with three of them *)
Fixpoint string_body (triple : bool) (q : N) (cs : list N) : option (list N * list N) :=
  match cs with
  | [] => None
  | c :: r =>
      if c =? 92 then
        match r with
        | d :: r =>
            match escape d, string_body triple q r with
            | Some d, Some (s, r) => Some (d :: s, r)
            | _, _ => None
            end
        | [] => None
        end
      else if (c =? q) && negb triple then Some ([], r)
      else if (c =? 10) && negb triple then None
      else
        match (if (c =? q) && triple then match r with a :: b :: r => if (a =? q) && (b =? q) then Some r else None | _ => None end else None) with
        | Some r => Some ([], r)
        | None => match string_body triple q r with Some (s, r) => Some (c :: s, r) | None => None end
        end
  end.
Definition string_lit (q : N) (cs : list N) : option (list N * list N) :=
  match cs with
  | a :: b :: r => if (a =? q) && (b =? q) then string_body true q r else string_body false q cs
  | _ => string_body false q cs
  end.

(* operators of two characters: == != <= >= // += -= &= *)
Definition is_op2 (a b : N) : bool :=
  ((b =? 61) && existsb (N.eqb a) [61; 33; 60; 62; 43; 45; 38]) || ((a =? 47) && (b =? 47)).
Definition is_op1 (c : N) : bool := existsb (N.eqb c) [40; 41; 91; 93; 123; 125; 44; 58; 46; 59; 61; 60; 62; 43; 45; 42; 37; 38].
Definition opens (c : N) : bool := existsb (N.eqb c) [40; 91; 123].
Definition closes (c : N) : bool := existsb (N.eqb c) [41; 93; 125].

Fixpoint skip_line (cs : list N) : list N :=
  match cs with
  | c :: r => if c =? 10 then cs else skip_line r
  | [] => []
  end.
Fixpoint spaces (cs : list N) : nat * list N :=
  match cs with
  | c :: r => if c =? 32 then let (k, r) := spaces r in (S k, r) else (O, cs)
  | [] => (O, cs)
  end.
(* the tokens for a new line that is indented by k; the indentations around it, the innermost first *)
Fixpoint dedent (k : nat) (stack : list nat) : option (list token * list nat) :=
  match stack with
  | [] => if (k =? 0)%nat then Some ([], []) else None
  | j :: stack' =>
      if (k =? j)%nat then Some ([], stack)
      else match dedent k stack' with Some (ts, s) => Some (TDedent :: ts, s) | None => None end
  end.
Definition indent (k : nat) (stack : list nat) : option (list token * list nat) :=
  if (match stack with j :: _ => j | [] => O end <? k)%nat then Some ([TIndent], k :: stack) else dedent k stack.

(* depth: of brackets; start: at the start of a line *)
Fixpoint lex (fuel : nat) (depth : nat) (start : bool) (stack : list nat) (cs : list N) : option (list token) :=
  let put ts o := match o with Some ts' => Some (ts ++ ts')%list | None => None end in
  match fuel with
  | O => None
  | S f =>
      if start then
        let (k, r) := spaces cs in
        match r with
        | [] => match dedent 0 stack with Some (ts, _) => Some ts | None => None end
        | c :: r' =>
            if c =? 10 then lex f depth true stack r'
            else if c =? 35 then lex f depth true stack (tl (skip_line r))
            else match indent k stack with
                 | Some (ts, stack) => put ts (lex f depth false stack r)
                 | None => None
                 end
        end
      else
        match cs with
        | [] => None
        | c :: r =>
            if c =? 32 then lex f depth false stack r
            else if c =? 35 then lex f depth false stack (skip_line r)
            else if c =? 10 then
              if (depth =? 0)%nat then put [TNewline] (lex f depth true stack r) else lex f depth false stack r
            else if is_alpha c then let (s, r) := ident cs in put [TId s] (lex f depth false stack r)
            else if is_digit c then let (n, r) := number cs in put [TInt n] (lex f depth false stack r)
            else if (c =? 39) || (c =? 34) then
              match string_lit c r with
              | Some (s, r) => put [TStr s] (lex f depth false stack r)
              | None => None
              end
            else if match r with d :: _ => is_op2 c d | [] => false end then
              match r with
              | d :: r => put [TP (cons_char c (cons_char d EmptyString))] (lex f depth false stack r)
              | [] => None
              end
            else if is_op1 c then
              put [TP (cons_char c EmptyString)]
                (lex f (if opens c then S depth else if closes c then pred depth else depth) false stack r)
            else None
        end
  end.
(* the tokens of a file, which ends with a newline *)
Definition tokens (cs : list N) : option (list token) := lex (S (S (List.length cs))) 0 true [] cs.
