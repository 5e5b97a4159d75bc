(* Lexical analysis of Rust source text (its bytes), for the part of Rust in RustSyntax.v.
   Nothing in this file is specific to the crate. *)
From Coq Require Import List NArith Bool String Ascii.
From Verif Require Import RustCore.
Import ListNotations.
Local Open Scope N_scope.

Inductive token :=
| TId (s : string)                      (* identifiers and keywords *)
| TNum (n : N) (suffix : string)        (* 12, 0xFF, 0b1010, 0u8 *)
| TStr (bytes : list N)                 (* "..." *)
| TByteStr (bytes : list N)             (* b"..." *)
| TChar (c : N)                         (* 'c' *)
| TLife (s : string)                    (* 'a *)
| TP (s : string).                      (* operators and punctuation *)

Definition in_range (lo c hi : N) : bool := (lo <=? c) && (c <=? hi).
Definition is_space (c : N) : bool := (c =? 32) || (c =? 10) || (c =? 9) || (c =? 13).
Definition is_digit (c : N) : bool := in_range 48 c 57.
Definition is_alpha (c : N) : bool := in_range 65 c 90 || in_range 97 c 122 || (c =? 95).
Definition is_ident (c : N) : bool := is_alpha c || is_digit c.

Definition cons_char (c : N) (s : string) : string := String (ascii_of_N c) s.

(* the longest prefix of identifier characters *)
Fixpoint ident (bs : list N) : string * list N :=
  match bs with
  | c :: r => if is_ident c then let (s, r) := ident r in (cons_char c s, r) else (EmptyString, bs)
  | [] => (EmptyString, bs)
  end.

(* the value of a digit *)
Definition digit_value (c : N) : option N :=
  if in_range 48 c 57 then Some (c - 48)
  else if in_range 65 c 70 then Some (c - 55)
  else if in_range 97 c 102 then Some (c - 87)
  else None.
(* the longest prefix of digits in a base, with underscores *)
Fixpoint digits (base acc : N) (bs : list N) : N * list N :=
  match bs with
  | 95 :: r => digits base acc r
  | c :: r =>
      match digit_value c with
      | Some d => if d <? base then digits base (acc * base + d) r else (acc, bs)
      | None => (acc, bs)
      end
  | [] => (acc, bs)
  end.
(* 0x..., 0b... or decimal *)
Definition number (bs : list N) : N * list N :=
  match bs with
  | 48 :: 120 :: r => digits 16 0 r
  | 48 :: 98 :: r => digits 2 0 r
  | _ => digits 10 0 bs
  end.

(* an escape sequence, after the backslash: n, r, t, 0, a backslash, a quote, xFF or u{10FFFF}; [true]: it denotes a byte,
   [false]: a code point *)
Definition escape (bs : list N) : option (bool * N * list N) :=
  match bs with
  | 110 :: r => Some (false, 10, r)
  | 114 :: r => Some (false, 13, r)
  | 116 :: r => Some (false, 9, r)
  | 48 :: r => Some (false, 0, r)
  | 92 :: r => Some (false, 92, r)
  | 39 :: r => Some (false, 39, r)
  | 34 :: r => Some (false, 34, r)
  | 120 :: a :: b :: r =>
      match digit_value a, digit_value b with
      | Some a, Some b => Some (true, a * 16 + b, r)
      | _, _ => None
      end
  | 117 :: 123 :: r =>
      match digits 16 0 r with
      | (c, 125 :: r) => Some (false, c, r)
      | _ => None
      end
  | _ => None
  end.

(* the rest of a string literal, after the opening quote *)
Fixpoint string_body (fuel : nat) (bs : list N) : option (list N * list N) :=
  match fuel with
  | O => None
  | S f =>
      match bs with
      | 34 :: r => Some ([], r)
      | 92 :: r =>
          match escape r with
          | Some (is_byte, c, r) =>
              match string_body f r with
              | Some (s, r) => Some ((if is_byte then [c] else encode_utf8 c) ++ s, r)
              | None => None
              end
          | None => None
          end
      | c :: r =>
          match string_body f r with
          | Some (s, r) => Some (c :: s, r)
          | None => None
          end
      | [] => None
      end
  end.

(* the UTF-8 character at the front *)
Definition one_char (bs : list N) : option (N * list N) :=
  match bs with
  | a :: r =>
      if a <? 0x80 then Some (a, r)
      else if a <? 0xE0 then
        match r with b :: r => Some ((a - 0xC0) * 64 + (b - 0x80), r) | _ => None end
      else if a <? 0xF0 then
        match r with b :: c :: r => Some (((a - 0xE0) * 64 + (b - 0x80)) * 64 + (c - 0x80), r) | _ => None end
      else
        match r with
        | b :: c :: d :: r => Some ((((a - 0xF0) * 64 + (b - 0x80)) * 64 + (c - 0x80)) * 64 + (d - 0x80), r)
        | _ => None
        end
  | [] => None
  end.
(* after a single quote: a character literal or a lifetime *)
Definition quote (bs : list N) : option (token * list N) :=
  match bs with
  | 92 :: r =>
      match escape r with
      | Some (_, c, 39 :: r) => Some (TChar c, r)
      | _ => None
      end
  | _ =>
      match one_char bs with
      | Some (c, 39 :: r) => Some (TChar c, r)
      | _ => let (s, r) := ident bs in Some (TLife s, r)
      end
  end.

Fixpoint skip_line (bs : list N) : list N :=
  match bs with
  | [] => []
  | 10 :: r => r
  | _ :: r => skip_line r
  end.

(* punctuation that no longer operator begins with *)
Definition is_punct (c : N) : bool :=
  (c =? 44) || (c =? 40) || (c =? 41) || (c =? 91) || (c =? 93) || (c =? 59) || (c =? 123) || (c =? 125).
(* the longest operator at the front *)
Definition operators : list string :=
  ["..="; "<<="; ">>="; "::"; "->"; "=>"; "=="; "!="; "<="; ">="; "&&"; "||"; "+="; "-="; "*="; "/="; "%="; "&="; "|="; "<<"; ">>"; "..";
   "<"; ">"; "="; "+"; "-"; "*"; "/"; "%"; "&"; "|"; "!"; "."; ":"; "#"; "?"]%string.
Fixpoint strip (op : string) (bs : list N) : option (list N) :=
  match op with
  | EmptyString => Some bs
  | String a op =>
      match bs with
      | c :: r => if N_of_ascii a =? c then strip op r else None
      | [] => None
      end
  end.
Fixpoint operator (ops : list string) (bs : list N) : option (string * list N) :=
  match ops with
  | [] => None
  | op :: ops =>
      match strip op bs with
      | Some r => Some (op, r)
      | None => operator ops bs
      end
  end.

(* the first token, if there is none because of white space or a comment then None, and what follows *)
Definition next (bs : list N) : option (option token * list N) :=
  match bs with
  | [] => None
  | 47 :: 47 :: r => Some (None, skip_line r)
  | 47 :: 42 :: _ => None
  | 98 :: 34 :: r =>
      match string_body (S (List.length r)) r with
      | Some (s, r) => Some (Some (TByteStr s), r)
      | None => None
      end
  | 34 :: r =>
      match string_body (S (List.length r)) r with
      | Some (s, r) => Some (Some (TStr s), r)
      | None => None
      end
  | 39 :: r =>
      match quote r with
      | Some (t, r) => Some (Some t, r)
      | None => None
      end
  | c :: r =>
      if is_space c then Some (None, r)
      else if is_punct c then Some (Some (TP (cons_char c EmptyString)), r)
      else if is_digit c then
        let (n, r) := number bs in
        let (s, r) := ident r in
        Some (Some (TNum n s), r)
      else if is_alpha c then
        let (s, r) := ident bs in Some (Some (TId s), r)
      else
        match operator operators bs with
        | Some (op, r) => Some (Some (TP op), r)
        | None => None
        end
  end.
Fixpoint lex (fuel : nat) (bs : list N) : option (list token) :=
  match fuel with
  | O => None
  | S f =>
      match bs with
      | [] => Some []
      | _ =>
          match next bs with
          | Some (Some t, r) => match lex f r with Some ts => Some (t :: ts) | None => None end
          | Some (None, r) => lex f r
          | None => None
          end
      end
  end.

Definition tokens (bs : list N) : option (list token) := lex (S (List.length bs)) bs.
