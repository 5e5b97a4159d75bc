(* Encoding clients that put something else in place of characters without representation, as suggested in /repo/src/lib.rs:57-61,
   and what they should yield.  These are specifications of usage and of results, not part of the crate. *)
From Coq Require Import List NArith Arith.
From Verif Require Import Encodings Spec SpecErrors Prelude RustCore Types ModelApi.
Import ListNotations.

(* [SubSession e sub fed ended n em]: a client has obtained the text with UTF-8 bytes [fed] so far, [ended] says whether it knows
   that no more will come; in an arbitrary number of calls with arbitrary output buffers, always passing all text that is
   still unprocessed, putting the bytes [sub c] in place of each reported character c and going on behind it, it has
   processed [n] bytes and emitted [em]. *)
Inductive SubSession (e : encoding) (sub : N -> list N) : list N -> bool -> nat -> list N -> Prop :=
| ss_start : SubSession e sub [] false 0 []
| ss_feed cs fed n em : SubSession e sub fed false n em -> text cs -> SubSession e sub (fed ++ utf8 cs) false n em
| ss_finish fed n em : SubSession e sub fed false n em -> SubSession e sub fed true n em
| ss_ok fed ended n em out s k buf :
    SubSession e sub fed ended n em ->
    encode_from_str e (skipn n fed) out ended = Ret (Ok (s, k), buf) ->
    SubSession e sub fed ended (n + k) (em ++ s)
| ss_err fed ended n em out er buf :
    SubSession e sub fed ended n em ->
    encode_from_str e (skipn n fed) out ended = Ret (Err er, buf) ->
    SubSession e sub fed ended (n + snd (ee_range er)) (em ++ firstn (ee_written er) buf ++ sub (ee_character er)).

(* The client for a complete text, as a function: one call per element of outs.  Yields what was emitted and the input left over. *)
Fixpoint substitute_loop (e : encoding) (sub : N -> list N) (input : list N) (outs : list (list N)) : list N * list N :=
  match input, outs with
  | [], _ | _, [] => ([], input)
  | _, out :: outs =>
      match encode_from_str e input out true with
      | Ret (Ok (s, n), _) => let (em, r) := substitute_loop e sub (skipn n input) outs in (s ++ em, r)
      | Ret (Err er, buf) =>
          let (em, r) := substitute_loop e sub (skipn (snd (ee_range er)) input) outs in
          (firstn (ee_written er) buf ++ sub (ee_character er) ++ em, r)
      | _ => ([], input)
      end
  end.

(* the text cs is represented by bs, always taking the longest piece that has a representation,
   with [sub c] for a character c that starts no such piece *)
Inductive Substituted (e : encoding) (sub : N -> list N) : list N -> list N -> Prop :=
| Substituted_nil : Substituted e sub [] []
| Substituted_unit u w cs bs :
    EncUnit e u w -> longest e u (u ++ cs) -> Substituted e sub cs bs -> Substituted e sub (u ++ cs) (w ++ bs)
| Substituted_char c cs bs :
    Unencodable e (c :: cs) -> Substituted e sub cs bs -> Substituted e sub (c :: cs) (sub c ++ bs).

(* the same on the level of text: cs' is cs with [r c] in place of each such character c *)
Inductive Rewritten (e : encoding) (r : N -> list N) : list N -> list N -> Prop :=
| Rewritten_nil : Rewritten e r [] []
| Rewritten_unit u w cs cs' :
    EncUnit e u w -> longest e u (u ++ cs) -> Rewritten e r cs cs' -> Rewritten e r (u ++ cs) (u ++ cs')
| Rewritten_char c cs cs' :
    Unencodable e (c :: cs) -> Rewritten e r cs cs' -> Rewritten e r (c :: cs) (r c ++ cs').
