(* Client programs that use the API incrementally, as described in /repo/src/lib.rs:60-170 and exercised by
   /repo/tests/property_tests.rs.  These are specifications of usage, not part of the crate. *)
From Coq Require Import List NArith Arith.
From Verif Require Import Encodings Spec Prelude RustCore Types ModelApi.
Import ListNotations.

(* [EncSession e fed ended n em]: a client has obtained the text with UTF-8 bytes [fed] so far, [ended] says whether it knows that
   no more will come; in an arbitrary number of calls with arbitrary output buffers, always passing all text that
   is still unprocessed, [n] bytes of it were consumed and [em] was emitted. *)
Inductive EncSession (e : encoding) : list N -> bool -> nat -> list N -> Prop :=
| enc_start : EncSession e [] false 0 []
| enc_feed cs fed n em : EncSession e fed false n em -> text cs -> EncSession e (fed ++ utf8 cs) false n em
| enc_finish fed n em : EncSession e fed false n em -> EncSession e fed true n em
| enc_call fed ended n em out s k buf :
    EncSession e fed ended n em ->
    encode_from_str e (skipn n fed) out ended = Ret (Ok (s, k), buf) ->
    EncSession e fed ended (n + k) (em ++ s).

(* The same for decoding; chunks may end anywhere. *)
Inductive DecSession (e : encoding) : list N -> bool -> nat -> list N -> Prop :=
| dec_start : DecSession e [] false 0 []
| dec_feed bs fed n em : DecSession e fed false n em -> bytes bs -> DecSession e (fed ++ bs) false n em
| dec_finish fed n em : DecSession e fed false n em -> DecSession e fed true n em
| dec_call fed ended n em out s k buf :
    DecSession e fed ended n em ->
    decode_to_str e (skipn n fed) out ended = Ret (Ok (s, k), buf) ->
    DecSession e fed ended (n + k) (em ++ s).

(* The documented loop on a complete input: call, drop what was consumed, repeat while input is left and buffers are supplied.
   Yields what was emitted, and the input left over or the error that stopped the loop. *)
Fixpoint encode_loop (e : encoding) (input : list N) (outs : list (list N)) : list N * (list N + encode_error) :=
  match input, outs with
  | [], _ | _, [] => ([], inl input)
  | _, out :: outs =>
      match encode_from_str e input out true with
      | Ret (Ok (s, n), _) => let (em, r) := encode_loop e (skipn n input) outs in (s ++ em, r)
      | Ret (Err er, buf) => (firstn (ee_written er) buf, inr er)
      | _ => ([], inl input)
      end
  end.

Fixpoint decode_loop (e : encoding) (input : list N) (outs : list (list N)) : list N * (list N + decode_error) :=
  match input, outs with
  | [], _ | _, [] => ([], inl input)
  | _, out :: outs =>
      match decode_to_str e input out true with
      | Ret (Ok (s, n), _) => let (em, r) := decode_loop e (skipn n input) outs in (s ++ em, r)
      | Ret (Err er, buf) => (firstn (de_written er) buf, inr er)
      | _ => ([], inl input)
      end
  end.

(* A client that replaces every reported error range by U+FFFD and goes on behind it, with arbitrary buffers:
   [Recovered e bs s] if s is what it has emitted when all of bs is processed. *)
Inductive Recovered (e : encoding) : list N -> list N -> Prop :=
| rec_end : Recovered e [] []
| rec_ok bs out s n buf s' :
    decode_to_str e bs out true = Ret (Ok (s, n), buf) -> Recovered e (skipn n bs) s' -> Recovered e bs (s ++ s')
| rec_err bs out er buf s' :
    decode_to_str e bs out true = Ret (Err er, buf) -> Recovered e (skipn (snd (de_range er)) bs) s' ->
    Recovered e bs (firstn (de_written er) buf ++ utf8_char 0xFFFD ++ s').

(* the same client as a function: one call per element of outs; returns what was emitted and the input left over *)
Fixpoint recover_loop (e : encoding) (input : list N) (outs : list (list N)) : list N * list N :=
  match input, outs with
  | [], _ | _, [] => ([], input)
  | _, out :: outs =>
      match decode_to_str e input out true with
      | Ret (Ok (s, n), _) => let (em, r) := recover_loop e (skipn n input) outs in (s ++ em, r)
      | Ret (Err er, buf) =>
          let (em, r) := recover_loop e (skipn (snd (de_range er)) input) outs in
          (firstn (de_written er) buf ++ utf8_char 0xFFFD ++ em, r)
      | _ => ([], input)
      end
  end.

(* A client that replaces errors while data is still arriving: it has obtained [fed] so far, [ended] says whether it knows
   that no more will come; with arbitrary buffers, always passing all data that is still unprocessed, replacing each reported
   error range by U+FFFD and going on behind it, it has processed [n] bytes and emitted [em]. *)
Inductive RecSession (e : encoding) : list N -> bool -> nat -> list N -> Prop :=
| rs_start : RecSession e [] false 0 []
| rs_feed bs fed n em : RecSession e fed false n em -> bytes bs -> RecSession e (fed ++ bs) false n em
| rs_finish fed n em : RecSession e fed false n em -> RecSession e fed true n em
| rs_ok fed ended n em out s k buf :
    RecSession e fed ended n em ->
    decode_to_str e (skipn n fed) out ended = Ret (Ok (s, k), buf) ->
    RecSession e fed ended (n + k) (em ++ s)
| rs_err fed ended n em out er buf :
    RecSession e fed ended n em ->
    decode_to_str e (skipn n fed) out ended = Ret (Err er, buf) ->
    RecSession e fed ended (n + snd (de_range er)) (em ++ firstn (de_written er) buf ++ utf8_char 0xFFFD).
