(* Complete specification of single calls: which results and buffer contents are right.  Only the result types come from the model. *)
From Coq Require Import List NArith Arith.
From Verif Require Import Encodings Spec SpecErrors Prelude Types.
Import ListNotations.

(* u is the longest representable piece at the start of the text, and will be, whatever text is still to come *)
Definition settled (e : encoding) (is_end : bool) (u txt : list N) : Prop :=
  longest e u txt /\ (is_end = false -> forall more, text more -> longest e u (txt ++ more)).

(* [Taken e is_end pre s rest]: the text pre ++ rest starts with settled pieces that make up pre; s represents them *)
Inductive Taken (e : encoding) (is_end : bool) : list N -> list N -> list N -> Prop :=
| Taken_nil rest : Taken e is_end [] [] rest
| Taken_unit u w pre s rest :
    EncUnit e u w -> settled e is_end u (u ++ pre ++ rest) -> Taken e is_end pre s rest ->
    Taken e is_end (u ++ pre) (w ++ s) rest.

(* what an encoder returns when it stops in front of rest, having consumed pre and written s to a buffer of the given size *)
Inductive EncodeStop (e : encoding) (is_end : bool) (size : nat) (pre s : list N) : list N -> encode_result -> Prop :=
(* everything is done *)
| stop_done : EncodeStop e is_end size pre s [] (Ok (s, length (utf8 pre)))
(* the next piece does not fit *)
| stop_full u w post :
    EncUnit e u w -> settled e is_end u (u ++ post) -> size < length s + length w ->
    EncodeStop e is_end size pre s (u ++ post) (Ok (s, length (utf8 pre)))
(* the next piece depends on what follows *)
| stop_wait u w post :
    EncUnit e u w -> longest e u (u ++ post) -> ~ settled e is_end u (u ++ post) ->
    EncodeStop e is_end size pre s (u ++ post) (Ok (s, length (utf8 pre)))
(* the next character has no representation, but there is no room to say so *)
| stop_no_room c post :
    Unencodable e (c :: post) -> size < length s + encode_room e ->
    EncodeStop e is_end size pre s (c :: post) (Ok (s, length (utf8 pre)))
(* the next character has no representation *)
| stop_error c post :
    Unencodable e (c :: post) -> length s + encode_room e <= size ->
    EncodeStop e is_end size pre s (c :: post)
      (Err (EncodeError c (length (utf8 pre), length (utf8 pre) + length (utf8_char c)) (length s))).

(* [EncodeCall e cs out is_end r buf]: encoding the text cs with output buffer out should return r and leave buf in the buffer *)
Inductive EncodeCall (e : encoding) (cs out : list N) (is_end : bool) : encode_result -> list N -> Prop :=
| encode_call pre s rest r :
    cs = pre ++ rest -> Taken e is_end pre s rest -> length s <= length out -> EncodeStop e is_end (length out) pre s rest r ->
    EncodeCall e cs out is_end r (s ++ skipn (length s) out).

(* what a decoder returns when it stops in front of rest, having consumed n bytes and written the text cs *)
Inductive DecodeStop (e : encoding) (is_end : bool) (size n : nat) (cs : list N) : list N -> decode_result -> Prop :=
| dstop_done : DecodeStop e is_end size n cs [] (Ok (utf8 cs, n))
(* the next character does not fit *)
| dstop_full w u post :
    DecUnit e w u -> size < length (utf8 cs) + length (utf8 u) ->
    DecodeStop e is_end size n cs (w ++ post) (Ok (utf8 cs, n))
(* cut off, but more may follow *)
| dstop_wait rest :
    is_end = false -> Undecodable e rest -> Incomplete e rest ->
    DecodeStop e is_end size n cs rest (Ok (utf8 cs, n))
(* invalid, but no room to say so *)
| dstop_no_room rest :
    rest <> [] -> Undecodable e rest -> size < length (utf8 cs) + decode_room e ->
    DecodeStop e is_end size n cs rest (Ok (utf8 cs, n))
(* invalid *)
| dstop_error rest k :
    rest <> [] -> Undecodable e rest -> (is_end = false -> ~ Incomplete e rest) -> ErrorLength e rest k ->
    length (utf8 cs) + decode_room e <= size ->
    DecodeStop e is_end size n cs rest (Err (DecodeError InvalidData (n, n + k) (length (utf8 cs)))).

(* [DecodeCall e bs out is_end r buf]: decoding bs with output buffer out should return r and leave buf in the buffer *)
Inductive DecodeCall (e : encoding) (bs out : list N) (is_end : bool) : decode_result -> list N -> Prop :=
| decode_call pre cs rest r :
    bs = pre ++ rest -> Decoded e pre cs -> length (utf8 cs) <= length out -> DecodeStop e is_end (length out) (length pre) cs rest r ->
    DecodeCall e bs out is_end r (utf8 cs ++ skipn (length (utf8 cs)) out).
