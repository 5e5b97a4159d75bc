(* A client that converts data from one encoding to another, as a use of the API.  Not part of the crate. *)
From Coq Require Import List NArith Arith Bool.
From Verif Require Import Encodings Spec SpecErrors Prelude RustCore Types ModelApi.
Import ListNotations.

(* [Converting e1 e2 sub fed ended n mid m em]: the client has obtained the bytes [fed] so far, [ended] says whether it knows that no
   more will come.  In any order and with arbitrary output buffers it has made calls of the decoder of e1, which have
   processed n bytes of fed and yielded the text [mid] (with U+FFFD for each error), and calls of the encoder of e2, which have
   processed m bytes of mid and yielded [em] (with [sub c] for each character c that e2 lacks).  It tells the
   encoder that the text is at its end once all data is there and decoded. *)
Inductive Converting (e1 e2 : encoding) (sub : N -> list N) : list N -> bool -> nat -> list N -> nat -> list N -> Prop :=
| cv_start : Converting e1 e2 sub [] false 0 [] 0 []
| cv_feed bs fed n mid m em :
    Converting e1 e2 sub fed false n mid m em -> bytes bs -> Converting e1 e2 sub (fed ++ bs) false n mid m em
| cv_finish fed n mid m em : Converting e1 e2 sub fed false n mid m em -> Converting e1 e2 sub fed true n mid m em
| cv_decode fed ended n mid m em out s k buf :
    Converting e1 e2 sub fed ended n mid m em ->
    decode_to_str e1 (skipn n fed) out ended = Ret (Ok (s, k), buf) ->
    Converting e1 e2 sub fed ended (n + k) (mid ++ s) m em
| cv_decode_error fed ended n mid m em out er buf :
    Converting e1 e2 sub fed ended n mid m em ->
    decode_to_str e1 (skipn n fed) out ended = Ret (Err er, buf) ->
    Converting e1 e2 sub fed ended (n + snd (de_range er)) (mid ++ firstn (de_written er) buf ++ utf8_char 0xFFFD) m em
| cv_encode fed ended n mid m em out s k buf :
    Converting e1 e2 sub fed ended n mid m em ->
    encode_from_str e2 (skipn m mid) out (ended && (n =? length fed)) = Ret (Ok (s, k), buf) ->
    Converting e1 e2 sub fed ended n mid (m + k) (em ++ s)
| cv_encode_error fed ended n mid m em out er buf :
    Converting e1 e2 sub fed ended n mid m em ->
    encode_from_str e2 (skipn m mid) out (ended && (n =? length fed)) = Ret (Err er, buf) ->
    Converting e1 e2 sub fed ended n mid (m + snd (ee_range er)) (em ++ firstn (ee_written er) buf ++ sub (ee_character er)).
