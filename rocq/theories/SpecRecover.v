(* Replacement of errors in UTF-8 data, and clients that replace errors while data is still arriving.
   Independent of the crate's code. *)
From Coq Require Import List NArith Bool.
From Verif Require Import Encodings Spec SpecErrors SpecWhatwg.
Import ListNotations.
Local Open Scope N_scope.

(* [Utf8Replaced bs cs]: the bytes bs, with errors replaced by U+FFFD the way the crate delimits them, read as cs.
   - a well-formed code sequence stands for its character;
   - a lead byte that announces more bytes than are left, and does not start a code sequence, makes all that is left one error;
   - any other byte that starts no code sequence makes one error together with all following
     bytes that cannot start one. *)
Inductive Utf8Replaced : list N -> list N -> Prop :=
| ur_end : Utf8Replaced [] []
| ur_char c bs cs : scalar c -> Utf8Replaced bs cs -> Utf8Replaced (utf8_char c ++ bs) (c :: cs)
| ur_cut bs : Undecodable Utf8 bs -> Incomplete Utf8 bs -> Utf8Replaced bs [replacement]
| ur_bad b run bs cs :
    Undecodable Utf8 (b :: run ++ bs) -> ~ Incomplete Utf8 (b :: run ++ bs) ->
    Forall not_a_start run -> (forall x rest, bs = x :: rest -> ~ not_a_start x) ->
    Utf8Replaced bs cs -> Utf8Replaced (b :: run ++ bs) (replacement :: cs).

(* The UTF-8 decoder of the WHATWG Encoding Standard (https://encoding.spec.whatwg.org, section 8.1.1), error mode "replacement".
   State: UTF-8 bytes needed (those still to come), UTF-8 code point, UTF-8 lower boundary, UTF-8 upper boundary. *)
Fixpoint utf8_decoder (needed : nat) (point lower upper : N) (bs : list N) : list N :=
  match bs with
  | [] => match needed with O => [] | _ => [replacement] end
  | b :: rest =>
      let fresh :=
        if b <=? 0x7F then b :: utf8_decoder 0 0 0x80 0xBF rest
        else if within 0xC2 b 0xDF then utf8_decoder 1 (b mod 0x20) 0x80 0xBF rest
        else if within 0xE0 b 0xEF then
          utf8_decoder 2 (b mod 0x10) (if b =? 0xE0 then 0xA0 else 0x80) (if b =? 0xED then 0x9F else 0xBF) rest
        else if within 0xF0 b 0xF4 then
          utf8_decoder 3 (b mod 0x8) (if b =? 0xF0 then 0x90 else 0x80) (if b =? 0xF4 then 0x8F else 0xBF) rest
        else replacement :: utf8_decoder 0 0 0x80 0xBF rest in
      match needed with
      | O => fresh
      | S more =>
          if within lower b upper then
            let point := point * 64 + b mod 64 in
            match more with
            | O => point :: utf8_decoder 0 0 0x80 0xBF rest
            | _ => utf8_decoder more point 0x80 0xBF rest
            end
          else (* the byte is restored *) replacement :: fresh
      end
  end.
Definition whatwg_utf8 (bs : list N) : list N := utf8_decoder 0 0 0x80 0xBF bs.

(* every run of U+FFFD shortened to one *)
Fixpoint squeeze_after (was_replacement : bool) (cs : list N) : list N :=
  match cs with
  | [] => []
  | c :: rest => if c =? replacement
                 then (if was_replacement then [] else [c]) ++ squeeze_after true rest
                 else c :: squeeze_after false rest
  end.
Definition squeeze : list N -> list N := squeeze_after false.
