(* How far ahead a call may look: bounds on the part of the input that its result depends on. *)
From Coq Require Import NArith Arith.
From Verif Require Import Encodings Prelude Types.

(* the number of bytes of input that decide what a decoder does with an output buffer of n bytes *)
Definition decode_lookahead (e : encoding) (n : nat) : nat :=
  match e with
  | Utf8 => n + 3
  | Utf16BE | Utf16LE => 2 * n + 4
  | Utf32BE | Utf32LE => 4 * n + 4
  | Big5WHATWG | ShiftJISWHATWG | Single _ => n + 1
  end.

(* the number of characters of the text that decide what an encoder does with an output buffer of n bytes *)
Definition encode_lookahead (e : encoding) (n : nat) : nat :=
  match e with
  | Utf16BE | Utf16LE => n / 2
  | Utf32BE | Utf32LE => n / 4
  | _ => n
  end.

(* the same result, except for the end of the range of an error *)
Definition same_but_error_end (r r' : decode_result) : Prop :=
  match r, r' with
  | Ok x, Ok x' => x = x'
  | Err x, Err x' => de_cause x = de_cause x' /\ fst (de_range x) = fst (de_range x') /\ de_written x = de_written x'
  | _, _ => False
  end.
