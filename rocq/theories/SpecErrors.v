(* Specification of incomplete input and of the extent of invalid data.  Independent of the crate's code. *)
From Coq Require Import List NArith Arith Bool.
From Verif Require Import Encodings Spec.
Import ListNotations.
Local Open Scope N_scope.

(* number of bytes that a UTF-8 lead byte announces *)
Definition announced (b : N) : nat :=
  if (0xC0 <=? b) && (b <? 0xE0) then 2
  else if (0xE0 <=? b) && (b <? 0xF0) then 3
  else if (0xF0 <=? b) && (b <? 0xF8) then 4
  else 1.

Definition value16 (big : bool) (b0 b1 : N) : N := if big then b0 * 256 + b1 else b1 * 256 + b0.

Definition big5_lead (b : N) : Prop := 0x81 <= b <= 0xFE.
Definition sjis_lead (b : N) : Prop := 0x81 <= b <= 0x9F \/ 0xE0 <= b <= 0xFC.

(* bs is what is left of a code sequence cut off by the end of the data *)
Definition Incomplete (e : encoding) (bs : list N) : Prop :=
  let utf16 big := length bs = 1%nat \/
    exists b0 b1 r, bs = b0 :: b1 :: r /\ (length r < 2)%nat /\ 0xD800 <= value16 big b0 b1 < 0xDC00 in
  match e with
  | Utf8 => exists b r, bs = b :: r /\ (length bs < announced b)%nat
  | Utf16BE => utf16 true
  | Utf16LE => utf16 false
  | Utf32BE | Utf32LE => (1 <= length bs <= 3)%nat
  | Big5WHATWG => exists b, bs = [b] /\ big5_lead b
  | ShiftJISWHATWG => exists b, bs = [b] /\ sjis_lead b
  | Single _ => False
  end.

(* bytes that can be neither a whole UTF-8 code sequence nor the first byte of one
   (C0, C1, F5..F7 count as first bytes here) *)
Definition not_a_start (b : N) : Prop := 0x80 <= b < 0xC0 \/ 0xF8 <= b.

(* the invalid data at the start of bs has length n *)
Definition ErrorLength (e : encoding) (bs : list N) (n : nat) : Prop :=
  (1 <= n <= length bs)%nat /\
  match e with
  | Utf8 =>
      (Incomplete Utf8 bs -> n = length bs) /\
      (~ Incomplete Utf8 bs ->
         (forall i b, (1 <= i < n)%nat -> nth_error bs i = Some b -> not_a_start b) /\
         (forall b, nth_error bs n = Some b -> ~ not_a_start b))
  | Utf16BE | Utf16LE => (Incomplete e bs -> n = length bs) /\ (~ Incomplete e bs -> n = 2%nat)
  | Utf32BE | Utf32LE => (Incomplete e bs -> n = length bs) /\ (~ Incomplete e bs -> n = 4%nat)
  | Single _ => n = 1%nat
  | Big5WHATWG =>
      (n = 2%nat /\ exists b1 b2 r, bs = b1 :: b2 :: r /\ big5_lead b1 /\ 0x80 <= b2) \/
      (n = 1%nat /\ ~ exists b1 b2 r, bs = b1 :: b2 :: r /\ big5_lead b1 /\ 0x80 <= b2)
  | ShiftJISWHATWG =>
      (n = 2%nat /\ exists b1 b2 r, bs = b1 :: b2 :: r /\ sjis_lead b1 /\ 0x80 <= b2) \/
      (n = 1%nat /\ ~ exists b1 b2 r, bs = b1 :: b2 :: r /\ sjis_lead b1 /\ 0x80 <= b2)
  end.

(* no code sequence starts at the head of bs *)
Definition Undecodable (e : encoding) (bs : list N) : Prop := forall w u, DecUnit e w u -> ~ prefix w bs.

(* no representable piece of text starts at the head of cs *)
Definition Unencodable (e : encoding) (cs : list N) : Prop := forall u w, EncUnit e u w -> ~ prefix u cs.

(* Free room in the output buffer that a decoder / encoder needs to report an error instead of returning Ok. *)
Definition decode_room (e : encoding) : nat :=
  match e with
  | Utf16BE | Utf16LE | Utf32BE | Utf32LE | Single _ => 0
  | Utf8 | Big5WHATWG | ShiftJISWHATWG => 1
  end.

Definition encode_room (e : encoding) : nat :=
  match e with
  | Utf8 | Utf16BE | Utf16LE | Utf32BE | Utf32LE => 0 (* these never report errors *)
  | Big5WHATWG | Single _ => 1
  | ShiftJISWHATWG => 2
  end.

Definition is_utf (e : encoding) : Prop :=
  match e with Utf8 | Utf16BE | Utf16LE | Utf32BE | Utf32LE => True | _ => False end.
Definition ascii_compatible (e : encoding) : Prop :=
  match e with Utf8 | Big5WHATWG | ShiftJISWHATWG | Single _ => True | _ => False end.

(* most output bytes of an encoder per input byte *)
Definition encode_factor (e : encoding) : nat :=
  match e with Utf16BE | Utf16LE => 2 | Utf32BE | Utf32LE => 4 | _ => 1 end.

(* most output bytes of a decoder per two input bytes *)
Definition decode_factor2 (e : encoding) : nat :=
  match e with
  | Utf8 | Utf32BE | Utf32LE => 2
  | Utf16BE | Utf16LE => 3
  | Big5WHATWG => 4
  | ShiftJISWHATWG | Single _ => 6
  end.
