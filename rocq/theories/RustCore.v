(* Model of the parts of Rust's `core` library that the crate calls.  Strings are their UTF-8 bytes.
   There is no file in /repo for these; each definition cites the `core` item and where /repo uses it. *)
From Coq Require Import List NArith Arith Bool.
From Verif Require Import Prelude.
Import ListNotations.
Local Open Scope N_scope.

(* `char`'s validity invariant: a Unicode scalar value.  core::char. *)
Definition is_char (c : N) : bool := (c <? 0xD800) || ((0xDFFF <? c) && (c <=? 0x10FFFF)).

(* core::char::from_u32; used at /repo/src/utf32_le.rs:56, shiftjis_whatwg.rs:58,122,156 *)
Definition from_u32 (c : N) : option N := if is_char c then Some c else None.

(* core::char::from_u32_unchecked; used at /repo/src/utf16_le.rs:76,112 *)
Definition from_u32_unchecked (c : N) : outcome N := if is_char c then Ret c else UB.

(* char::len_utf8; used at /repo/src/single_byte.rs:293 and in the other encoders *)
Definition len_utf8 (c : N) : nat :=
  if c <? 0x80 then 1%nat else if c <? 0x800 then 2%nat else if c <? 0x10000 then 3%nat else 4%nat.

(* char::len_utf16; used at /repo/src/utf16_le.rs:128 *)
Definition len_utf16 (c : N) : nat := if N.land c 0xFFFF =? c then 1%nat else 2%nat.

(* char::encode_utf8 (core::char::methods::encode_utf8_raw); the buffer is always [0u8; 4], so that there is always
   enough space; used at /repo/src/utf16_le.rs:121, utf32_le.rs:61, single_byte.rs:343, ... *)
Definition encode_utf8 (c : N) : list N :=
  if c <? 0x80 then [as_u8 c]
  else if c <? 0x800 then
    [N.lor (as_u8 (N.land (N.shiftr c 6) 0x1F)) 0xC0;
     N.lor (as_u8 (N.land c 0x3F)) 0x80]
  else if c <? 0x10000 then
    [N.lor (as_u8 (N.land (N.shiftr c 12) 0x0F)) 0xE0;
     N.lor (as_u8 (N.land (N.shiftr c 6) 0x3F)) 0x80;
     N.lor (as_u8 (N.land c 0x3F)) 0x80]
  else
    [N.lor (as_u8 (N.land (N.shiftr c 18) 0x07)) 0xF0;
     N.lor (as_u8 (N.land (N.shiftr c 12) 0x3F)) 0x80;
     N.lor (as_u8 (N.land (N.shiftr c 6) 0x3F)) 0x80;
     N.lor (as_u8 (N.land c 0x3F)) 0x80].

(* core::str::validations::utf8_acc_cont_byte *)
Definition acc_cont (ch b : N) : N := N.lor (N.shiftl ch 6) (N.land b 0x3F).

(* str::char_indices, as the list of items the iterator yields, starting at byte offset [off]
   (core::str::validations::next_code_point).  Reading past the end of a malformed string, or
   building an invalid char, is UB.  Used by every loop encoder, e.g. /repo/src/utf16_le.rs:10. *)
Fixpoint char_indices_from (off : nat) (bs : list N) : outcome (list (nat * N)) :=
  match bs with
  | [] => Ret []
  | x :: r1 =>
      if x <? 128 then
        let* t := char_indices_from (off + 1) r1 in Ret ((off, x) :: t)
      else
        let init := N.land x 0x1F in
        match r1 with
        | [] => UB
        | y :: r2 =>
            if x <? 0xE0 then
              let* c := from_u32_unchecked (acc_cont init y) in
              let* t := char_indices_from (off + 2) r2 in Ret ((off, c) :: t)
            else
              match r2 with
              | [] => UB
              | z :: r3 =>
                  let y_z := acc_cont (N.land y 0x3F) z in
                  if x <? 0xF0 then
                    let* c := from_u32_unchecked (N.lor (N.shiftl init 12) y_z) in
                    let* t := char_indices_from (off + 3) r3 in Ret ((off, c) :: t)
                  else
                    match r3 with
                    | [] => UB
                    | w :: r4 =>
                        let* c := from_u32_unchecked
                                    (N.lor (N.shiftl (N.land init 7) 18) (acc_cont y_z w)) in
                        let* t := char_indices_from (off + 4) r4 in Ret ((off, c) :: t)
                    end
              end
        end
  end.

(* input.char_indices() *)
Definition char_indices (bs : list N) : outcome (list (nat * N)) := char_indices_from 0 bs.

(* str::is_char_boundary; used at /repo/src/utf16_le.rs:43 and in the other encoders.
   `(b as i8) >= -0x40` is the test that b is not a continuation byte. *)
Definition is_char_boundary (s : list N) (i : nat) : bool :=
  if (i =? 0)%nat || (i =? length s)%nat then true
  else match nth_error s i with
       | None => false
       | Some b => (b <? 128) || (192 <=? b)
       end.

(* core::str::validations::UTF8_CHAR_WIDTH *)
Definition utf8_char_width (b : N) : nat :=
  if b <? 0x80 then 1%nat
  else if b <? 0xC2 then 0%nat
  else if b <? 0xE0 then 2%nat
  else if b <? 0xF0 then 3%nat
  else if b <? 0xF5 then 4%nat
  else 0%nat.

Definition between (lo b hi : N) : bool := (lo <=? b) && (b <=? hi).

(* continuation byte test of run_utf8_validation: !(b as i8 >= -64) *)
Definition is_cont (b : N) : bool := between 0x80 b 0xBF.

(* core::str::from_utf8 (run_utf8_validation), reduced to what the crate observes: the length of the valid prefix, which is
   text.len() for Ok and e.valid_up_to() for Err.  Used at /repo/src/utf8.rs:19-22. *)
Fixpoint utf8_valid_up_to (bs : list N) : nat :=
  match bs with
  | [] => 0%nat
  | first :: r1 =>
      match utf8_char_width first with
      | 1%nat => (1 + utf8_valid_up_to r1)%nat
      | 2%nat =>
          match r1 with
          | b2 :: r2 => if is_cont b2 then (2 + utf8_valid_up_to r2)%nat else 0%nat
          | [] => 0%nat
          end
      | 3%nat =>
          match r1 with
          | b2 :: b3 :: r3 =>
              if ((first =? 0xE0) && between 0xA0 b2 0xBF
                  || between 0xE1 first 0xEC && between 0x80 b2 0xBF
                  || (first =? 0xED) && between 0x80 b2 0x9F
                  || between 0xEE first 0xEF && between 0x80 b2 0xBF) && is_cont b3
              then (3 + utf8_valid_up_to r3)%nat else 0%nat
          | _ => 0%nat
          end
      | 4%nat =>
          match r1 with
          | b2 :: b3 :: b4 :: r4 =>
              if ((first =? 0xF0) && between 0x90 b2 0xBF
                  || between 0xF1 first 0xF3 && between 0x80 b2 0xBF
                  || (first =? 0xF4) && between 0x80 b2 0x8F) && is_cont b3 && is_cont b4
              then (4 + utf8_valid_up_to r4)%nat else 0%nat
          | _ => 0%nat
          end
      | _ => 0%nat
      end
  end.

(* core::str::from_utf8_unchecked: UB unless the bytes are well-formed UTF-8.
   Used by every decoder, e.g. /repo/src/utf16_le.rs:133. *)
Definition from_utf8_unchecked (bs : list N) : outcome (list N) :=
  if (utf8_valid_up_to bs =? length bs)%nat then Ret bs else UB.

(* u16::to_le_bytes, u16::to_be_bytes, u32::to_le_bytes, u32::to_be_bytes.
   Used at /repo/src/utf16_le.rs:15,26,27, utf16_be.rs:15,26,27, utf32_le.rs:12, utf32_be.rs:12 *)
Definition u16_to_le_bytes (x : N) : list N := [x mod 256; (x / 256) mod 256].
Definition u16_to_be_bytes (x : N) : list N := [(x / 256) mod 256; x mod 256].
Definition u32_to_le_bytes (x : N) : list N := [x mod 256; (x / 256) mod 256; (x / 65536) mod 256; (x / 16777216) mod 256].
Definition u32_to_be_bytes (x : N) : list N := [(x / 16777216) mod 256; (x / 65536) mod 256; (x / 256) mod 256; x mod 256].

(* u16::from_le_bytes, u16::from_be_bytes, u32::from_le_bytes, u32::from_be_bytes
   Used at /repo/src/utf16_le.rs:73,101, utf16_be.rs:73,101, utf32_le.rs:57, utf32_be.rs:57 *)
Definition u16_from_le_bytes (b0 b1 : N) : N := b1 * 256 + b0.
Definition u16_from_be_bytes (b0 b1 : N) : N := b0 * 256 + b1.
Definition u32_from_le_bytes (b0 b1 b2 b3 : N) : N := ((b3 * 256 + b2) * 256 + b1) * 256 + b0.
Definition u32_from_be_bytes (b0 b1 b2 b3 : N) : N := ((b0 * 256 + b1) * 256 + b2) * 256 + b3.

(* the same with the byte order as a parameter (big = true: big-endian), for proofs about both at once *)
Definition u16_to_bytes (big : bool) (x : N) : list N := if big then u16_to_be_bytes x else u16_to_le_bytes x.
Definition u32_to_bytes (big : bool) (x : N) : list N := if big then u32_to_be_bytes x else u32_to_le_bytes x.
Definition u16_from_bytes (big : bool) (b0 b1 : N) : N := if big then u16_from_be_bytes b0 b1 else u16_from_le_bytes b0 b1.
Definition u32_from_bytes (big : bool) (b0 b1 b2 b3 : N) : N :=
  if big then u32_from_be_bytes b0 b1 b2 b3 else u32_from_le_bytes b0 b1 b2 b3.

(* slice::chunks(n) for n > 0, as the list of items; fuel = length suffices.
   Used at /repo/src/utf16_le.rs:56, utf32_le.rs:41 *)
Fixpoint chunks_fuel (fuel n : nat) (bs : list N) : list (list N) :=
  match fuel, bs with
  | O, _ => []
  | _, [] => []
  | S f, _ => firstn n bs :: chunks_fuel f n (skipn n bs)
  end.
Definition chunks (n : nat) (bs : list N) : list (list N) := chunks_fuel (length bs) n bs.

(* slice::binary_search_by_key (binary_search_by of Rust 1.2x - 1.5x) with a key comparison on char (= its code point).
   Only `Ok(i)` / `Err(_)` is observed, so Err carries nothing.
   Used at /repo/src/single_byte.rs:286, big5_whatwg.rs:33, shiftjis_whatwg.rs:59 *)
Fixpoint bsearch_loop {V} (fuel : nat) (t : list (N * V)) (key : N) (base size : nat) : outcome nat :=
  match fuel with
  | O => Diverge
  | S f =>
      if (1 <? size)%nat then
        let half := Nat.div2 size in
        let mid := (base + half)%nat in
        let* x := idx_unchecked t mid in
        let base' := if key <? fst x then base else mid in
        bsearch_loop f t key base' (size - half)
      else Ret base
  end.
Definition binary_search_by_key {V} (t : list (N * V)) (key : N) : outcome (option nat) :=
  let size := length t in
  if (size =? 0)%nat then Ret None
  else
    let* base := bsearch_loop (S size) t key 0 size in
    let* x := idx_unchecked t base in
    Ret (if fst x =? key then Some base else None).
