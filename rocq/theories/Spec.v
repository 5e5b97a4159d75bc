(* What the encodings are: a specification independent of the crate's code.
   Code points, bytes and pointers are N.  Text is a list of Unicode scalar values. *)
From Coq Require Import List NArith.
From Verif Require Import Encodings RefSingle RefBig5 RefSjis.
Import ListNotations.
Local Open Scope N_scope.

(** ** Characters and UTF-8 *)

(* Unicode scalar values: what a Rust `char` holds *)
Definition scalar (c : N) : Prop := c < 0xD800 \/ (0xE000 <= c /\ c < 0x110000).
Definition text (cs : list N) : Prop := Forall scalar cs.
Definition bytes (bs : list N) : Prop := Forall (fun b => b < 256) bs.

(* UTF-8 form of a scalar value (Unicode Standard, table 3-6) *)
Definition utf8_char (c : N) : list N :=
  if c <? 0x80 then [c]
  else if c <? 0x800 then [0xC0 + c / 64; 0x80 + c mod 64]
  else if c <? 0x10000 then [0xE0 + c / 4096; 0x80 + (c / 64) mod 64; 0x80 + c mod 64]
  else [0xF0 + c / 262144; 0x80 + (c / 4096) mod 64; 0x80 + (c / 64) mod 64; 0x80 + c mod 64].

(* The bytes of a Rust &str holding the text cs *)
Definition utf8 (cs : list N) : list N := flat_map utf8_char cs.

(* Well-formed UTF-8 *)
Definition well_formed_utf8 (bs : list N) : Prop := exists cs, text cs /\ bs = utf8 cs.

(** ** UTF-16 and UTF-32 *)

Definition unit16 (big : bool) (x : N) : list N :=
  if big then [x / 256; x mod 256] else [x mod 256; x / 256].

Definition utf16_char (big : bool) (c : N) : list N :=
  if c <? 0x10000 then unit16 big c
  else unit16 big (0xD800 + (c - 0x10000) / 1024) ++ unit16 big (0xDC00 + (c - 0x10000) mod 1024).

Definition utf32_char (big : bool) (c : N) : list N :=
  if big then [0; c / 65536; (c / 256) mod 256; c mod 256]
  else [c mod 256; (c / 256) mod 256; c / 65536; 0].

(** ** Single-byte character sets: the (byte, code point) pairs of the published mapping files *)

Definition ascii_pairs : list (N * N) := map (fun i => (N.of_nat i, N.of_nat i)) (seq 0 128).

Definition charset (m : sb_module) : list (N * N) :=
  match m with
  | ascii => ascii_pairs
  | ibm_866 => ref_ibm_cp866
  | iso_8859_1 => ref_iso_8859_1
  | iso_8859_2 => ref_iso_8859_2
  | iso_8859_3 => ref_iso_8859_3
  | iso_8859_4 => ref_iso_8859_4
  | iso_8859_5 => ref_iso_8859_5
  | iso_8859_6 => ref_iso_8859_6
  | iso_8859_7 => ref_iso_8859_7
  | iso_8859_8 => ref_iso_8859_8
  | iso_8859_9 => ref_iso_8859_9
  | iso_8859_10 => ref_iso_8859_10
  | iso_8859_11 => ref_iso_8859_11
  | iso_8859_13 => ref_iso_8859_13
  | iso_8859_14 => ref_iso_8859_14
  | iso_8859_15 => ref_iso_8859_15
  | iso_8859_16 => ref_iso_8859_16
  | koi8_r => ref_koi8_r
  | koi8_u => ref_koi8_u
  | mac_roman => ref_mac_roman
  | mac_cyrillic => ref_mac_cyrillic
  | windows_874 => ref_windows_cp874
  | windows_1250 => ref_windows_cp1250
  | windows_1251 => ref_windows_cp1251
  | windows_1252 => ref_windows_cp1252
  | windows_1253 => ref_windows_cp1253
  | windows_1254 => ref_windows_cp1254
  | windows_1255 => ref_windows_cp1255
  | windows_1256 => ref_windows_cp1256
  | windows_1257 => ref_windows_cp1257
  | windows_1258 => ref_windows_cp1258
  end.

(** ** Big5: WHATWG index-big5 *)

(* the two-byte code of a pointer (Encoding Standard, Big5 encoder) *)
Definition big5_code (p : N) : list N :=
  let t := p mod 157 in
  [0x81 + p / 157; t + (if t <? 0x3F then 0x40 else 0x62)].

(* pointers that stand for a base letter with a combining mark (Encoding Standard, Big5 decoder) *)
Definition big5_sequences : list (N * list N) :=
  [(1133, [0xCA; 0x304]); (1135, [0xCA; 0x30C]); (1164, [0xEA; 0x304]); (1166, [0xEA; 0x30C])].

(* characters for which the last pointer in the index is used instead of the first
   (Encoding Standard, "index Big5 pointer") *)
Definition big5_last : list N := [0x2550; 0x255E; 0x2561; 0x256A; 0x5341; 0x5345].

(* The pointer the crate chooses for encoding a character that has several: last for the six
   characters above, first for all others.
   (The Encoding Standard moreover ignores pointers below 5024; see SpecWhatwg.v.) *)
Definition big5_pointer (c p : N) : Prop :=
  In (p, c) big5_index /\
  forall q, In (q, c) big5_index -> if in_dec N.eq_dec c big5_last then q <= p else p <= q.

(** ** Shift JIS: WHATWG index-jis0208 *)

Definition sjis_code (p : N) : list N :=
  let l := p / 188 in
  let t := p mod 188 in
  [l + (if l <? 0x1F then 0x81 else 0xC1); t + (if t <? 0x3F then 0x40 else 0x41)].

(* The pointer used for encoding: the first one outside 8272..8835
   (Encoding Standard, "index Shift_JIS pointer") *)
Definition sjis_eligible (p : N) : Prop := ~ (8272 <= p <= 8835).
Definition sjis_pointer (c p : N) : Prop :=
  In (p, c) jis0208_index /\ sjis_eligible p /\
  forall q, In (q, c) jis0208_index -> sjis_eligible q -> p <= q.

(* what becomes of a char that is encoded to Shift JIS and decoded again *)
Definition sjis_fold (c : N) : N :=
  if c =? 0xA5 then 0x5C else if c =? 0x203E then 0x7E else if c =? 0x2212 then 0xFF0D else c.

(** ** Code sequences *)

(* [DecUnit e w cs]: in encoding e the bytes w form one code sequence, whose meaning is the text cs *)
Definition DecUnit (e : encoding) (w cs : list N) : Prop :=
  match e with
  | Utf8 => exists c, scalar c /\ w = utf8_char c /\ cs = [c]
  | Utf16BE => exists c, scalar c /\ w = utf16_char true c /\ cs = [c]
  | Utf16LE => exists c, scalar c /\ w = utf16_char false c /\ cs = [c]
  | Utf32BE => exists c, scalar c /\ w = utf32_char true c /\ cs = [c]
  | Utf32LE => exists c, scalar c /\ w = utf32_char false c /\ cs = [c]
  | Single m => exists b c, In (b, c) (charset m) /\ w = [b] /\ cs = [c]
  | Big5WHATWG =>
      (exists b, b < 0x80 /\ w = [b] /\ cs = [b]) \/
      (exists p c, In (p, c) big5_index /\ w = big5_code p /\ cs = [c]) \/
      (exists p, In (p, cs) big5_sequences /\ w = big5_code p)
  | ShiftJISWHATWG =>
      (exists b, b <= 0x80 /\ w = [b] /\ cs = [b]) \/
      (exists b, 0xA1 <= b <= 0xDF /\ w = [b] /\ cs = [b - 0xA1 + 0xFF61]) \/
      (exists p c, In (p, c) jis0208_index /\ w = sjis_code p /\ cs = [c]) \/
      (exists p, 8836 <= p <= 10715 /\ w = sjis_code p /\ cs = [p - 8836 + 0xE000])
  end.

(* [EncUnit e u w]: the piece of text u is represented by the bytes w when encoding to e *)
Definition EncUnit (e : encoding) (u w : list N) : Prop :=
  match e with
  | Utf8 => exists c, scalar c /\ u = [c] /\ w = utf8_char c
  | Utf16BE => exists c, scalar c /\ u = [c] /\ w = utf16_char true c
  | Utf16LE => exists c, scalar c /\ u = [c] /\ w = utf16_char false c
  | Utf32BE => exists c, scalar c /\ u = [c] /\ w = utf32_char true c
  | Utf32LE => exists c, scalar c /\ u = [c] /\ w = utf32_char false c
  | Single m => exists b c, In (b, c) (charset m) /\ u = [c] /\ w = [b]
  | Big5WHATWG =>
      (exists c, c < 0x80 /\ u = [c] /\ w = [c]) \/
      (exists c p, big5_pointer c p /\ u = [c] /\ w = big5_code p) \/
      (exists p, In (p, u) big5_sequences /\ w = big5_code p)
  | ShiftJISWHATWG =>
      (exists c, c <= 0x80 /\ u = [c] /\ w = [c]) \/
      (u = [0xA5] /\ w = [0x5C]) \/
      (u = [0x203E] /\ w = [0x7E]) \/
      (exists c, 0xFF61 <= c <= 0xFF9F /\ u = [c] /\ w = [c - 0xFF61 + 0xA1]) \/
      (exists c, 0xE000 <= c <= 0xE757 /\ u = [c] /\ w = sjis_code (c - 0xE000 + 8836)) \/
      (exists p, sjis_pointer 0xFF0D p /\ u = [0x2212] /\ w = sjis_code p) \/
      (exists c p, sjis_pointer c p /\ u = [c] /\ w = sjis_code p)
  end.

(** ** Whole texts *)

Definition prefix {A} (p l : list A) : Prop := exists s, l = p ++ s.

(* bs is valid data in encoding e and means the text cs *)
Inductive Decoded (e : encoding) : list N -> list N -> Prop :=
| Decoded_nil : Decoded e [] []
| Decoded_unit w u bs cs : DecUnit e w u -> Decoded e bs cs -> Decoded e (w ++ bs) (u ++ cs).

(* no piece of text longer than u that has a representation starts the text l *)
Definition longest (e : encoding) (u l : list N) : Prop :=
  forall u' w', EncUnit e u' w' -> prefix u' l -> (length u' <= length u)%nat.

(* the text cs is represented by bs, always taking the longest piece that has a representation *)
Inductive Encoded (e : encoding) : list N -> list N -> Prop :=
| Encoded_nil : Encoded e [] []
| Encoded_unit u w cs bs :
    EncUnit e u w -> longest e u (u ++ cs) -> Encoded e cs bs -> Encoded e (u ++ cs) (w ++ bs).
