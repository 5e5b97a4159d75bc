(* Model of /repo/examples/wrapper.rs: one interface to all modules of the crate.
   Properties are stated about these two functions. *)
From Coq Require Import List NArith.
From Verif Require Import Prelude RustCore Types Encodings.
From Verif Require Import ModelUtf8 ModelUtf16Le ModelUtf16Be ModelUtf32Le ModelUtf32Be ModelSingleByte ModelBig5 ModelShiftJis.

(* /repo/examples/wrapper.rs:65-111.  is_end is only passed on to Big5. *)
Definition encode_from_str (e : encoding) (input out : list N) (is_end : bool)
    : outcome (encode_result * list N) :=
  match e with
  | Utf8 => utf8_encode_from_str input out
  | Utf16BE => utf16_be_encode_from_str input out
  | Utf16LE => utf16_le_encode_from_str input out
  | Utf32BE => utf32_be_encode_from_str input out
  | Utf32LE => utf32_le_encode_from_str input out
  | Big5WHATWG => big5_encode_from_str input out is_end
  | ShiftJISWHATWG => sjis_encode_from_str input out
  | Single m => sb_encode_from_str m input out
  end.

(* /repo/examples/wrapper.rs:114-160.  The single-byte decoders take no is_end. *)
Definition decode_to_str (e : encoding) (input out : list N) (is_end : bool)
    : outcome (decode_result * list N) :=
  match e with
  | Utf8 => utf8_decode_to_str input out is_end
  | Utf16BE => utf16_be_decode_to_str input out is_end
  | Utf16LE => utf16_le_decode_to_str input out is_end
  | Utf32BE => utf32_be_decode_to_str input out is_end
  | Utf32LE => utf32_le_decode_to_str input out is_end
  | Big5WHATWG => big5_decode_to_str input out is_end
  | ShiftJISWHATWG => sjis_decode_to_str input out is_end
  | Single m => sb_decode_to_str m input out
  end.
