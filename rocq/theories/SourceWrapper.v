(* /repo/examples/wrapper.rs as a program. *)
From Coq Require Import List NArith String.
From Verif Require Import Prelude Types Encodings FileSource RustSyntax RustEval RustProgram RustLink SourceCrate SourceApi.
Import ListNotations.
Local Open Scope string_scope.
Local Open Scope list_scope.

Definition wrapper (max : N) : program := link "text_encoding" (text_encoding max) (read wrapper_rs).

(* the variants of `enum Encoding`, /repo/examples/wrapper.rs:23-62 *)
Definition sb_variant (m : sb_module) : string :=
  match m with
  | ascii => "Ascii" | ibm_866 => "Ibm866"
  | iso_8859_1 => "Iso8859_1" | iso_8859_2 => "Iso8859_2" | iso_8859_3 => "Iso8859_3" | iso_8859_4 => "Iso8859_4"
  | iso_8859_5 => "Iso8859_5" | iso_8859_6 => "Iso8859_6" | iso_8859_7 => "Iso8859_7" | iso_8859_8 => "Iso8859_8"
  | iso_8859_9 => "Iso8859_9" | iso_8859_10 => "Iso8859_10" | iso_8859_11 => "Iso8859_11" | iso_8859_13 => "Iso8859_13"
  | iso_8859_14 => "Iso8859_14" | iso_8859_15 => "Iso8859_15" | iso_8859_16 => "Iso8859_16"
  | koi8_r => "Koi8R" | koi8_u => "Koi8U" | mac_roman => "Macintosh" | mac_cyrillic => "MacCyrillic"
  | windows_874 => "Windows874" | windows_1250 => "Windows1250" | windows_1251 => "Windows1251" | windows_1252 => "Windows1252"
  | windows_1253 => "Windows1253" | windows_1254 => "Windows1254" | windows_1255 => "Windows1255" | windows_1256 => "Windows1256"
  | windows_1257 => "Windows1257" | windows_1258 => "Windows1258"
  end.
Definition variant (e : encoding) : string :=
  match e with
  | Utf8 => "Utf8"
  | Utf16BE => "Utf16BE"
  | Utf16LE => "Utf16LE"
  | Utf32BE => "Utf32BE"
  | Utf32LE => "Utf32LE"
  | Big5WHATWG => "Big5WHATWG"
  | ShiftJISWHATWG => "ShiftJISWHATWG"
  | Single m => sb_variant m
  end.

(* encode_from_str(e, input, out, is_end) and decode_to_str(e, input, out, is_end) in this file *)
Definition wrapper_encode (max : N) (prog : program) (fuel depth : nat) (e : encoding) (input out : list N) (is_end : bool)
    : outcome (encode_result * list N) :=
  observe max prog fuel depth read_encode_result 2 ["encode_from_str"] [VCon (variant e) []; VStr input; VBytes out; VBool is_end].
Definition wrapper_decode (max : N) (prog : program) (fuel depth : nat) (e : encoding) (input out : list N) (is_end : bool)
    : outcome (decode_result * list N) :=
  observe max prog fuel depth read_decode_result 2 ["decode_to_str"] [VCon (variant e) []; VBytes input; VBytes out; VBool is_end].

(* main() runs to its end *)
Definition runs (max : N) (prog : program) (fuel depth : nat) : Prop :=
  exists m f r, find_fn prog [] ["main"] = Some (m, f) /\ call max prog fuel depth m f [] = Ret (unit_value, r).
