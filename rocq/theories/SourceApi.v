(* Calls to the functions of the crate, by their public paths, as observed by a caller. *)
From Coq Require Import List NArith String.
From Verif Require Import Prelude Types Encodings RustSyntax RustEval RustProgram.
Import ListNotations.
Local Open Scope string_scope.
Local Open Scope list_scope.

(* the modules of /repo/src/lib.rs and /repo/src/single_byte.rs *)
Definition sb_name (m : sb_module) : string :=
  match m with
  | ascii => "ascii" | ibm_866 => "ibm_866"
  | iso_8859_1 => "iso_8859_1" | iso_8859_2 => "iso_8859_2" | iso_8859_3 => "iso_8859_3" | iso_8859_4 => "iso_8859_4"
  | iso_8859_5 => "iso_8859_5" | iso_8859_6 => "iso_8859_6" | iso_8859_7 => "iso_8859_7" | iso_8859_8 => "iso_8859_8"
  | iso_8859_9 => "iso_8859_9" | iso_8859_10 => "iso_8859_10" | iso_8859_11 => "iso_8859_11" | iso_8859_13 => "iso_8859_13"
  | iso_8859_14 => "iso_8859_14" | iso_8859_15 => "iso_8859_15" | iso_8859_16 => "iso_8859_16"
  | koi8_r => "koi8_r" | koi8_u => "koi8_u" | mac_roman => "mac_roman" | mac_cyrillic => "mac_cyrillic"
  | windows_874 => "windows_874" | windows_1250 => "windows_1250" | windows_1251 => "windows_1251" | windows_1252 => "windows_1252"
  | windows_1253 => "windows_1253" | windows_1254 => "windows_1254" | windows_1255 => "windows_1255" | windows_1256 => "windows_1256"
  | windows_1257 => "windows_1257" | windows_1258 => "windows_1258"
  end.
Definition module_of (e : encoding) : path :=
  match e with
  | Utf8 => ["utf8"]
  | Utf16BE => ["utf16_be"]
  | Utf16LE => ["utf16_le"]
  | Utf32BE => ["utf32_be"]
  | Utf32LE => ["utf32_le"]
  | Big5WHATWG => ["big5_whatwg"]
  | ShiftJISWHATWG => ["shiftjis_whatwg"]
  | Single m => ["single_byte"; sb_name m]
  end.

(* the values of EncodeResult and DecodeResult (/repo/src/lib.rs:235-286) *)
Definition read_usize (v : value) : option nat := match v with VInt Usize n => Some (N.to_nat n) | _ => None end.
Definition read_range (v : value) : option (nat * nat) :=
  match v with
  | VTuple [a; b] => match read_usize a, read_usize b with Some a, Some b => Some (a, b) | _, _ => None end
  | _ => None
  end.
Definition read_encode_error (v : value) : option encode_error :=
  match v with
  | VStruct "EncodeError" fs =>
      match lookup "character" fs, lookup "error_range" fs, lookup "output_bytes_written" fs with
      | Some (VChar c), Some r, Some n =>
          match read_range r, read_usize n with Some r, Some n => Some (EncodeError c r n) | _, _ => None end
      | _, _, _ => None
      end
  | _ => None
  end.
Definition read_cause (v : value) : option decode_error_cause :=
  match v with
  | VCon "InvalidData" [] => Some InvalidData
  | VCon "UnknownConversion" [] => Some UnknownConversion
  | _ => None
  end.
Definition read_decode_error (v : value) : option decode_error :=
  match v with
  | VStruct "DecodeError" fs =>
      match lookup "cause" fs, lookup "error_range" fs, lookup "output_bytes_written" fs with
      | Some c, Some r, Some n =>
          match read_cause c, read_range r, read_usize n with Some c, Some r, Some n => Some (DecodeError c r n) | _, _, _ => None end
      | _, _, _ => None
      end
  | _ => None
  end.
Definition read_encode_result (v : value) : option encode_result :=
  match v with
  | VCon "Ok" [VTuple [VBytes s; n]] => match read_usize n with Some n => Some (Ok (s, n)) | None => None end
  | VCon "Err" [e] => match read_encode_error e with Some e => Some (Err e) | None => None end
  | _ => None
  end.
Definition read_decode_result (v : value) : option decode_result :=
  match v with
  | VCon "Ok" [VTuple [VStr s; n]] => match read_usize n with Some n => Some (Ok (s, n)) | None => None end
  | VCon "Err" [e] => match read_decode_error e with Some e => Some (Err e) | None => None end
  | _ => None
  end.

(* a call of the function at a path from the root of the crate: its result, and the final contents of the buffer, which is
   argument k, counted from 0.  A call that does not return such values has the outcome of undefined behaviour. *)
Definition observe {A} (max : N) (prog : program) (fuel depth : nat) (read : value -> option A) (k : nat) (p : path) (args : list value)
    : outcome (A * list N) :=
  match find_fn prog [] p with
  | Some (m, f) =>
      let* q := call max prog fuel depth m f args in
      match read (fst q), nth_error (fn_params f) k with
      | Some a, Some (x, _) => match lookup x (snd q) with Some (VBytes b) => Ret (a, b) | _ => UB end
      | _, _ => UB
      end
  | None => UB
  end.

(* which functions have the parameter is_end *)
Definition encode_args (e : encoding) (input out : list N) (is_end : bool) : list value :=
  [VStr input; VBytes out] ++ match e with Big5WHATWG => [VBool is_end] | _ => [] end.
Definition decode_args (e : encoding) (input out : list N) (is_end : bool) : list value :=
  [VBytes input; VBytes out] ++ match e with Single _ => [] | _ => [VBool is_end] end.

Definition source_encode (max : N) (prog : program) (fuel depth : nat) (e : encoding) (input out : list N) (is_end : bool)
    : outcome (encode_result * list N) :=
  observe max prog fuel depth read_encode_result 1 (module_of e ++ ["encode_from_str"]) (encode_args e input out is_end).
Definition source_decode (max : N) (prog : program) (fuel depth : nat) (e : encoding) (input out : list N) (is_end : bool)
    : outcome (decode_result * list N) :=
  observe max prog fuel depth read_decode_result 1 (module_of e ++ ["decode_to_str"]) (decode_args e input out is_end).
