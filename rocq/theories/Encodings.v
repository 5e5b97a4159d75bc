(* The names of the encodings the crate offers; shared by the model and the specification. *)

(* The modules of /repo/src/single_byte.rs:8-265, in file order *)
Inductive sb_module :=
| ascii                                                                    (* 8-19 *)
| ibm_866 | iso_8859_1 | iso_8859_2 | iso_8859_3 | iso_8859_4 | iso_8859_5 (* 21-69 *)
| iso_8859_6 | iso_8859_7 | iso_8859_8 | iso_8859_9 | iso_8859_10          (* 71-109 *)
| iso_8859_11 | iso_8859_13 | iso_8859_14 | iso_8859_15 | iso_8859_16      (* 111-151 *)
| koi8_r | koi8_u | mac_roman | mac_cyrillic                               (* 153-185 *)
| windows_874 | windows_1250 | windows_1251 | windows_1252 | windows_1253  (* 187-225 *)
| windows_1254 | windows_1255 | windows_1256 | windows_1257 | windows_1258. (* 227-265 *)

(* /repo/examples/wrapper.rs:23-62 `enum Encoding`; its 31 single-byte variants are grouped under [Single]
   (Ascii, Ibm866, ..., Koi8R, Koi8U, Macintosh = mac_roman, MacCyrillic = mac_cyrillic, Windows874, ...) *)
Inductive encoding :=
| Utf8
| Utf16BE
| Utf16LE
| Utf32BE
| Utf32LE
| Big5WHATWG
| ShiftJISWHATWG
| Single (m : sb_module).
