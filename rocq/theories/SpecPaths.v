(* Specification for C62: the data files of the repository, by the encoding they are for.  Written down from a listing of the
   directories, not from the scripts or the crate. *)
From Coq Require Import List NArith String.
From Verif Require Import Encodings.
Import ListNotations.
Local Open Scope string_scope.

(* the name that the files of a single-byte encoding carry *)
Definition file_name (m : sb_module) : string :=
  match m with
  | ascii => "" (* has no files *)
  | ibm_866 => "ibm-cp866"
  | iso_8859_1 => "iso-8859-1"
  | iso_8859_2 => "iso-8859-2"
  | iso_8859_3 => "iso-8859-3"
  | iso_8859_4 => "iso-8859-4"
  | iso_8859_5 => "iso-8859-5"
  | iso_8859_6 => "iso-8859-6"
  | iso_8859_7 => "iso-8859-7"
  | iso_8859_8 => "iso-8859-8"
  | iso_8859_9 => "iso-8859-9"
  | iso_8859_10 => "iso-8859-10"
  | iso_8859_11 => "iso-8859-11"
  | iso_8859_13 => "iso-8859-13"
  | iso_8859_14 => "iso-8859-14"
  | iso_8859_15 => "iso-8859-15"
  | iso_8859_16 => "iso-8859-16"
  | koi8_r => "koi8-r"
  | koi8_u => "koi8-u"
  | mac_roman => "mac-roman"
  | mac_cyrillic => "mac-cyrillic"
  | windows_874 => "windows-cp874"
  | windows_1250 => "windows-cp1250"
  | windows_1251 => "windows-cp1251"
  | windows_1252 => "windows-cp1252"
  | windows_1253 => "windows-cp1253"
  | windows_1254 => "windows-cp1254"
  | windows_1255 => "windows-cp1255"
  | windows_1256 => "windows-cp1256"
  | windows_1257 => "windows-cp1257"
  | windows_1258 => "windows-cp1258"
  end.

Definition mapping_path (m : sb_module) : list string := ["encoding_tables"; "single_byte"; "ascii_ext"; file_name m ++ ".txt"].
Definition tables_path (m : sb_module) : list string := ["src"; "generated"; "single_byte"; file_name m ++ "_tables.rs.inc"].
Definition big5_index_path : list string := ["encoding_tables"; "whatwg"; "index-big5.txt"].
Definition big5_tables_path : list string := ["src"; "generated"; "whatwg"; "big5_whatwg_tables.rs.inc"].
Definition jis0208_index_path : list string := ["encoding_tables"; "whatwg"; "index-jis0208.txt"].
Definition shiftjis_tables_path : list string := ["src"; "generated"; "whatwg"; "shiftjis_whatwg_tables.rs.inc"].

(* test data: for testing decoding or encoding; what goes in or what comes out *)
Inductive direction := decoding | encoding_.
Inductive side := input | output.
Definition test_name (d : direction) (s : side) : string :=
  match d with decoding => "decode" | encoding_ => "encode" end ++ "_" ++ match s with input => "in" | output => "out" end.
Definition big5_test_path (d : direction) (s : side) : list string :=
  ["tests"; "test_data"; "whatwg"; "big5_whatwg_test_" ++ test_name d s ++ ".txt"].
Definition shiftjis_test_path (d : direction) (s : side) : list string :=
  ["tests"; "test_data"; "whatwg"; "shiftjis_whatwg_test_" ++ test_name d s ++ ".txt"].
