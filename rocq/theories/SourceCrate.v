(* The crate as a program: the files in /repo/src, read by RustParse.v and run by RustEval.v. *)
From Coq Require Import List NArith String.
From Verif Require Import Prelude FileText FileSource FileSingle FileBig5 FileSjis.
From Verif Require Import RustSyntax RustParse RustEval RustProgram.
Import ListNotations.
Local Open Scope string_scope.
Local Open Scope list_scope.

(* the files in /repo/src, by their names relative to it *)
Definition rust_files : list (string * list line) :=
  [("lib.rs", lib_rs);
   ("utf8.rs", utf8_rs);
   ("utf16_be.rs", utf16_be_rs);
   ("utf16_le.rs", utf16_le_rs);
   ("utf32_be.rs", utf32_be_rs);
   ("utf32_le.rs", utf32_le_rs);
   ("single_byte.rs", single_byte_rs);
   ("big5_whatwg.rs", big5_whatwg_rs);
   ("shiftjis_whatwg.rs", shiftjis_whatwg_rs)].
Definition single_byte_files : list (string * list line) :=
  [("generated/single_byte/ibm-cp866_tables.rs.inc", ibm_cp866_inc);
   ("generated/single_byte/iso-8859-1_tables.rs.inc", iso_8859_1_inc);
   ("generated/single_byte/iso-8859-2_tables.rs.inc", iso_8859_2_inc);
   ("generated/single_byte/iso-8859-3_tables.rs.inc", iso_8859_3_inc);
   ("generated/single_byte/iso-8859-4_tables.rs.inc", iso_8859_4_inc);
   ("generated/single_byte/iso-8859-5_tables.rs.inc", iso_8859_5_inc);
   ("generated/single_byte/iso-8859-6_tables.rs.inc", iso_8859_6_inc);
   ("generated/single_byte/iso-8859-7_tables.rs.inc", iso_8859_7_inc);
   ("generated/single_byte/iso-8859-8_tables.rs.inc", iso_8859_8_inc);
   ("generated/single_byte/iso-8859-9_tables.rs.inc", iso_8859_9_inc);
   ("generated/single_byte/iso-8859-10_tables.rs.inc", iso_8859_10_inc);
   ("generated/single_byte/iso-8859-11_tables.rs.inc", iso_8859_11_inc);
   ("generated/single_byte/iso-8859-13_tables.rs.inc", iso_8859_13_inc);
   ("generated/single_byte/iso-8859-14_tables.rs.inc", iso_8859_14_inc);
   ("generated/single_byte/iso-8859-15_tables.rs.inc", iso_8859_15_inc);
   ("generated/single_byte/iso-8859-16_tables.rs.inc", iso_8859_16_inc);
   ("generated/single_byte/koi8-r_tables.rs.inc", koi8_r_inc);
   ("generated/single_byte/koi8-u_tables.rs.inc", koi8_u_inc);
   ("generated/single_byte/mac-roman_tables.rs.inc", mac_roman_inc);
   ("generated/single_byte/mac-cyrillic_tables.rs.inc", mac_cyrillic_inc);
   ("generated/single_byte/windows-cp874_tables.rs.inc", windows_cp874_inc);
   ("generated/single_byte/windows-cp1250_tables.rs.inc", windows_cp1250_inc);
   ("generated/single_byte/windows-cp1251_tables.rs.inc", windows_cp1251_inc);
   ("generated/single_byte/windows-cp1252_tables.rs.inc", windows_cp1252_inc);
   ("generated/single_byte/windows-cp1253_tables.rs.inc", windows_cp1253_inc);
   ("generated/single_byte/windows-cp1254_tables.rs.inc", windows_cp1254_inc);
   ("generated/single_byte/windows-cp1255_tables.rs.inc", windows_cp1255_inc);
   ("generated/single_byte/windows-cp1256_tables.rs.inc", windows_cp1256_inc);
   ("generated/single_byte/windows-cp1257_tables.rs.inc", windows_cp1257_inc);
   ("generated/single_byte/windows-cp1258_tables.rs.inc", windows_cp1258_inc)].
Definition whatwg_files : list (string * list line) :=
  [("generated/whatwg/big5_whatwg_tables.rs.inc", big5_inc);
   ("generated/whatwg/shiftjis_whatwg_tables.rs.inc", shiftjis_inc)].
Definition source_files : list (string * list line) := rust_files ++ single_byte_files ++ whatwg_files.

Definition read (text : list line) : list item := match parse (contents text) with Some l => l | None => [] end.
(* the items in a file, by its name *)
Definition file_items (files : list (string * list item)) (name : string) : list item :=
  match find (fun e => String.eqb (fst e) name) files with Some e => snd e | None => [] end.
Definition load_files (files : list (string * list item)) (main : string) : modules :=
  load (file_items files) 3 [] (file_items files main).

Definition read_all (files : list (string * list line)) : list (string * list item) := map (fun e => (fst e, read (snd e))) files.
Definition crate : modules := load_files (read_all source_files) "lib.rs".

Definition text_encoding (max : N) : program := program_of max crate.
