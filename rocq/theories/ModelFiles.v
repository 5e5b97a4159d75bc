(* Model of the scripts in /repo/encoding_tables as programs on files: the main program of each script (which files it reads and
   writes) and, on the side of the crate, the files its modules and tests include.
   A path is the list of its segments below the root of the repository.  A script runs in the directory it is in.
   Modelled: opening for reading (an exception if there is no such file), opening for writing (empties the file), writing,
   exceptions.  Not modelled: directories as objects, permissions, full disks, files that change while a script runs.
   A file object is closed when the function that opened it returns or raises. *)
From Coq Require Import List NArith Bool String Ascii.
From Verif Require Import Encodings Prelude RustCore ModelGen ModelScripts ModelTests.
Import ListNotations.
Local Open Scope string_scope.
Local Open Scope list_scope.

(** ** Files *)

Definition path := list string.
Definition files := path -> option (list N).
Definition write (f : files) (p : path) (c : list N) : files :=
  fun q => if list_eq_dec string_dec p q then Some c else f q.

(* the segments of a path written with slashes *)
Fixpoint segments (s : string) : path :=
  match s with
  | EmptyString => [EmptyString]
  | String c s =>
      if Ascii.eqb c "/" then EmptyString :: segments s
      else match segments s with
           | [] => [String c EmptyString]
           | x :: r => String c x :: r
           end
  end.
(* following the segments from a directory, given with its last segment first *)
Fixpoint follow (dir : path) (segs : path) : path :=
  match segs with
  | [] => dir
  | x :: r =>
      if string_dec x ".." then follow (tl dir) r
      else if string_dec x "." then follow dir r
      else follow (x :: dir) r
  end.
(* a relative path *)
Definition at_ (dir : path) (s : string) : path := rev (follow (rev dir) (segments s)).

(* how a script ends: at its end or with an exception; with the files as it leaves them *)
Inductive run := Done (f : files) | Raised (f : files).
Definition then_ (r : run) (k : files -> run) : run := match r with Done f => k f | Raised f => Raised f end.

(** ** encoding_tables/single_byte/generate_ascii_ext_tables.py *)

Definition single_byte_dir : path := ["encoding_tables"; "single_byte"].

(* lines 3-91: open in_path, open (and so empty) out_path, then read the one and write the other *)
Definition generate_ascii_ext_file (in_path out_path : string) (f : files) : run :=
  match f (at_ single_byte_dir in_path) with
  | None => Raised f
  | Some _ =>
      let f := write f (at_ single_byte_dir out_path) [] in
      match f (at_ single_byte_dir in_path) with
      | None => Raised f
      | Some file =>
          match ascii_ext_script file with
          | None => Raised f
          | Some text => Done (write f (at_ single_byte_dir out_path) text)
          end
      end
  end.

(* line 95 *)
Definition single_byte_root : string := "../../src/generated/single_byte".

(* lines 98-217: the calls, in order *)
Definition single_byte_calls : list (string * string) := [
  ("ascii_ext/ibm-cp866.txt", single_byte_root ++ "/ibm-cp866_tables.rs.inc")%string;
  ("ascii_ext/iso-8859-1.txt", single_byte_root ++ "/iso-8859-1_tables.rs.inc")%string;
  ("ascii_ext/iso-8859-2.txt", single_byte_root ++ "/iso-8859-2_tables.rs.inc")%string;
  ("ascii_ext/iso-8859-3.txt", single_byte_root ++ "/iso-8859-3_tables.rs.inc")%string;
  ("ascii_ext/iso-8859-4.txt", single_byte_root ++ "/iso-8859-4_tables.rs.inc")%string;
  ("ascii_ext/iso-8859-5.txt", single_byte_root ++ "/iso-8859-5_tables.rs.inc")%string;
  ("ascii_ext/iso-8859-6.txt", single_byte_root ++ "/iso-8859-6_tables.rs.inc")%string;
  ("ascii_ext/iso-8859-7.txt", single_byte_root ++ "/iso-8859-7_tables.rs.inc")%string;
  ("ascii_ext/iso-8859-8.txt", single_byte_root ++ "/iso-8859-8_tables.rs.inc")%string;
  ("ascii_ext/iso-8859-9.txt", single_byte_root ++ "/iso-8859-9_tables.rs.inc")%string;
  ("ascii_ext/iso-8859-10.txt", single_byte_root ++ "/iso-8859-10_tables.rs.inc")%string;
  ("ascii_ext/iso-8859-11.txt", single_byte_root ++ "/iso-8859-11_tables.rs.inc")%string;
  ("ascii_ext/iso-8859-13.txt", single_byte_root ++ "/iso-8859-13_tables.rs.inc")%string;
  ("ascii_ext/iso-8859-14.txt", single_byte_root ++ "/iso-8859-14_tables.rs.inc")%string;
  ("ascii_ext/iso-8859-15.txt", single_byte_root ++ "/iso-8859-15_tables.rs.inc")%string;
  ("ascii_ext/iso-8859-16.txt", single_byte_root ++ "/iso-8859-16_tables.rs.inc")%string;
  ("ascii_ext/koi8-r.txt", single_byte_root ++ "/koi8-r_tables.rs.inc")%string;
  ("ascii_ext/koi8-u.txt", single_byte_root ++ "/koi8-u_tables.rs.inc")%string;
  ("ascii_ext/mac-roman.txt", single_byte_root ++ "/mac-roman_tables.rs.inc")%string;
  ("ascii_ext/mac-cyrillic.txt", single_byte_root ++ "/mac-cyrillic_tables.rs.inc")%string;
  ("ascii_ext/windows-cp874.txt", single_byte_root ++ "/windows-cp874_tables.rs.inc")%string;
  ("ascii_ext/windows-cp1250.txt", single_byte_root ++ "/windows-cp1250_tables.rs.inc")%string;
  ("ascii_ext/windows-cp1251.txt", single_byte_root ++ "/windows-cp1251_tables.rs.inc")%string;
  ("ascii_ext/windows-cp1252.txt", single_byte_root ++ "/windows-cp1252_tables.rs.inc")%string;
  ("ascii_ext/windows-cp1253.txt", single_byte_root ++ "/windows-cp1253_tables.rs.inc")%string;
  ("ascii_ext/windows-cp1254.txt", single_byte_root ++ "/windows-cp1254_tables.rs.inc")%string;
  ("ascii_ext/windows-cp1255.txt", single_byte_root ++ "/windows-cp1255_tables.rs.inc")%string;
  ("ascii_ext/windows-cp1256.txt", single_byte_root ++ "/windows-cp1256_tables.rs.inc")%string;
  ("ascii_ext/windows-cp1257.txt", single_byte_root ++ "/windows-cp1257_tables.rs.inc")%string;
  ("ascii_ext/windows-cp1258.txt", single_byte_root ++ "/windows-cp1258_tables.rs.inc")%string].
Fixpoint run_calls (calls : list (string * string)) (f : files) : run :=
  match calls with
  | [] => Done f
  | (i, o) :: rest => then_ (generate_ascii_ext_file i o f) (run_calls rest)
  end.
Definition single_byte_main : files -> run := run_calls single_byte_calls.

(** ** encoding_tables/whatwg/generate_big5.py and generate_shiftjis.py *)

Definition whatwg_dir : path := ["encoding_tables"; "whatwg"].

(* generate_big5.py:62-105, generate_shiftjis.py:53-96: the output file is opened when its contents are known.
   script: big5_script or shiftjis_script *)
Definition generate_tables_file (script : list N -> option (list N)) (in_path out_path : string) (f : files) : run :=
  match f (at_ whatwg_dir in_path) with
  | None => Raised f
  | Some file =>
      match script file with
      | None => Raised f
      | Some text => Done (write f (at_ whatwg_dir out_path) text)
      end
  end.

(* bytes([...]): an exception unless all values are below 256 *)
Definition py_bytes (l : list N) : option (list N) := if forallb (fun b => b <? 256)%N l then Some l else None.
(* chr(c).encode('utf-8'): an exception for surrogates and above 0x10FFFF *)
Definition py_chr (c : N) : option (list N) := if ((c <? 0xD800) || ((0xDFFF <? c) && (c <=? 0x10FFFF)))%N then Some (encode_utf8 c) else None.

(* one loop that writes a line to each of two files; what was written to them, and whether the loop came to its end *)
Fixpoint write_lines (lines : list (option (list N) * option (list N))) (a b : list N) : list N * list N * bool :=
  match lines with
  | [] => (a, b, true)
  | (None, _) :: _ => (a, b, false)
  | (Some x, None) :: _ => (a ++ x ++ [10%N], b, false)
  | (Some x, Some y) :: rest => write_lines rest (a ++ x ++ [10%N]) (b ++ y ++ [10%N])
  end.

(* generate_big5.py:114-140 (and, with the files swapped, 145-171) *)
Definition big5_lines (table : list (N * N)) : list (option (list N) * option (list N)) :=
  map (fun b => (py_bytes [b], py_bytes [b])) (range1 128) ++
  map (fun ic => (py_bytes (pair_bytes (big5_index_to_bytes (fst ic))), py_chr (snd ic))) table ++
  map (fun ics => (py_bytes (pair_bytes (big5_index_to_bytes (fst ics))),
                   Some (encode_utf8 (fst (snd ics)) ++ encode_utf8 (snd (snd ics))))) big5_test_sequences.
(* generate_shiftjis.py:104-117 (and, with the files swapped, 122-135) *)
Definition sjis_lines (table : list (N * N)) : list (option (list N) * option (list N)) :=
  map (fun b => (py_bytes [b], py_chr b)) (range1 129) ++
  map (fun ic => (py_bytes (pair_bytes (sjis_index_to_bytes (fst ic))), py_chr (snd ic))) table.
Definition swapped {A B} (l : list (A * B)) : list (B * A) := map (fun xy => (snd xy, fst xy)) l.

(* generate_big5.py:108-171, generate_shiftjis.py:98-135, for output files that are four different ones.
   lines, dedup: big5_lines and big5_deduped_table or those of Shift JIS *)
Definition generate_test_files (lines : list (N * N) -> list (option (list N) * option (list N))) (dedup : list (N * N) -> list (N * N))
    (in_path dec_in dec_out enc_in enc_out : string) (f : files) : run :=
  match f (at_ whatwg_dir in_path) with
  | None => Raised f
  | Some file =>
      match load_file index_line file with
      | None => Raised f
      | Some l =>
          let table := sort pair_leb l in
          let '(a, b, ok) := write_lines (lines table) [] [] in
          let f := write (write f (at_ whatwg_dir dec_in) a) (at_ whatwg_dir dec_out) b in
          if ok then
            let '(c, d, ok) := write_lines (swapped (lines (dedup table))) [] [] in
            let f := write (write f (at_ whatwg_dir enc_in) c) (at_ whatwg_dir enc_out) d in
            if ok then Done f else Raised f
          else Raised f
      end
  end.

(* generate_big5.py:175-176, generate_shiftjis.py:139-140 *)
Definition table_root : string := "../../src/generated/whatwg".
Definition test_root : string := "../../tests/test_data/whatwg".

(* generate_big5.py:174-191 *)
Definition big5_main (f : files) : run :=
  then_ (generate_tables_file big5_script "index-big5.txt" (table_root ++ "/big5_whatwg_tables.rs.inc")%string f)
    (generate_test_files big5_lines big5_deduped_table "index-big5.txt"
      (test_root ++ "/big5_whatwg_test_decode_in.txt")%string
      (test_root ++ "/big5_whatwg_test_decode_out.txt")%string
      (test_root ++ "/big5_whatwg_test_encode_in.txt")%string
      (test_root ++ "/big5_whatwg_test_encode_out.txt")%string).

(* generate_shiftjis.py:138-155 *)
Definition shiftjis_main (f : files) : run :=
  then_ (generate_tables_file shiftjis_script "index-jis0208.txt" (table_root ++ "/shiftjis_whatwg_tables.rs.inc")%string f)
    (generate_test_files sjis_lines sjis_deduped_table "index-jis0208.txt"
      (test_root ++ "/shiftjis_whatwg_test_decode_in.txt")%string
      (test_root ++ "/shiftjis_whatwg_test_decode_out.txt")%string
      (test_root ++ "/shiftjis_whatwg_test_encode_in.txt")%string
      (test_root ++ "/shiftjis_whatwg_test_encode_out.txt")%string).

(** ** What the crate includes; include! and include_bytes! look from the directory of the source file *)

(* /repo/src/single_byte.rs, in the body of each module; ascii includes nothing *)
Definition single_byte_include (m : sb_module) : option string :=
  match m with
  | ascii => None
  | ibm_866 => Some "generated/single_byte/ibm-cp866_tables.rs.inc" (* 26 *)
  | iso_8859_1 => Some "generated/single_byte/iso-8859-1_tables.rs.inc" (* 36 *)
  | iso_8859_2 => Some "generated/single_byte/iso-8859-2_tables.rs.inc" (* 44 *)
  | iso_8859_3 => Some "generated/single_byte/iso-8859-3_tables.rs.inc" (* 52 *)
  | iso_8859_4 => Some "generated/single_byte/iso-8859-4_tables.rs.inc" (* 60 *)
  | iso_8859_5 => Some "generated/single_byte/iso-8859-5_tables.rs.inc" (* 68 *)
  | iso_8859_6 => Some "generated/single_byte/iso-8859-6_tables.rs.inc" (* 76 *)
  | iso_8859_7 => Some "generated/single_byte/iso-8859-7_tables.rs.inc" (* 84 *)
  | iso_8859_8 => Some "generated/single_byte/iso-8859-8_tables.rs.inc" (* 92 *)
  | iso_8859_9 => Some "generated/single_byte/iso-8859-9_tables.rs.inc" (* 100 *)
  | iso_8859_10 => Some "generated/single_byte/iso-8859-10_tables.rs.inc" (* 108 *)
  | iso_8859_11 => Some "generated/single_byte/iso-8859-11_tables.rs.inc" (* 118 *)
  | iso_8859_13 => Some "generated/single_byte/iso-8859-13_tables.rs.inc" (* 126 *)
  | iso_8859_14 => Some "generated/single_byte/iso-8859-14_tables.rs.inc" (* 134 *)
  | iso_8859_15 => Some "generated/single_byte/iso-8859-15_tables.rs.inc" (* 142 *)
  | iso_8859_16 => Some "generated/single_byte/iso-8859-16_tables.rs.inc" (* 150 *)
  | koi8_r => Some "generated/single_byte/koi8-r_tables.rs.inc" (* 158 *)
  | koi8_u => Some "generated/single_byte/koi8-u_tables.rs.inc" (* 166 *)
  | mac_roman => Some "generated/single_byte/mac-roman_tables.rs.inc" (* 176 *)
  | mac_cyrillic => Some "generated/single_byte/mac-cyrillic_tables.rs.inc" (* 184 *)
  | windows_874 => Some "generated/single_byte/windows-cp874_tables.rs.inc" (* 192 *)
  | windows_1250 => Some "generated/single_byte/windows-cp1250_tables.rs.inc" (* 200 *)
  | windows_1251 => Some "generated/single_byte/windows-cp1251_tables.rs.inc" (* 208 *)
  | windows_1252 => Some "generated/single_byte/windows-cp1252_tables.rs.inc" (* 216 *)
  | windows_1253 => Some "generated/single_byte/windows-cp1253_tables.rs.inc" (* 224 *)
  | windows_1254 => Some "generated/single_byte/windows-cp1254_tables.rs.inc" (* 232 *)
  | windows_1255 => Some "generated/single_byte/windows-cp1255_tables.rs.inc" (* 240 *)
  | windows_1256 => Some "generated/single_byte/windows-cp1256_tables.rs.inc" (* 248 *)
  | windows_1257 => Some "generated/single_byte/windows-cp1257_tables.rs.inc" (* 256 *)
  | windows_1258 => Some "generated/single_byte/windows-cp1258_tables.rs.inc" (* 264 *)
  end.
Definition single_byte_included (m : sb_module) : option path := option_map (at_ ["src"]) (single_byte_include m).
(* /repo/src/big5_whatwg.rs:13 *)
Definition big5_included : path := at_ ["src"] "generated/whatwg/big5_whatwg_tables.rs.inc".
(* /repo/src/shiftjis_whatwg.rs:11 *)
Definition shiftjis_included : path := at_ ["src"] "generated/whatwg/shiftjis_whatwg_tables.rs.inc".

(* what the tests include: decode_in, decode_out, encode_in, encode_out *)
(* /repo/tests/big5.rs:5-12 *)
Definition big5_tests_include : path * path * (path * path) :=
  ((at_ ["tests"] "test_data/whatwg/big5_whatwg_test_decode_in.txt", at_ ["tests"] "test_data/whatwg/big5_whatwg_test_decode_out.txt"),
   (at_ ["tests"] "test_data/whatwg/big5_whatwg_test_encode_in.txt", at_ ["tests"] "test_data/whatwg/big5_whatwg_test_encode_out.txt")).
(* /repo/tests/shiftjis.rs:5-12 *)
Definition shiftjis_tests_include : path * path * (path * path) :=
  ((at_ ["tests"] "test_data/whatwg/shiftjis_whatwg_test_decode_in.txt", at_ ["tests"] "test_data/whatwg/shiftjis_whatwg_test_decode_out.txt"),
   (at_ ["tests"] "test_data/whatwg/shiftjis_whatwg_test_encode_in.txt", at_ ["tests"] "test_data/whatwg/shiftjis_whatwg_test_encode_out.txt")).
