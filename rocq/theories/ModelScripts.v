(* The file-level part of the table generators: reading the index and mapping files, writing the .rs.inc files.
   /repo/encoding_tables/single_byte/generate_ascii_ext_tables.py, /repo/encoding_tables/whatwg/generate_big5.py and
   generate_shiftjis.py.  A file is its bytes; None stands for a Python exception.
   Simplified: files are opened with UTF-8 as the encoding (Python takes it from the locale); int() is modelled for
   ASCII digits without sign and underscores, everything else counts as an exception. *)
From Coq Require Import List NArith Arith Bool.
From Verif Require Import Prelude RustCore FileText ModelGen.
Import ListNotations.
Local Open Scope N_scope.

(** ** Python's text files, str and int *)

(* reading a text file: strict UTF-8, as core::str::from_utf8 *)
Definition py_decode (bs : list N) : option (list N) :=
  if (utf8_valid_up_to bs =? length bs)%nat then
    match char_indices bs with Ret l => Some (map snd l) | _ => None end
  else None.

(* universal newlines: \r\n and \r are read as \n *)
Fixpoint py_newlines (cs : list N) : list N :=
  match cs with
  | [] => []
  | c :: r =>
      if c =? 13 then
        match r with
        | d :: r' => if d =? 10 then 10 :: py_newlines r' else 10 :: py_newlines r
        | [] => [10]
        end
      else c :: py_newlines r
  end.

(* "for line in file", without the line ends *)
Fixpoint py_lines_from (line : list N) (cs : list N) : list (list N) :=
  match cs with
  | [] => match line with [] => [] | _ => [rev' line] end
  | c :: r => if c =? 10 then rev' line :: py_lines_from [] r else py_lines_from (c :: line) r
  end.
Definition py_lines (cs : list N) : list (list N) := py_lines_from [] (py_newlines cs).

(* str.isspace for one character *)
Definition py_isspace (c : N) : bool :=
  between 9 c 13 || between 0x1C c 0x20 || (c =? 0x85) || (c =? 0xA0) || (c =? 0x1680) || between 0x2000 c 0x200A ||
  (c =? 0x2028) || (c =? 0x2029) || (c =? 0x202F) || (c =? 0x205F) || (c =? 0x3000).

(* str.split() *)
Fixpoint py_split_from (word : list N) (cs : list N) : list (list N) :=
  match cs with
  | [] => match word with [] => [] | _ => [rev' word] end
  | c :: r =>
      if py_isspace c then
        match word with [] => py_split_from [] r | _ => rev' word :: py_split_from [] r end
      else py_split_from (c :: word) r
  end.
Definition py_split (cs : list N) : list (list N) := py_split_from [] cs.

Definition py_digit (c : N) : option N :=
  if between 48 c 57 then Some (c - 48)
  else if between 65 c 70 then Some (c - 55)
  else if between 97 c 102 then Some (c - 87)
  else None.
Fixpoint py_int_from (base acc : N) (cs : list N) : option N :=
  match cs with
  | [] => Some acc
  | c :: r =>
      match py_digit c with
      | Some d => if d <? base then py_int_from base (acc * base + d) r else None
      | None => None
      end
  end.
Definition py_digits (base : N) (cs : list N) : option N :=
  match cs with [] => None | _ => py_int_from base 0 cs end.
(* int(s) *)
Definition py_int (cs : list N) : option N := py_digits 10 cs.
(* int(s, 16) *)
Definition py_int16 (cs : list N) : option N :=
  match cs with
  | 48 :: x :: r => if (x =? 120) || (x =? 88) then py_digits 16 r else py_digits 16 cs
  | _ => py_digits 16 cs
  end.

(* s.startswith("#") *)
Definition py_hash (cs : list N) : bool := match cs with c :: _ => c =? 35 | [] => false end.

(** ** Reading *)

(* the body of the loop over the lines: generate_big5.py:53-57, generate_shiftjis.py:44-48.
   Some None: the line is skipped *)
Definition index_line (line : list N) : option (option (N * N)) :=
  match py_split line with
  | part0 :: part1 :: _ =>
      if py_hash part0 then Some None
      else match py_int part0, py_int16 part1 with
           | Some byte, Some unicode => Some (Some (byte, unicode))
           | _, _ => None
           end
  | _ => Some None
  end.

(* generate_ascii_ext_tables.py:10-16 *)
Definition mapping_line (line : list N) : option (option (N * N)) :=
  match py_split line with
  | part0 :: part1 :: _ =>
      if py_hash part0 then Some None
      else match py_int16 part0 with
           | None => None
           | Some byte =>
               if py_hash part1 then Some None
               else match py_int16 part1 with
                    | Some unicode => Some (Some (byte, unicode))
                    | None => None
                    end
           end
  | _ => Some None
  end.

(* the loops: generate_big5.py:51-57, generate_shiftjis.py:42-48, generate_ascii_ext_tables.py:8-16 *)
Fixpoint load_lines (parse : list N -> option (option (N * N))) (lines : list (list N)) : option (list (N * N)) :=
  match lines with
  | [] => Some []
  | l :: r =>
      match parse l, load_lines parse r with
      | Some (Some e), Some t => Some (e :: t)
      | Some None, Some t => Some t
      | _, _ => None
      end
  end.
Definition load_file (parse : list N -> option (option (N * N))) (file : list N) : option (list (N * N)) :=
  match py_decode file with
  | Some text => load_lines parse (py_lines text)
  | None => None
  end.

(** ** Writing *)

(* str.format: {} and {:X} for non-negative integers, {:04X} and {:02X} with the given width *)
Definition py_char (d : N) : N := if d <? 10 then 48 + d else 55 + d.
Fixpoint py_format_from (fuel : nat) (base n : N) (acc : list N) : list N :=
  match fuel with
  | O => acc
  | S f => if n <? base then py_char n :: acc else py_format_from f base (n / base) (py_char (n mod base) :: acc)
  end.
Definition py_format (base n : N) : list N := py_format_from (S (N.size_nat n)) base n [].
Definition py_dec (n : N) : list N := py_format 10 n.
Definition py_hex (width : nat) (n : N) : list N :=
  let s := py_format 16 n in repeat 48 (width - length s) ++ s.

(* "for (i, x) in enumerate(items): if i % k == 0: write("\n    "); write(...)" :
   generate_big5.py:91-97 and 101-104, generate_shiftjis.py:82-88 and 92-95, generate_ascii_ext_tables.py:76-82 and 87-90 *)
Fixpoint write_items {A} (k i : N) (format : A -> list N) (items : list A) : list N :=
  match items with
  | [] => []
  | x :: r => (if i mod k =? 0 then 10 :: str "    " else []) ++ format x ++ write_items k (i + 1) format r
  end.

(* generate_big5.py:94-97, generate_shiftjis.py:85-88, generate_ascii_ext_tables.py:79-82 *)
Definition decode_item (c : option N) : list N :=
  match c with
  | None => [39; 0xFFFD; 39; 44]
  | Some c => str "'\u{" ++ py_hex 4 c ++ str "}',"
  end.
(* generate_big5.py:104, generate_shiftjis.py:95 *)
Definition encode_item (e : N * (N * N)) : list N :=
  str "('\u{" ++ py_hex 0 (fst e) ++ str "}', [0x" ++ py_hex 0 (fst (snd e)) ++ str ", 0x" ++ py_hex 0 (snd (snd e)) ++ str "]), ".
(* generate_ascii_ext_tables.py:90 *)
Definition encode_byte_item (e : N * N) : list N :=
  str "('\u{" ++ py_hex 4 (fst e) ++ str "}', 0x" ++ py_hex 2 (snd e) ++ str "), ".

(* generate_big5.py:81-105, generate_shiftjis.py:72-96: the text of the file *)
Definition tables_text (dec_table : list (option N)) (enc_table : list (N * (N * N))) : list N :=
  str "// This file is auto-generated.  Please see `encoding_tables/whatwg/`
// from the root directory for the files that generate this.

" ++
  str "const DECODE_TABLE: [char; " ++ py_dec (N.of_nat (length dec_table)) ++ str "] = [" ++
  write_items 8 0 decode_item dec_table ++ str "
];

" ++
  str "const ENCODE_TABLE: [(char, [u8; 2]); " ++ py_dec (N.of_nat (length enc_table)) ++ str "] = [" ++
  write_items 3 0 encode_item enc_table ++ str "
];
".

(* generate_ascii_ext_tables.py:52-91 *)
Definition ascii_ext_text (dec_table : list (option N)) (enc_table : list (N * N)) : list N :=
  str "// This file is auto-generated.  Please see `encoding_tables/single_byte/`
// from the root directory for the files that generate this.

use {DecodeResult, EncodeResult};

pub fn decode_to_str<'a>(
    input: &[u8],
    out_buffer: &'a mut [u8],
) -> DecodeResult<'a> {
    super::ascii_ext_decode_to_str(&DECODE_TABLE, input, out_buffer)
}

pub fn encode_from_str<'a>(
    input: &str,
    out_buffer: &'a mut [u8],
) -> EncodeResult<'a> {
    super::ascii_ext_encode_from_str(&ENCODE_TABLE, input, out_buffer)
}

" ++
  str "const DECODE_TABLE: [char; 128] = [" ++
  write_items 8 0 decode_item dec_table ++ str "
];

" ++
  str "const ENCODE_TABLE: [(char, u8); " ++ py_dec (N.of_nat (length enc_table)) ++ str "] = [" ++
  write_items 4 0 encode_byte_item enc_table ++ str "
];
".

(* writing a text file *)
Definition py_encode (text : list N) : list N := flat_map encode_utf8 text.

(** ** The scripts, from file to file *)

(* generate_big5.py:62-105 *)
Definition big5_script (file : list N) : option (list N) :=
  match load_file index_line file with
  | None => None
  | Some lines =>
      let table := sort pair_leb lines in
      let enc_table := sort entry_leb (map (fun ic => (snd ic, big5_index_to_bytes (fst ic))) (big5_deduped_table table)) in
      Some (py_encode (tables_text (dec_fill 0 table) enc_table))
  end.

(* generate_shiftjis.py:53-96 *)
Definition shiftjis_script (file : list N) : option (list N) :=
  match load_file index_line file with
  | None => None
  | Some lines =>
      let table := sort pair_leb lines in
      let enc_table := sort entry_leb (map (fun ic => (snd ic, sjis_index_to_bytes (fst ic))) (sjis_deduped_table table)) in
      Some (py_encode (tables_text (dec_fill 0 table) enc_table))
  end.

(* generate_ascii_ext_tables.py:3-91.  (The output file is opened before the exception of line 24 could be raised;
   then it is left empty.  None covers this.) *)
Definition ascii_ext_script (file : list N) : option (list N) :=
  match load_file mapping_line file with
  | None => None
  | Some lines =>
      match check_ascii 128 0 (sort pair_leb lines) with
      | None => None
      | Some table =>
          let dec_table := dec_fill 0 (map (fun bc => (fst bc - 128, snd bc)) table) in
          let dec_table := dec_table ++ repeat None (128 - length dec_table) in
          Some (py_encode (ascii_ext_text dec_table (sort pair_leb (single_byte_enc empty table))))
      end
  end.
