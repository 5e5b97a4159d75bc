(* Model of the crate's own test programs: /repo/tests/property_tests.rs, /repo/tests/big5.rs, /repo/tests/shiftjis.rs, the
   example program in /repo/examples/wrapper.rs, and the part of the scripts in /repo/encoding_tables/whatwg that writes the test data.
   A failing assertion, an unwrap of an error and `panic!` are [Panic]. *)
From Coq Require Import List NArith Arith Bool.
From Verif Require Import Prelude RustCore Types Encodings.
From Verif Require Import ModelUtf8 ModelUtf16Le ModelUtf16Be ModelUtf32Le ModelUtf32Be ModelSingleByte ModelBig5 ModelShiftJis ModelApi ModelGen.
Import ListNotations.

(** ** Pieces of `std` used by the tests *)

(* [0u8; n], vec![0u8; n]; property_tests.rs:14,49 and others *)
Definition zeros (n : nat) : list N := repeat 0%N n.

(* &s[n..] on &str: panics unless n is a char boundary; property_tests.rs:22 and others *)
Definition str_from (s : list N) (n : nat) : outcome (list N) :=
  if is_char_boundary s n then Ret (skipn n s) else Panic.

(* &l[n..] on &[u8]; property_tests.rs:33 and others *)
Definition slice_from (l : list N) (n : nat) : outcome (list N) :=
  if n <=? length l then Ret (skipn n l) else Panic.

(* string.extend(s.chars()); property_tests.rs:34 and others *)
Definition extend_chars (string s : list N) : outcome (list N) :=
  let* items := char_indices s in
  Ret (string ++ flat_map (fun it => encode_utf8 (snd it)) items).

(* assert_eq!(a, b) on byte slices and strings *)
Definition assert_eq (a b : list N) : outcome unit :=
  if list_eq_dec N.eq_dec a b then Ret tt else Panic.

(* std::str::from_utf8(s).unwrap(); big5.rs:18, shiftjis.rs:18 *)
Definition from_utf8_unwrap (s : list N) : outcome (list N) :=
  if (utf8_valid_up_to s =? length s)%nat then Ret s else Panic.

(** ** property_tests.rs *)

(* The loop "while !tmp.is_empty() { if let Ok((encoded, n)) = ... }", lines 20-27 and in every round-trip test.
   Returns what was collected, and the buffer, which the next loop uses again. *)
Definition encode_all (enc : list N -> list N -> outcome (encode_result * list N)) (text buf : list N)
    : outcome (list N * list N) :=
  let* r := loop (R := Empty_set) (S (length text))
    (fun st : list N * list N * list N =>
       let '(tmp, acc, buf) := st in
       match tmp with
       | [] => Ret (Break st)
       | _ =>
           let* r := enc tmp buf in
           match r with
           | (Ok (encoded, n), buf) =>
               let* tmp := str_from tmp n in
               Ret (Continue (tmp, acc ++ encoded, buf))
           | (Err _, _) => Panic
           end
       end) (text, [], buf) in
  match r with
  | inl (_, acc, buf) => Ret (acc, buf)
  | inr x => match x with end
  end.

(* The decoding loop, lines 31-38 and in every round-trip test *)
Definition decode_all (dec : list N -> list N -> outcome (decode_result * list N)) (data buf : list N)
    : outcome (list N * list N) :=
  let* r := loop (R := Empty_set) (S (length data))
    (fun st : list N * list N * list N =>
       let '(tmp, acc, buf) := st in
       match tmp with
       | [] => Ret (Break st)
       | _ =>
           let* r := dec tmp buf in
           match r with
           | (Ok (decoded, n), buf) =>
               let* tmp := slice_from tmp n in
               let* acc := extend_chars acc decoded in
               Ret (Continue (tmp, acc, buf))
           | (Err _, _) => Panic
           end
       end) (data, [], buf) in
  match r with
  | inl (_, acc, buf) => Ret (acc, buf)
  | inr x => match x with end
  end.

(* lines 13-43 *)
Definition pt_utf8_roundtrip (text : list N) : outcome unit :=
  let* r := encode_all utf8_encode_from_str text (zeros 32) in
  let '(utf8_encoded, buf) := r in
  let* r := decode_all (fun i o => utf8_decode_to_str i o true) utf8_encoded buf in
  let '(utf8, _) := r in
  let* _u := assert_eq text utf8 in
  let* _u := assert_eq text utf8_encoded in
  assert_eq utf8 utf8_encoded.

(* The four tests of the other Unicode encodings have the same text except for the two functions called:
   lines 63-91 (utf16_be), 111-139 (utf16_le), 159-187 (utf32_be), 207-235 (utf32_le) *)
Definition unicode_roundtrip enc (dec : list N -> list N -> bool -> outcome (decode_result * list N)) (text : list N) : outcome unit :=
  let* r := encode_all enc text (zeros 32) in
  let '(encoded, buf) := r in
  let* r := decode_all (fun i o => dec i o true) encoded buf in
  let '(utf8, _) := r in
  assert_eq text utf8.
Definition pt_utf16be_roundtrip := unicode_roundtrip utf16_be_encode_from_str utf16_be_decode_to_str.
Definition pt_utf16le_roundtrip := unicode_roundtrip utf16_le_encode_from_str utf16_le_decode_to_str.
Definition pt_utf32be_roundtrip := unicode_roundtrip utf32_be_encode_from_str utf32_be_decode_to_str.
Definition pt_utf32le_roundtrip := unicode_roundtrip utf32_le_encode_from_str utf32_le_decode_to_str.

(* Likewise the tests of the single-byte encodings: lines 255-283 (ascii), 302-330 (latin1), 351-386 (iso_8859_7).
   The first loop is the decoding one. *)
Definition single_byte_roundtrip (m : sb_module) (data : list N) : outcome unit :=
  let* r := decode_all (sb_decode_to_str m) data (zeros 32) in
  let '(utf8, buf) := r in
  let* r := encode_all (sb_encode_from_str m) utf8 buf in
  let '(encoded, _) := r in
  assert_eq data encoded.
Definition pt_ascii_roundtrip := single_byte_roundtrip ascii.
Definition pt_latin1_roundtrip := single_byte_roundtrip iso_8859_1.
(* lines 356-361: bytes without a meaning are replaced *)
Definition pt_iso_8859_7_roundtrip (data : list N) : outcome unit :=
  single_byte_roundtrip iso_8859_7
    (map (fun b => if ((b =? 0xAE) || (b =? 0xD2) || (b =? 0xFF))%N then 0%N else b) data).

(* "let _ = ..." with is_end false and then true, on the same buffer: lines 46-52, 94-100, 142-148, 190-196, 238-244, 405-411, 423-429 *)
Definition decode_random_bytes (dec : list N -> list N -> bool -> outcome (decode_result * list N)) (data : list N) : outcome unit :=
  let* r := dec data (zeros 4096) false in
  let* _u := dec data (snd r) true in
  Ret tt.
Definition pt_utf8_decode_random_bytes := decode_random_bytes utf8_decode_to_str.
Definition pt_utf16be_decode_random_bytes := decode_random_bytes utf16_be_decode_to_str.
Definition pt_utf16le_decode_random_bytes := decode_random_bytes utf16_le_decode_to_str.
Definition pt_utf32be_decode_random_bytes := decode_random_bytes utf32_be_decode_to_str.
Definition pt_utf32le_decode_random_bytes := decode_random_bytes utf32_le_decode_to_str.
Definition pt_big5_whatwg_decode_random_bytes := decode_random_bytes big5_decode_to_str.
Definition pt_shiftjis_whatwg_decode_random_bytes := decode_random_bytes sjis_decode_to_str.

(* lines 286-291, 333-338, 389-394 *)
Definition single_byte_decode_random_bytes (m : sb_module) (data : list N) : outcome unit :=
  let* _u := sb_decode_to_str m data (zeros 4096) in
  Ret tt.
Definition pt_ascii_decode_random_bytes := single_byte_decode_random_bytes ascii.
Definition pt_latin1_decode_random_bytes := single_byte_decode_random_bytes iso_8859_1.
Definition pt_iso_8859_7_decode_random_bytes := single_byte_decode_random_bytes iso_8859_7.

(* lines 55-60, 103-108, 151-156, 199-204, 247-252, 294-299, 341-346, 397-402, 432-437 *)
Definition encode_random_text (enc : list N -> list N -> outcome (encode_result * list N)) (text : list N) : outcome unit :=
  let* _u := enc text (zeros 4096) in
  Ret tt.
Definition pt_utf8_encode_random_text := encode_random_text utf8_encode_from_str.
Definition pt_utf16be_encode_random_text := encode_random_text utf16_be_encode_from_str.
Definition pt_utf16le_encode_random_text := encode_random_text utf16_le_encode_from_str.
Definition pt_utf32be_encode_random_text := encode_random_text utf32_be_encode_from_str.
Definition pt_utf32le_encode_random_text := encode_random_text utf32_le_encode_from_str.
Definition pt_ascii_encode_random_text := encode_random_text (sb_encode_from_str ascii).
Definition pt_latin1_encode_random_text := encode_random_text (sb_encode_from_str iso_8859_1).
Definition pt_iso_8859_7_encode_random_text := encode_random_text (sb_encode_from_str iso_8859_7).
Definition pt_shiftjis_whatwg_encode_random_text := encode_random_text sjis_encode_from_str.
(* lines 414-420 *)
Definition pt_big5_whatwg_encode_random_text (text : list N) : outcome unit :=
  let* r := big5_encode_from_str text (zeros 4096) false in
  let* _u := big5_encode_from_str text (snd r) true in
  Ret tt.

(** ** big5.rs and shiftjis.rs, as functions of the contents of the test data files *)

(* big5.rs:14-25, shiftjis.rs:14-24 *)
Definition encode_file_test (enc : list N -> list N -> outcome (encode_result * list N)) (utf8_data encoded_data : list N) : outcome unit :=
  let* text := from_utf8_unwrap utf8_data in
  let* r := enc text (zeros (length encoded_data)) in
  match fst r with
  | Ok (encoded, _) => assert_eq encoded_data encoded
  | Err _ => Panic
  end.

(* big5.rs:27-33, shiftjis.rs:26-32 *)
Definition decode_file_test (dec : list N -> list N -> outcome (decode_result * list N)) (encoded_data utf8_data : list N) : outcome unit :=
  let* r := dec encoded_data (zeros (length utf8_data)) in
  match fst r with
  | Ok (utf8, _) => assert_eq utf8_data utf8
  | Err _ => Panic
  end.

Definition big5_whatwg_encode := encode_file_test (fun i o => big5_encode_from_str i o true).
Definition big5_whatwg_decode := decode_file_test (fun i o => big5_decode_to_str i o true).
Definition shiftjis_whatwg_encode := encode_file_test sjis_encode_from_str.
Definition shiftjis_whatwg_decode := decode_file_test (fun i o => sjis_decode_to_str i o true).

(** ** The test data written by the scripts *)

(* one line of the two files written in parallel: its two contents, without the newline *)
Definition in_file (lines : list (list N * list N)) : list N := flat_map (fun l => fst l ++ [10%N]) lines.
Definition out_file (lines : list (list N * list N)) : list N := flat_map (fun l => snd l ++ [10%N]) lines.
Definition swap (l : list N * list N) : list N * list N := (snd l, fst l).

(* bytes(index_to_bytes(index)) *)
Definition pair_bytes (b : N * N) : list N := [fst b; snd b].

(* range(1, n) *)
Definition range1 (n : nat) : list N := map N.of_nat (seq 1 (n - 1)).

(* generate_big5.py:128-133 and 159-164 *)
Definition big5_test_sequences : list (N * (N * N)) :=
  [(1133, (0xCA, 0x304)); (1135, (0xCA, 0x30C)); (1164, (0xEA, 0x304)); (1166, (0xEA, 0x30C))]%N.

(* generate_big5.py:114-140 for the decoding test (table = the sorted index), 145-171 for the encoding test
   (table = the de-duplicated index): Big5 bytes and UTF-8 bytes of every line; chr(c).encode('utf-8') is char::encode_utf8 *)
Definition big5_test_lines (table : list (N * N)) : list (list N * list N) :=
  map (fun b => ([b], [b])) (range1 128) ++
  map (fun ic => (pair_bytes (big5_index_to_bytes (fst ic)), encode_utf8 (snd ic))) table ++
  map (fun ics => (pair_bytes (big5_index_to_bytes (fst ics)), encode_utf8 (fst (snd ics)) ++ encode_utf8 (snd (snd ics)))) big5_test_sequences.

(* generate_big5.py:108-171: the contents of the decode_in, decode_out, encode_in and encode_out files *)
Definition generate_big5_test_data (lines : list (N * N)) : list N * list N * (list N * list N) :=
  let table := sort pair_leb lines in
  let d := big5_test_lines table in
  let e := map swap (big5_test_lines (big5_deduped_table table)) in
  ((in_file d, out_file d), (in_file e, out_file e)).

(* generate_shiftjis.py:104-117 and 122-135 *)
Definition sjis_test_lines (table : list (N * N)) : list (list N * list N) :=
  map (fun b => ([b], encode_utf8 b)) (range1 129) ++
  map (fun ic => (pair_bytes (sjis_index_to_bytes (fst ic)), encode_utf8 (snd ic))) table.

(* generate_shiftjis.py:98-135 *)
Definition generate_shiftjis_test_data (lines : list (N * N)) : list N * list N * (list N * list N) :=
  let table := sort pair_leb lines in
  let d := sjis_test_lines table in
  let e := map swap (sjis_test_lines (sjis_deduped_table table)) in
  ((in_file d, out_file d), (in_file e, out_file e)).

(** ** examples/wrapper.rs *)

(* /repo/examples/wrapper.rs:5-19; "Hello world!" *)
Definition wrapper_main : outcome unit :=
  let text := [72; 101; 108; 108; 111; 32; 119; 111; 114; 108; 100; 33]%N in
  let* r := encode_from_str Utf16BE text (zeros 100) true in
  match fst r with
  | Err _ => Panic
  | Ok (utf16, _) =>
      let* r := decode_to_str Utf16BE utf16 (zeros 100) true in
      match fst r with
      | Err _ => Panic
      | Ok (text_2, _) => assert_eq text text_2
      end
  end.

(** ** The examples in the documentation of the crate *)

(* /repo/src/lib.rs:22-27, for any text; the result is encoded_text *)
Definition doc_encode (text : list N) : outcome (list N) :=
  let* r := sb_encode_from_str ascii text (zeros 100) in
  match fst r with
  | Ok (encoded_text, _) => Ret encoded_text
  | Err _ => Panic
  end.

(* /repo/src/lib.rs:138-143, for any bytes; the result is decoded_text *)
Definition doc_decode (bytes : list N) : outcome (list N) :=
  let* r := sb_decode_to_str ascii bytes (zeros 100) in
  match fst r with
  | Ok (decoded_text, _) => Ret decoded_text
  | Err _ => Panic
  end.
