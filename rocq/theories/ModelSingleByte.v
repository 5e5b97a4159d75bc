(* Model of /repo/src/single_byte.rs *)
From Coq Require Import List NArith Arith Bool.
From Verif Require Import Prelude RustCore Types Encodings TabSingle.
Import ListNotations.
Local Open Scope N_scope.

(* loop body, /repo/src/single_byte.rs:278-297 *)
Definition ascii_ext_encode_body (table : list (N * N)) (st : enc_state)
    : outcome (ctl enc_state (encode_error * list N)) :=
  match es_itr st with
  | [] => Ret (Break st)
  | (offset, c) :: itr =>
      let output_i := es_out st in
      let buf := es_buf st in
      if (length buf <=? output_i)%nat then
        Ret (Break (EncState itr (es_in st) output_i buf))
      else if c <=? 127 then
        let* buf := upd buf output_i (as_u8 c) in
        Ret (Continue (EncState itr (offset + 1) (output_i + 1) buf))
      else
        let* found := binary_search_by_key table c in
        match found with
        | Some i =>
            let* entry := idx table i in
            let* buf := upd buf output_i (snd entry) in
            Ret (Continue (EncState itr (offset + 1) (output_i + 1) buf))
        | None =>
            Ret (Return (EncodeError c (offset, offset + len_utf8 c)%nat output_i, buf))
        end
  end.

(* /repo/src/single_byte.rs:270-309 *)
Definition ascii_ext_encode_from_str (table : list (N * N)) (input out : list N)
    : outcome (encode_result * list N) :=
  run_encoder (ascii_ext_encode_body table) input out.

(* loop body, /repo/src/single_byte.rs:321-351 *)
Definition ascii_ext_decode_body (table : list N) (st : dec_state N)
    : outcome (ctl (dec_state N) (decode_error * list N)) :=
  match ds_itr st with
  | [] => Ret (Break st)
  | byte :: itr =>
      let input_i := ds_in st in
      let output_i := ds_out st in
      let buf := ds_buf st in
      if byte <? 0x80 then
        if (length buf <=? output_i)%nat then
          Ret (Break (DecState itr input_i output_i buf))
        else
          let* buf := upd buf output_i byte in
          Ret (Continue (DecState itr (input_i + 1) (output_i + 1) buf))
      else
        let* i := sub_chk byte 0x80 in
        let* code := idx table (N.to_nat i) in
        if code =? 0xFFFD then
          Ret (Return (invalid_data input_i (input_i + 1) output_i, buf))
        else
          copy_string st itr (encode_utf8 code) 1
  end.

(* /repo/src/single_byte.rs:314-357 *)
Definition ascii_ext_decode_to_str (table : list N) (input out : list N)
    : outcome (decode_result * list N) :=
  run_decoder (ascii_ext_decode_body table) (S (length input)) input out.

(* ENCODE_TABLE of each module: the include! lines /repo/src/single_byte.rs:26-264; ascii passes &[] (13) *)
Definition sb_encode_table (m : sb_module) : list (N * N) :=
  match m with
  | ascii => []
  | ibm_866 => enc_ibm_cp866
  | iso_8859_1 => enc_iso_8859_1
  | iso_8859_2 => enc_iso_8859_2
  | iso_8859_3 => enc_iso_8859_3
  | iso_8859_4 => enc_iso_8859_4
  | iso_8859_5 => enc_iso_8859_5
  | iso_8859_6 => enc_iso_8859_6
  | iso_8859_7 => enc_iso_8859_7
  | iso_8859_8 => enc_iso_8859_8
  | iso_8859_9 => enc_iso_8859_9
  | iso_8859_10 => enc_iso_8859_10
  | iso_8859_11 => enc_iso_8859_11
  | iso_8859_13 => enc_iso_8859_13
  | iso_8859_14 => enc_iso_8859_14
  | iso_8859_15 => enc_iso_8859_15
  | iso_8859_16 => enc_iso_8859_16
  | koi8_r => enc_koi8_r
  | koi8_u => enc_koi8_u
  | mac_roman => enc_mac_roman
  | mac_cyrillic => enc_mac_cyrillic
  | windows_874 => enc_windows_cp874
  | windows_1250 => enc_windows_cp1250
  | windows_1251 => enc_windows_cp1251
  | windows_1252 => enc_windows_cp1252
  | windows_1253 => enc_windows_cp1253
  | windows_1254 => enc_windows_cp1254
  | windows_1255 => enc_windows_cp1255
  | windows_1256 => enc_windows_cp1256
  | windows_1257 => enc_windows_cp1257
  | windows_1258 => enc_windows_cp1258
  end.

(* DECODE_TABLE of each module: the include! lines /repo/src/single_byte.rs:26-264; ascii passes ['\u{FFFD}'; 128] (17) *)
Definition sb_decode_table (m : sb_module) : list N :=
  match m with
  | ascii => repeat 0xFFFD 128
  | ibm_866 => dec_ibm_cp866
  | iso_8859_1 => dec_iso_8859_1
  | iso_8859_2 => dec_iso_8859_2
  | iso_8859_3 => dec_iso_8859_3
  | iso_8859_4 => dec_iso_8859_4
  | iso_8859_5 => dec_iso_8859_5
  | iso_8859_6 => dec_iso_8859_6
  | iso_8859_7 => dec_iso_8859_7
  | iso_8859_8 => dec_iso_8859_8
  | iso_8859_9 => dec_iso_8859_9
  | iso_8859_10 => dec_iso_8859_10
  | iso_8859_11 => dec_iso_8859_11
  | iso_8859_13 => dec_iso_8859_13
  | iso_8859_14 => dec_iso_8859_14
  | iso_8859_15 => dec_iso_8859_15
  | iso_8859_16 => dec_iso_8859_16
  | koi8_r => dec_koi8_r
  | koi8_u => dec_koi8_u
  | mac_roman => dec_mac_roman
  | mac_cyrillic => dec_mac_cyrillic
  | windows_874 => dec_windows_cp874
  | windows_1250 => dec_windows_cp1250
  | windows_1251 => dec_windows_cp1251
  | windows_1252 => dec_windows_cp1252
  | windows_1253 => dec_windows_cp1253
  | windows_1254 => dec_windows_cp1254
  | windows_1255 => dec_windows_cp1255
  | windows_1256 => dec_windows_cp1256
  | windows_1257 => dec_windows_cp1257
  | windows_1258 => dec_windows_cp1258
  end.

(* encode_from_str of each module: /repo/src/single_byte.rs:12-14 and lines 13-18 of every
   src/generated/single_byte/*_tables.rs.inc *)
Definition sb_encode_from_str (m : sb_module) (input out : list N) : outcome (encode_result * list N) :=
  ascii_ext_encode_from_str (sb_encode_table m) input out.

(* decode_to_str of each module: /repo/src/single_byte.rs:16-18 and lines 6-11 of every
   src/generated/single_byte/*_tables.rs.inc *)
Definition sb_decode_to_str (m : sb_module) (input out : list N) : outcome (decode_result * list N) :=
  ascii_ext_decode_to_str (sb_decode_table m) input out.
