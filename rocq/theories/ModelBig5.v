(* Model of /repo/src/big5_whatwg.rs.  The functions take the tables as parameters; the crate's instance is at the end. *)
From Coq Require Import List NArith Arith Bool.
From Verif Require Import Prelude RustCore Types TabBig5.
Import ListNotations.
Local Open Scope N_scope.

(* /repo/src/big5_whatwg.rs:82-90 *)
Definition map_grapheme (a b : N) : option (N * N) :=
  if (a =? 0xCA) && (b =? 0x304) then Some (0x88, 0x62)
  else if (a =? 0xCA) && (b =? 0x30C) then Some (0x88, 0x64)
  else if (a =? 0xEA) && (b =? 0x304) then Some (0x88, 0xA3)
  else if (a =? 0xEA) && (b =? 0x30C) then Some (0x88, 0xA5)
  else None.

(* loop body, /repo/src/big5_whatwg.rs:24-68 *)
Definition big5_encode_body (table : list (N * (N * N))) (is_end : bool) (st : enc_state)
    : outcome (ctl enc_state (encode_error * list N)) :=
  match es_itr st with
  | [] => Ret (Break st)
  | (offset, c) :: itr =>
      let output_i := es_out st in
      let buf := es_buf st in
      let brk := Ret (Break (EncState itr (es_in st) output_i buf)) in
      let code := c in
      if (length buf <=? output_i)%nat then brk
      else if code <=? 127 then
        let* buf := upd buf output_i (as_u8 code) in
        Ret (Continue (EncState itr (offset + 1) (output_i + 1) buf))
      else
        let* found := binary_search_by_key table c in
        match found with
        | Some ptr_i =>
            if (output_i + 1 <? length buf)%nat then
              (* 52-57 *)
              let common_case :=
                let* entry := idx table ptr_i in
                let big5_bytes := snd entry in
                let* buf := upd buf output_i (fst big5_bytes) in
                let* buf := upd buf (output_i + 1) (snd big5_bytes) in
                Ret (Continue (EncState itr (offset + 1) (output_i + 2) buf)) in
              (* 36-50 *)
              if (code =? 0xCA) || (code =? 0xEA) then
                match itr with
                | (offset2, c2) :: itr2 =>
                    match map_grapheme code c2 with
                    | Some bytes =>
                        let* buf := upd buf output_i (fst bytes) in
                        let* buf := upd buf (output_i + 1) (snd bytes) in
                        Ret (Continue (EncState itr2 (offset2 + 1) (output_i + 2) buf))
                    | None => common_case
                    end
                | [] => if negb is_end then brk else common_case
                end
              else common_case
            else brk
        | None =>
            Ret (Return (EncodeError c (offset, offset + len_utf8 c)%nat output_i, buf))
        end
  end.

(* /repo/src/big5_whatwg.rs:15-80 *)
Definition big5_encode_with (table : list (N * (N * N))) (input out : list N) (is_end : bool)
    : outcome (encode_result * list N) :=
  run_encoder (big5_encode_body table is_end) input out.

(* the string literals of /repo/src/big5_whatwg.rs:139-144, as UTF-8 *)
Definition big5_grapheme_literal (ptr : N) : option (list N) :=
  if ptr =? 1133 then Some [0xC3; 0x8A; 0xCC; 0x84]
  else if ptr =? 1135 then Some [0xC3; 0x8A; 0xCC; 0x8C]
  else if ptr =? 1164 then Some [0xC3; 0xAA; 0xCC; 0x84]
  else if ptr =? 1166 then Some [0xC3; 0xAA; 0xCC; 0x8C]
  else None.

(* loop body, /repo/src/big5_whatwg.rs:100-184 *)
Definition big5_decode_body (table : list N) (is_end : bool) (st : dec_state N)
    : outcome (ctl (dec_state N) (decode_error * list N)) :=
  match ds_itr st with
  | [] => Ret (Break st)
  | byte_1 :: itr =>
      let input_i := ds_in st in
      let output_i := ds_out st in
      let buf := ds_buf st in
      let err a b := Ret (Return (invalid_data a b output_i, buf)) in
      if (length buf <=? output_i)%nat then Ret (Break (DecState itr input_i output_i buf))
      else if byte_1 <=? 127 then
        let* buf := upd buf output_i byte_1 in
        Ret (Continue (DecState itr (input_i + 1) (output_i + 1) buf))
      else if (byte_1 =? 0x80) || (byte_1 =? 0xFF) then
        err input_i (input_i + 1)%nat
      else
        match itr with
        | byte_2 :: itr2 =>
            let err_end := (input_i + (if (byte_2 <=? 127)%N then 1 else 2))%nat in
            if (byte_2 <? 0x40) || (0xFE <? byte_2) || ((0x7E <? byte_2) && (byte_2 <? 0xA1)) then
              err input_i err_end
            else
              (* 127-135 *)
              let* l := sub_chk byte_1 0x81 in
              let lead := l * 157 in
              let* trail := (if byte_2 <? 0x7F then sub_chk byte_2 0x40 else sub_chk byte_2 0x62) in
              let big5_ptr := lead + trail in
              (* 138-160; DECODE_TABLE[big5_ptr] is only evaluated if in range *)
              let* undefined :=
                (if N.of_nat (length table) <=? big5_ptr then Ret true
                 else let* code := idx table (N.to_nat big5_ptr) in Ret (code =? 0xFFFD)) in
              if undefined then
                match big5_grapheme_literal big5_ptr with
                | Some s => copy_string st itr2 s 2
                | None => err input_i err_end
                end
              else
                let* code := idx table (N.to_nat big5_ptr) in
                copy_string st itr2 (encode_utf8 code) 2
        | [] =>
            (* 171-183 *)
            if negb is_end then Ret (Break (DecState itr input_i output_i buf))
            else err input_i (input_i + 1)%nat
        end
  end.

(* /repo/src/big5_whatwg.rs:93-190 *)
Definition big5_decode_with (table : list N) (input out : list N) (is_end : bool)
    : outcome (decode_result * list N) :=
  run_decoder (big5_decode_body table is_end) (S (length input)) input out.

(* the crate's functions: with the included tables, /repo/src/big5_whatwg.rs:13 *)
Definition big5_encode_from_str := big5_encode_with big5_encode_table.
Definition big5_decode_to_str := big5_decode_with big5_decode_table.
