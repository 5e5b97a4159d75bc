(* Model of /repo/src/shiftjis_whatwg.rs.  The functions take the tables as parameters; the crate's instance is at the end. *)
From Coq Require Import List NArith Arith Bool.
From Verif Require Import Prelude RustCore Types TabSjis.
Import ListNotations.
Local Open Scope N_scope.

(* /repo/src/shiftjis_whatwg.rs:47-52 *)
Definition sjis_eudc_bytes (code : N) : outcome (N * N) :=
  let* d := sub_chk code 0xE000 in
  let jis_ptr := d + 8836 in
  let lead := jis_ptr / 188 in
  let lead_offset := if lead <? 0x1F then 0x81 else 0xC1 in
  let trail := jis_ptr mod 188 in
  let trail_offset := if trail <? 0x3F then 0x40 else 0x41 in
  Ret (as_u8 (lead + lead_offset), as_u8 (trail + trail_offset)).

(* loop body, /repo/src/shiftjis_whatwg.rs:17-77 *)
Definition sjis_encode_body (table : list (N * (N * N))) (st : enc_state)
    : outcome (ctl enc_state (encode_error * list N)) :=
  match es_itr st with
  | [] => Ret (Break st)
  | (offset, c) :: itr =>
      let output_i := es_out st in
      let buf := es_buf st in
      let brk := Ret (Break (EncState itr (es_in st) output_i buf)) in
      let put1 b :=
        let* buf := upd buf output_i b in
        Ret (Continue (EncState itr (offset + 1) (output_i + 1) buf)) in
      (* 70-73 *)
      let put2 (jis_bytes : N * N) :=
        let* buf := upd buf output_i (fst jis_bytes) in
        let* buf := upd buf (output_i + 1) (snd jis_bytes) in
        Ret (Continue (EncState itr (offset + 1) (output_i + 2) buf)) in
      let code := c in
      if (length buf <=? output_i)%nat then brk
      else if code <=? 128 then put1 (as_u8 code)
      else if code =? 0xA5 then put1 0x5C
      else if code =? 0x203E then put1 0x7E
      else if (0xFF61 <=? code) && (code <=? 0xFF9F) then
        let* d := sub_chk code 0xFF61 in
        put1 (as_u8 (d + 0xA1))
      else if (output_i + 1 <? length buf)%nat then
        if (0xE000 <=? code) && (code <=? 0xE757) then
          let* jis_bytes := sjis_eudc_bytes code in
          put2 jis_bytes
        else
          let code := if code =? 0x2212 then 0xFF0D else code in
          let* code := unwrap (from_u32 code) in
          let* found := binary_search_by_key table code in
          match found with
          | Some ptr_i =>
              let* entry := idx table ptr_i in
              put2 (snd entry)
          | None =>
              Ret (Return (EncodeError c (offset, offset + len_utf8 c)%nat output_i, buf))
          end
      else brk
  end.

(* /repo/src/shiftjis_whatwg.rs:13-89 *)
Definition sjis_encode_with (table : list (N * (N * N))) (input out : list N)
    : outcome (encode_result * list N) :=
  run_encoder (sjis_encode_body table) input out.

(* loop body, /repo/src/shiftjis_whatwg.rs:99-202 *)
Definition sjis_decode_body (table : list N) (is_end : bool) (st : dec_state N)
    : outcome (ctl (dec_state N) (decode_error * list N)) :=
  match ds_itr st with
  | [] => Ret (Break st)
  | byte_1 :: itr =>
      let input_i := ds_in st in
      let output_i := ds_out st in
      let buf := ds_buf st in
      let err a b := Ret (Return (invalid_data a b output_i, buf)) in
      let brk := Ret (Break (DecState itr input_i output_i buf)) in
      if (length buf <=? output_i)%nat then brk
      else if byte_1 <=? 127 then
        let* buf := upd buf output_i byte_1 in
        Ret (Continue (DecState itr (input_i + 1) (output_i + 1) buf))
      else if byte_1 =? 128 then
        (* 107-116 *)
        if (length buf <=? output_i + 1)%nat then brk
        else
          let* buf := upd buf output_i 0xC2 in
          let* buf := upd buf (output_i + 1) 0x80 in
          Ret (Continue (DecState itr (input_i + 1) (output_i + 2) buf))
      else if (0xA1 <=? byte_1) && (byte_1 <=? 0xDF) then
        (* 119-126 *)
        let* u := sub_chk (byte_1 + 0xFF61) 0xA1 in
        let* code := unwrap (from_u32 u) in
        copy_string st itr (encode_utf8 code) 1
      else if (0x9F <? byte_1) && (byte_1 <? 0xE0) || (0xFC <? byte_1) then
        err input_i (input_i + 1)%nat
      else
        match itr with
        | byte_2 :: itr2 =>
            let err_end := (input_i + (if (byte_2 <=? 127)%N then 1 else 2))%nat in
            if (byte_2 <? 0x40) || (byte_2 =? 0x7F) || (0xFC <? byte_2) then
              err input_i err_end
            else
              (* 147-151 *)
              let lead_offset := if byte_1 <? 0xA0 then 0x81 else 0xC1 in
              let trail_offset := if byte_2 <? 0x7F then 0x40 else 0x41 in
              let* l := sub_chk byte_1 lead_offset in
              let* jis_ptr := sub_chk (l * 188 + byte_2) trail_offset in
              if (8836 <=? jis_ptr) && (jis_ptr <=? 10715) then
                (* 153-160 *)
                let* u := sub_chk (jis_ptr + 0xE000) 8836 in
                let* code := unwrap (from_u32 u) in
                copy_string st itr2 (encode_utf8 code) 2
              else
                (* 161-176; DECODE_TABLE[jis_ptr] is only evaluated if in range *)
                let* undefined :=
                  (if N.of_nat (length table) <=? jis_ptr then Ret true
                   else let* code := idx table (N.to_nat jis_ptr) in Ret (code =? 0xFFFD)) in
                if undefined then err input_i err_end
                else
                  let* code := idx table (N.to_nat jis_ptr) in
                  copy_string st itr2 (encode_utf8 code) 2
        | [] =>
            (* 177-188 *)
            if negb is_end then brk else err input_i (input_i + 1)%nat
        end
  end.

(* /repo/src/shiftjis_whatwg.rs:92-208 *)
Definition sjis_decode_with (table : list N) (input out : list N) (is_end : bool)
    : outcome (decode_result * list N) :=
  run_decoder (sjis_decode_body table is_end) (S (length input)) input out.

(* the crate's functions: with the included tables, /repo/src/shiftjis_whatwg.rs:11 *)
Definition sjis_encode_from_str := sjis_encode_with sjis_encode_table.
Definition sjis_decode_to_str := sjis_decode_with sjis_decode_table.
