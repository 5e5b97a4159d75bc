(* Model of /repo/src/utf16_be.rs. *)
From Coq Require Import List NArith Arith Bool.
From Verif Require Import Prelude RustCore Types.
Import ListNotations.
Local Open Scope N_scope.

(* loop body, /repo/src/utf16_be.rs:10-37 *)
Definition utf16_be_encode_body (st : enc_state)
    : outcome (ctl enc_state (encode_error * list N)) :=
  match es_itr st with
  | [] => Ret (Break st)
  | (offset, c) :: itr =>
      let output_i := es_out st in
      let buf := es_buf st in
      let brk := Ret (Break (EncState itr (es_in st) output_i buf)) in
      let code := c in
      if code <=? 0xFFFF then
        if (output_i + 1 <? length buf)%nat then
          let val := u16_to_be_bytes (as_u16 code) in
          let* v0 := idx val 0 in
          let* buf := upd buf output_i v0 in
          let* v1 := idx val 1 in
          let* buf := upd buf (output_i + 1) v1 in
          Ret (Continue (EncState itr (offset + 1) (output_i + 2) buf))
        else brk
      else if (output_i + 3 <? length buf)%nat then
        let* code := sub_chk code 0x10000 in
        let first := u16_to_be_bytes (N.lor 0xD800 (as_u16 (N.shiftr code 10))) in
        let second := u16_to_be_bytes (N.lor 0xDC00 (N.land (as_u16 code) 0x3FF)) in
        let* v0 := idx first 0 in
        let* buf := upd buf output_i v0 in
        let* v1 := idx first 1 in
        let* buf := upd buf (output_i + 1) v1 in
        let* v2 := idx second 0 in
        let* buf := upd buf (output_i + 2) v2 in
        let* v3 := idx second 1 in
        let* buf := upd buf (output_i + 3) v3 in
        Ret (Continue (EncState itr (offset + 1) (output_i + 4) buf))
      else brk
  end.

(* /repo/src/utf16_be.rs:6-49 *)
Definition utf16_be_encode_from_str (input out : list N) : outcome (encode_result * list N) :=
  run_encoder utf16_be_encode_body input out.

(* loop body, /repo/src/utf16_be.rs:57-130; [input] is only used for input.len() *)
Definition utf16_be_decode_body (input : list N) (is_end : bool) (st : dec_state (list N))
    : outcome (ctl (dec_state (list N)) (decode_error * list N)) :=
  match ds_itr st with
  | [] => Ret (Break st)
  | bytes :: itr =>
      let input_i := ds_in st in
      let output_i := ds_out st in
      let buf := ds_buf st in
      let err a b := Ret (Return (invalid_data a b output_i, buf)) in
      let brk := Ret (Break (DecState itr input_i output_i buf)) in
      (* 119-129 *)
      let emit code itr :=
        copy_string st itr (encode_utf8 code) (len_utf16 code * 2) in
      if (length bytes <? 2)%nat then
        (* 58-69 *)
        if negb is_end then brk else err input_i (length input)
      else
        let* b0 := idx bytes 0 in
        let* b1 := idx bytes 1 in
        let code_1 := u16_from_be_bytes b0 b1 in
        if (code_1 <? 0xD800) || (0xDFFF <? code_1) then
          (* 74-76 *)
          let* code := from_u32_unchecked code_1 in
          emit code itr
        else if N.land code_1 0xFC00 =? 0xDC00 then
          (* 77-83 *)
          err input_i (input_i + 2)%nat
        else if (length input <=? input_i + 3)%nat then
          (* 88-99 *)
          if negb is_end then brk else err input_i (length input)
        else
          (* 100-116 *)
          let* nxt := unwrap (match itr with [] => None | x :: r => Some (x, r) end) in
          let bytes_2 := fst nxt in
          let* b2 := idx bytes_2 0 in
          let* b3 := idx bytes_2 1 in
          let code_2 := u16_from_be_bytes b2 b3 in
          if negb (N.land code_2 0xFC00 =? 0xDC00) then
            err input_i (input_i + 2)%nat
          else
            let* hi := sub_chk code_1 0xD800 in
            let* lo := sub_chk code_2 0xDC00 in
            let* code := from_u32_unchecked (N.lor (as_u32 (N.shiftl hi 10)) lo + 0x10000) in
            emit code (snd nxt)
  end.

(* /repo/src/utf16_be.rs:51-136 *)
Definition utf16_be_decode_to_str (input out : list N) (is_end : bool)
    : outcome (decode_result * list N) :=
  run_decoder (utf16_be_decode_body input is_end) (S (length input)) (chunks 2 input) out.
