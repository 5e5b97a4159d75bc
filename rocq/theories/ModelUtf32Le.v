(* Model of /repo/src/utf32_le.rs. *)
From Coq Require Import List NArith Arith Bool.
From Verif Require Import Prelude RustCore Types.
Import ListNotations.
Local Open Scope N_scope.

(* loop body, /repo/src/utf32_le.rs:10-22 *)
Definition utf32_le_encode_body (st : enc_state)
    : outcome (ctl enc_state (encode_error * list N)) :=
  match es_itr st with
  | [] => Ret (Break st)
  | (offset, c) :: itr =>
      let output_i := es_out st in
      let buf := es_buf st in
      if (output_i + 3 <? length buf)%nat then
        let code := u32_to_le_bytes c in
        let* v0 := idx code 0 in
        let* buf := upd buf output_i v0 in
        let* v1 := idx code 1 in
        let* buf := upd buf (output_i + 1) v1 in
        let* v2 := idx code 2 in
        let* buf := upd buf (output_i + 2) v2 in
        let* v3 := idx code 3 in
        let* buf := upd buf (output_i + 3) v3 in
        Ret (Continue (EncState itr (offset + 1) (output_i + 4) buf))
      else Ret (Break (EncState itr (es_in st) output_i buf))
  end.

(* /repo/src/utf32_le.rs:6-34 *)
Definition utf32_le_encode_from_str (input out : list N) : outcome (encode_result * list N) :=
  run_encoder utf32_le_encode_body input out.

(* loop body, /repo/src/utf32_le.rs:41-78; [input] is only used for input.len() *)
Definition utf32_le_decode_body (input : list N) (is_end : bool) (st : dec_state (list N))
    : outcome (ctl (dec_state (list N)) (decode_error * list N)) :=
  match ds_itr st with
  | [] => Ret (Break st)
  | bytes :: itr =>
      let input_i := ds_in st in
      let output_i := ds_out st in
      let buf := ds_buf st in
      let err a b := Ret (Return (invalid_data a b output_i, buf)) in
      if (length bytes <? 4)%nat then
        (* 42-53 *)
        if negb is_end then Ret (Break (DecState itr input_i output_i buf))
        else err input_i (length input)
      else
        let* b0 := idx bytes 0 in
        let* b1 := idx bytes 1 in
        let* b2 := idx bytes 2 in
        let* b3 := idx bytes 3 in
        match from_u32 (u32_from_le_bytes b0 b1 b2 b3) with
        | Some code =>
            (* 59-69 *)
            copy_string st itr (encode_utf8 code) 4
        | None =>
            (* 71-76 *)
            err input_i (input_i + 4)%nat
        end
  end.

(* /repo/src/utf32_le.rs:36-84 *)
Definition utf32_le_decode_to_str (input out : list N) (is_end : bool)
    : outcome (decode_result * list N) :=
  run_decoder (utf32_le_decode_body input is_end) (S (length input)) (chunks 4 input) out.
