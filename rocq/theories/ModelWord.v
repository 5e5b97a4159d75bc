(* The encoders and decoders once more, with machine integers: every addition, subtraction and multiplication on `usize`
   and `u32` in the crate is checked against the range of its type, and is a panic if the result is out of range, as in a
   debug build (a release build would wrap around).  [max] is usize::MAX of the machine.  The model files proper use unbounded
   numbers; PropWord.v proves that the two agree for all slices that can exist. *)
From Coq Require Import List NArith Arith Bool.
From Verif Require Import Prelude RustCore Types Encodings TabBig5 TabSjis.
From Verif Require Import ModelUtf8 ModelSingleByte ModelBig5.
Import ListNotations.
Local Open Scope N_scope.

(* a + b, a - b on usize, for indices and lengths *)
Definition add_usz (max : N) (a b : nat) : outcome nat := if N.of_nat (a + b) <=? max then Ret (a + b)%nat else Panic.
Definition sub_usz (a b : nat) : outcome nat := if (b <=? a)%nat then Ret (a - b)%nat else Panic.
(* a + b, a * b on an integer type with values up to max *)
Definition add_to (max a b : N) : outcome N := if a + b <=? max then Ret (a + b) else Panic.
Definition mul_to (max a b : N) : outcome N := if a * b <=? max then Ret (a * b) else Panic.
Definition u32_max : N := 0xFFFFFFFF.

(* the lines cited at [finish_input] and [run_encoder] in Types.v *)
Definition w_finish_input (max : N) (input : list N) (input_i : nat) : outcome nat :=
  if (length input <? input_i)%nat then Ret (length input)
  else
    let* r := loop (R := Empty_set) (S (length input))
                (fun i => if is_char_boundary input i then Ret (Break i) else let* j := add_usz max i 1 in Ret (Continue j))
                input_i in
    match r with
    | inl i => Ret i
    | inr x => match x with end
    end.

Definition w_run_encoder (max : N) (body : enc_state -> outcome (ctl enc_state (encode_error * list N)))
    (input out : list N) : outcome (encode_result * list N) :=
  let* itr := char_indices input in
  let* r := loop (S (length input)) body (EncState itr 0 0 out) in
  match r with
  | inl st =>
      let* input_i := w_finish_input max input (es_in st) in
      let* s := slice_to (es_buf st) (es_out st) in
      Ret (Ok (s, input_i), es_buf st)
  | inr (e, buf) => Ret (Err e, buf)
  end.

(* the lines cited at [copy_string] in Types.v *)
Definition w_copy_string {T} (max : N) (st : dec_state T) (itr : list T) (s : list N) (input_consumed : nat)
    : outcome (ctl (dec_state T) (decode_error * list N)) :=
  let* end1 := add_usz max (ds_out st) (length s) in
  if (length (ds_buf st) <? end1)%nat then
    Ret (Break (DecState itr (ds_in st) (ds_out st) (ds_buf st)))
  else
    let* end2 := add_usz max (ds_out st) (length s) in
    let* buf := copy_at (ds_buf st) (ds_out st) end2 s in
    let* i := add_usz max (ds_in st) input_consumed in
    let* o := add_usz max (ds_out st) (length s) in
    Ret (Continue (DecState itr i o buf)).

(** ** UTF-8 *)

(* /repo/src/utf8.rs:77-87 *)
Definition w_copy_len (input : list N) (output_len : nat) : outcome nat :=
  if (length input <=? output_len)%nat then Ret (length input)
  else
    let* r := loop (R := Empty_set) (S output_len)
                (fun i =>
                   if (0 <? i)%nat then
                     let* b := idx input i in
                     if N.land b 0xC0 =? 0x80 then let* j := sub_usz i 1 in Ret (Continue j) else Ret (Break i)
                   else Ret (Break i))
                output_len in
    match r with
    | inl i => Ret i
    | inr x => match x with end
    end.

(* /repo/src/utf8.rs:11-15 *)
Definition w_utf8_encode_from_str (input out : list N) : outcome (encode_result * list N) :=
  let* cl := w_copy_len input (length out) in
  let* src := str_slice_to input cl in
  let* out := copy_at out 0 cl src in
  let* s := slice_to out cl in
  Ret (Ok (s, cl), out).

(* the loop of /repo/src/utf8.rs:39-45 *)
Definition w_utf8_error_end (max : N) (input : list N) (start : nat) : outcome nat :=
  let* r := loop (R := Empty_set) (S (length input))
              (fun i =>
                 if (i <? length input)%nat then
                   let* b := idx input i in
                   if (N.land b 0xC0 =? 0x80) || (N.land b 0xF8 =? 0xF8)
                   then let* j := add_usz max i 1 in Ret (Continue j) else Ret (Break i)
                 else Ret (Break i))
              start in
  match r with
  | inl i => Ret i
  | inr x => match x with end
  end.

(* /repo/src/utf8.rs:17-67 *)
Definition w_utf8_decode_to_str (max : N) (input out : list N) (is_end : bool) : outcome (decode_result * list N) :=
  let valid_up_to := utf8_valid_up_to input in
  let* valid := slice_to input valid_up_to in
  let* bytes_copied := w_copy_len valid (length out) in
  let* src := slice_to input bytes_copied in
  let* out := copy_at out 0 bytes_copied src in
  let success :=
    let* s := slice_to out bytes_copied in
    let* s := from_utf8_unchecked s in
    Ret (Ok (s, bytes_copied), out) in
  if (bytes_copied <? length out)%nat && (bytes_copied =? valid_up_to)%nat
     && (valid_up_to <? length input)%nat then
    let* trailing_bytes := sub_usz (length input) valid_up_to in
    let* byte := idx input valid_up_to in
    let is_truncated :=
      (N.land byte 0xE0 =? 0xC0) && (trailing_bytes <? 2)%nat
      || (N.land byte 0xF0 =? 0xE0) && (trailing_bytes <? 3)%nat
      || (N.land byte 0xF8 =? 0xF0) && (trailing_bytes <? 4)%nat in
    if negb is_truncated then
      let* start := add_usz max valid_up_to 1 in
      let* i := w_utf8_error_end max input start in
      Ret (Err (invalid_data valid_up_to i bytes_copied), out)
    else if is_end then
      Ret (Err (invalid_data valid_up_to (length input) bytes_copied), out)
    else success
  else success.

(** ** UTF-16 and UTF-32 *)

(* /repo/src/utf16_le.rs:10-37, utf16_be.rs:10-37 *)
Definition w_utf16_encode_body (max : N) (big : bool) (st : enc_state)
    : outcome (ctl enc_state (encode_error * list N)) :=
  match es_itr st with
  | [] => Ret (Break st)
  | (offset, c) :: itr =>
      let output_i := es_out st in
      let buf := es_buf st in
      let brk := Ret (Break (EncState itr (es_in st) output_i buf)) in
      let code := c in
      if code <=? 0xFFFF then
        let* o1 := add_usz max output_i 1 in
        if (o1 <? length buf)%nat then
          let val := u16_to_bytes big (as_u16 code) in
          let* v0 := idx val 0 in
          let* buf := upd buf output_i v0 in
          let* v1 := idx val 1 in
          let* i1 := add_usz max output_i 1 in
          let* buf := upd buf i1 v1 in
          let* output_i := add_usz max output_i 2 in
          let* input_i := add_usz max offset 1 in
          Ret (Continue (EncState itr input_i output_i buf))
        else brk
      else
        let* o3 := add_usz max output_i 3 in
        if (o3 <? length buf)%nat then
          let* code := sub_chk code 0x10000 in
          let first := u16_to_bytes big (N.lor 0xD800 (as_u16 (N.shiftr code 10))) in
          let second := u16_to_bytes big (N.lor 0xDC00 (N.land (as_u16 code) 0x3FF)) in
          let* v0 := idx first 0 in
          let* buf := upd buf output_i v0 in
          let* v1 := idx first 1 in
          let* i1 := add_usz max output_i 1 in
          let* buf := upd buf i1 v1 in
          let* v2 := idx second 0 in
          let* i2 := add_usz max output_i 2 in
          let* buf := upd buf i2 v2 in
          let* v3 := idx second 1 in
          let* i3 := add_usz max output_i 3 in
          let* buf := upd buf i3 v3 in
          let* output_i := add_usz max output_i 4 in
          let* input_i := add_usz max offset 1 in
          Ret (Continue (EncState itr input_i output_i buf))
        else brk
  end.

(* /repo/src/utf16_le.rs:57-130, utf16_be.rs:57-130 *)
Definition w_utf16_decode_body (max : N) (big : bool) (input : list N) (is_end : bool) (st : dec_state (list N))
    : outcome (ctl (dec_state (list N)) (decode_error * list N)) :=
  match ds_itr st with
  | [] => Ret (Break st)
  | bytes :: itr =>
      let input_i := ds_in st in
      let output_i := ds_out st in
      let buf := ds_buf st in
      let err a b := Ret (Return (invalid_data a b output_i, buf)) in
      let brk := Ret (Break (DecState itr input_i output_i buf)) in
      let emit code itr :=
        let* consumed := mul_to max (N.of_nat (len_utf16 code)) 2 in
        w_copy_string max st itr (encode_utf8 code) (N.to_nat consumed) in
      if (length bytes <? 2)%nat then
        if negb is_end then brk else err input_i (length input)
      else
        let* b0 := idx bytes 0 in
        let* b1 := idx bytes 1 in
        let code_1 := u16_from_bytes big b0 b1 in
        if (code_1 <? 0xD800) || (0xDFFF <? code_1) then
          let* code := from_u32_unchecked code_1 in
          emit code itr
        else if N.land code_1 0xFC00 =? 0xDC00 then
          let* b := add_usz max input_i 2 in
          err input_i b
        else
          let* i3 := add_usz max input_i 3 in
          if (length input <=? i3)%nat then
            if negb is_end then brk else err input_i (length input)
          else
            let* nxt := unwrap (match itr with [] => None | x :: r => Some (x, r) end) in
            let bytes_2 := fst nxt in
            let* b2 := idx bytes_2 0 in
            let* b3 := idx bytes_2 1 in
            let code_2 := u16_from_bytes big b2 b3 in
            if negb (N.land code_2 0xFC00 =? 0xDC00) then
              let* b := add_usz max input_i 2 in
              err input_i b
            else
              let* hi := sub_chk code_1 0xD800 in
              let* lo := sub_chk code_2 0xDC00 in
              let* u := add_to u32_max (N.lor (as_u32 (N.shiftl hi 10)) lo) 0x10000 in
              let* code := from_u32_unchecked u in
              emit code (snd nxt)
  end.

(* /repo/src/utf32_le.rs:10-22, utf32_be.rs:10-22 *)
Definition w_utf32_encode_body (max : N) (big : bool) (st : enc_state)
    : outcome (ctl enc_state (encode_error * list N)) :=
  match es_itr st with
  | [] => Ret (Break st)
  | (offset, c) :: itr =>
      let output_i := es_out st in
      let buf := es_buf st in
      let* o3 := add_usz max output_i 3 in
      if (o3 <? length buf)%nat then
        let code := u32_to_bytes big c in
        let* v0 := idx code 0 in
        let* buf := upd buf output_i v0 in
        let* v1 := idx code 1 in
        let* i1 := add_usz max output_i 1 in
        let* buf := upd buf i1 v1 in
        let* v2 := idx code 2 in
        let* i2 := add_usz max output_i 2 in
        let* buf := upd buf i2 v2 in
        let* v3 := idx code 3 in
        let* i3 := add_usz max output_i 3 in
        let* buf := upd buf i3 v3 in
        let* output_i := add_usz max output_i 4 in
        let* input_i := add_usz max offset 1 in
        Ret (Continue (EncState itr input_i output_i buf))
      else Ret (Break (EncState itr (es_in st) output_i buf))
  end.

(* /repo/src/utf32_le.rs:41-78, utf32_be.rs:41-78 *)
Definition w_utf32_decode_body (max : N) (big : bool) (input : list N) (is_end : bool) (st : dec_state (list N))
    : outcome (ctl (dec_state (list N)) (decode_error * list N)) :=
  match ds_itr st with
  | [] => Ret (Break st)
  | bytes :: itr =>
      let input_i := ds_in st in
      let output_i := ds_out st in
      let buf := ds_buf st in
      let err a b := Ret (Return (invalid_data a b output_i, buf)) in
      if (length bytes <? 4)%nat then
        if negb is_end then Ret (Break (DecState itr input_i output_i buf))
        else err input_i (length input)
      else
        let* b0 := idx bytes 0 in
        let* b1 := idx bytes 1 in
        let* b2 := idx bytes 2 in
        let* b3 := idx bytes 3 in
        match from_u32 (u32_from_bytes big b0 b1 b2 b3) with
        | Some code => w_copy_string max st itr (encode_utf8 code) 4
        | None =>
            let* b := add_usz max input_i 4 in
            err input_i b
        end
  end.

(** ** Single-byte encodings *)

(* /repo/src/single_byte.rs:278-297 *)
Definition w_ascii_ext_encode_body (max : N) (table : list (N * N)) (st : enc_state)
    : outcome (ctl enc_state (encode_error * list N)) :=
  match es_itr st with
  | [] => Ret (Break st)
  | (offset, c) :: itr =>
      let output_i := es_out st in
      let buf := es_buf st in
      if (length buf <=? output_i)%nat then
        Ret (Break (EncState itr (es_in st) output_i buf))
      else if c <=? 127 then
        let* buf := upd buf output_i (as_u8 c) in
        let* output_i := add_usz max output_i 1 in
        let* input_i := add_usz max offset 1 in
        Ret (Continue (EncState itr input_i output_i buf))
      else
        let* found := binary_search_by_key table c in
        match found with
        | Some i =>
            let* entry := idx table i in
            let* buf := upd buf output_i (snd entry) in
            let* output_i := add_usz max output_i 1 in
            let* input_i := add_usz max offset 1 in
            Ret (Continue (EncState itr input_i output_i buf))
        | None =>
            let* range_end := add_usz max offset (len_utf8 c) in
            Ret (Return (EncodeError c (offset, range_end) output_i, buf))
        end
  end.

(* /repo/src/single_byte.rs:321-351 *)
Definition w_ascii_ext_decode_body (max : N) (table : list N) (st : dec_state N)
    : outcome (ctl (dec_state N) (decode_error * list N)) :=
  match ds_itr st with
  | [] => Ret (Break st)
  | byte :: itr =>
      let input_i := ds_in st in
      let output_i := ds_out st in
      let buf := ds_buf st in
      if byte <? 0x80 then
        if (length buf <=? output_i)%nat then
          Ret (Break (DecState itr input_i output_i buf))
        else
          let* buf := upd buf output_i byte in
          let* input_i := add_usz max input_i 1 in
          let* output_i := add_usz max output_i 1 in
          Ret (Continue (DecState itr input_i output_i buf))
      else
        let* i := sub_chk byte 0x80 in
        let* code := idx table (N.to_nat i) in
        if code =? 0xFFFD then
          let* b := add_usz max input_i 1 in
          Ret (Return (invalid_data input_i b output_i, buf))
        else
          w_copy_string max st itr (encode_utf8 code) 1
  end.

(** ** Big5 *)

(* /repo/src/big5_whatwg.rs:24-68 *)
Definition w_big5_encode_body (max : N) (table : list (N * (N * N))) (is_end : bool) (st : enc_state)
    : outcome (ctl enc_state (encode_error * list N)) :=
  match es_itr st with
  | [] => Ret (Break st)
  | (offset, c) :: itr =>
      let output_i := es_out st in
      let buf := es_buf st in
      let brk := Ret (Break (EncState itr (es_in st) output_i buf)) in
      let code := c in
      if (length buf <=? output_i)%nat then brk
      else if code <=? 127 then
        let* buf := upd buf output_i (as_u8 code) in
        let* output_i := add_usz max output_i 1 in
        let* input_i := add_usz max offset 1 in
        Ret (Continue (EncState itr input_i output_i buf))
      else
        let* found := binary_search_by_key table c in
        match found with
        | Some ptr_i =>
            let* o1 := add_usz max output_i 1 in
            if (o1 <? length buf)%nat then
              let common_case :=
                let* entry := idx table ptr_i in
                let big5_bytes := snd entry in
                let* buf := upd buf output_i (fst big5_bytes) in
                let* i1 := add_usz max output_i 1 in
                let* buf := upd buf i1 (snd big5_bytes) in
                let* output_i := add_usz max output_i 2 in
                let* input_i := add_usz max offset 1 in
                Ret (Continue (EncState itr input_i output_i buf)) in
              if (code =? 0xCA) || (code =? 0xEA) then
                match itr with
                | (offset2, c2) :: itr2 =>
                    match map_grapheme code c2 with
                    | Some bytes =>
                        let* buf := upd buf output_i (fst bytes) in
                        let* i1 := add_usz max output_i 1 in
                        let* buf := upd buf i1 (snd bytes) in
                        let* output_i := add_usz max output_i 2 in
                        let* input_i := add_usz max offset2 1 in
                        Ret (Continue (EncState itr2 input_i output_i buf))
                    | None => common_case
                    end
                | [] => if negb is_end then brk else common_case
                end
              else common_case
            else brk
        | None =>
            let* range_end := add_usz max offset (len_utf8 c) in
            Ret (Return (EncodeError c (offset, range_end) output_i, buf))
        end
  end.

(* /repo/src/big5_whatwg.rs:100-184 *)
Definition w_big5_decode_body (max : N) (table : list N) (is_end : bool) (st : dec_state N)
    : outcome (ctl (dec_state N) (decode_error * list N)) :=
  match ds_itr st with
  | [] => Ret (Break st)
  | byte_1 :: itr =>
      let input_i := ds_in st in
      let output_i := ds_out st in
      let buf := ds_buf st in
      let err a m := let* b := add_usz max a m in Ret (Return (invalid_data a b output_i, buf)) in
      if (length buf <=? output_i)%nat then Ret (Break (DecState itr input_i output_i buf))
      else if byte_1 <=? 127 then
        let* buf := upd buf output_i byte_1 in
        let* output_i := add_usz max output_i 1 in
        let* input_i := add_usz max input_i 1 in
        Ret (Continue (DecState itr input_i output_i buf))
      else if (byte_1 =? 0x80) || (byte_1 =? 0xFF) then
        err input_i 1%nat
      else
        match itr with
        | byte_2 :: itr2 =>
            let err_len := (if (byte_2 <=? 127)%N then 1 else 2)%nat in
            if (byte_2 <? 0x40) || (0xFE <? byte_2) || ((0x7E <? byte_2) && (byte_2 <? 0xA1)) then
              err input_i err_len
            else
              let* l := sub_chk byte_1 0x81 in
              let* lead := mul_to max l 157 in
              let* trail := (if byte_2 <? 0x7F then sub_chk byte_2 0x40 else sub_chk byte_2 0x62) in
              let* big5_ptr := add_to max lead trail in
              let* undefined :=
                (if N.of_nat (length table) <=? big5_ptr then Ret true
                 else let* code := idx table (N.to_nat big5_ptr) in Ret (code =? 0xFFFD)) in
              if undefined then
                match big5_grapheme_literal big5_ptr with
                | Some s => w_copy_string max st itr2 s 2
                | None => err input_i err_len
                end
              else
                let* code := idx table (N.to_nat big5_ptr) in
                w_copy_string max st itr2 (encode_utf8 code) 2
        | [] =>
            if negb is_end then Ret (Break (DecState itr input_i output_i buf))
            else err input_i 1%nat
        end
  end.

(** ** Shift JIS *)

(* /repo/src/shiftjis_whatwg.rs:47-52 *)
Definition w_sjis_eudc_bytes (code : N) : outcome (N * N) :=
  let* d := sub_chk code 0xE000 in
  let* jis_ptr := add_to u32_max d 8836 in
  let lead := jis_ptr / 188 in
  let lead_offset := if lead <? 0x1F then 0x81 else 0xC1 in
  let trail := jis_ptr mod 188 in
  let trail_offset := if trail <? 0x3F then 0x40 else 0x41 in
  let* b0 := add_to u32_max lead lead_offset in
  let* b1 := add_to u32_max trail trail_offset in
  Ret (as_u8 b0, as_u8 b1).

(* /repo/src/shiftjis_whatwg.rs:17-77 *)
Definition w_sjis_encode_body (max : N) (table : list (N * (N * N))) (st : enc_state)
    : outcome (ctl enc_state (encode_error * list N)) :=
  match es_itr st with
  | [] => Ret (Break st)
  | (offset, c) :: itr =>
      let output_i := es_out st in
      let buf := es_buf st in
      let brk := Ret (Break (EncState itr (es_in st) output_i buf)) in
      let put1 b :=
        let* buf := upd buf output_i b in
        let* output_i := add_usz max output_i 1 in
        let* input_i := add_usz max offset 1 in
        Ret (Continue (EncState itr input_i output_i buf)) in
      let put2 (jis_bytes : N * N) :=
        let* buf := upd buf output_i (fst jis_bytes) in
        let* i1 := add_usz max output_i 1 in
        let* buf := upd buf i1 (snd jis_bytes) in
        let* output_i := add_usz max output_i 2 in
        let* input_i := add_usz max offset 1 in
        Ret (Continue (EncState itr input_i output_i buf)) in
      let code := c in
      if (length buf <=? output_i)%nat then brk
      else if code <=? 128 then put1 (as_u8 code)
      else if code =? 0xA5 then put1 0x5C
      else if code =? 0x203E then put1 0x7E
      else if (0xFF61 <=? code) && (code <=? 0xFF9F) then
        let* d := sub_chk code 0xFF61 in
        let* x := add_to u32_max d 0xA1 in
        put1 (as_u8 x)
      else
        let* o1 := add_usz max output_i 1 in
        if (o1 <? length buf)%nat then
          if (0xE000 <=? code) && (code <=? 0xE757) then
            let* jis_bytes := w_sjis_eudc_bytes code in
            put2 jis_bytes
          else
            let code := if code =? 0x2212 then 0xFF0D else code in
            let* code := unwrap (from_u32 code) in
            let* found := binary_search_by_key table code in
            match found with
            | Some ptr_i =>
                let* entry := idx table ptr_i in
                put2 (snd entry)
            | None =>
                let* range_end := add_usz max offset (len_utf8 c) in
                Ret (Return (EncodeError c (offset, range_end) output_i, buf))
            end
        else brk
  end.

(* /repo/src/shiftjis_whatwg.rs:99-202 *)
Definition w_sjis_decode_body (max : N) (table : list N) (is_end : bool) (st : dec_state N)
    : outcome (ctl (dec_state N) (decode_error * list N)) :=
  match ds_itr st with
  | [] => Ret (Break st)
  | byte_1 :: itr =>
      let input_i := ds_in st in
      let output_i := ds_out st in
      let buf := ds_buf st in
      let err a m := let* b := add_usz max a m in Ret (Return (invalid_data a b output_i, buf)) in
      let brk := Ret (Break (DecState itr input_i output_i buf)) in
      if (length buf <=? output_i)%nat then brk
      else if byte_1 <=? 127 then
        let* buf := upd buf output_i byte_1 in
        let* output_i := add_usz max output_i 1 in
        let* input_i := add_usz max input_i 1 in
        Ret (Continue (DecState itr input_i output_i buf))
      else if byte_1 =? 128 then
        let* o1 := add_usz max output_i 1 in
        if (length buf <=? o1)%nat then brk
        else
          let* buf := upd buf output_i 0xC2 in
          let* i1 := add_usz max output_i 1 in
          let* buf := upd buf i1 0x80 in
          let* output_i := add_usz max output_i 2 in
          let* input_i := add_usz max input_i 1 in
          Ret (Continue (DecState itr input_i output_i buf))
      else if (0xA1 <=? byte_1) && (byte_1 <=? 0xDF) then
        let* x := add_to u32_max byte_1 0xFF61 in
        let* u := sub_chk x 0xA1 in
        let* code := unwrap (from_u32 u) in
        w_copy_string max st itr (encode_utf8 code) 1
      else if (0x9F <? byte_1) && (byte_1 <? 0xE0) || (0xFC <? byte_1) then
        err input_i 1%nat
      else
        match itr with
        | byte_2 :: itr2 =>
            let err_len := (if (byte_2 <=? 127)%N then 1 else 2)%nat in
            if (byte_2 <? 0x40) || (byte_2 =? 0x7F) || (0xFC <? byte_2) then
              err input_i err_len
            else
              let lead_offset := if byte_1 <? 0xA0 then 0x81 else 0xC1 in
              let trail_offset := if byte_2 <? 0x7F then 0x40 else 0x41 in
              let* l := sub_chk byte_1 lead_offset in
              let* l188 := mul_to u32_max l 188 in
              let* x := add_to u32_max l188 byte_2 in
              let* jis_ptr := sub_chk x trail_offset in
              if (8836 <=? jis_ptr) && (jis_ptr <=? 10715) then
                let* x := add_to u32_max jis_ptr 0xE000 in
                let* u := sub_chk x 8836 in
                let* code := unwrap (from_u32 u) in
                w_copy_string max st itr2 (encode_utf8 code) 2
              else
                let* undefined :=
                  (if N.of_nat (length table) <=? jis_ptr then Ret true
                   else let* code := idx table (N.to_nat jis_ptr) in Ret (code =? 0xFFFD)) in
                if undefined then err input_i err_len
                else
                  let* code := idx table (N.to_nat jis_ptr) in
                  w_copy_string max st itr2 (encode_utf8 code) 2
        | [] =>
            if negb is_end then brk else err input_i 1%nat
        end
  end.

(** ** All encodings; /repo/examples/wrapper.rs:65-160 *)

Definition encode_word (max : N) (e : encoding) (input out : list N) (is_end : bool)
    : outcome (encode_result * list N) :=
  match e with
  | Utf8 => w_utf8_encode_from_str input out
  | Utf16BE => w_run_encoder max (w_utf16_encode_body max true) input out
  | Utf16LE => w_run_encoder max (w_utf16_encode_body max false) input out
  | Utf32BE => w_run_encoder max (w_utf32_encode_body max true) input out
  | Utf32LE => w_run_encoder max (w_utf32_encode_body max false) input out
  | Big5WHATWG => w_run_encoder max (w_big5_encode_body max big5_encode_table is_end) input out
  | ShiftJISWHATWG => w_run_encoder max (w_sjis_encode_body max sjis_encode_table) input out
  | Single m => w_run_encoder max (w_ascii_ext_encode_body max (sb_encode_table m)) input out
  end.

Definition decode_word (max : N) (e : encoding) (input out : list N) (is_end : bool)
    : outcome (decode_result * list N) :=
  let fuel := S (length input) in
  match e with
  | Utf8 => w_utf8_decode_to_str max input out is_end
  | Utf16BE => run_decoder (w_utf16_decode_body max true input is_end) fuel (chunks 2 input) out
  | Utf16LE => run_decoder (w_utf16_decode_body max false input is_end) fuel (chunks 2 input) out
  | Utf32BE => run_decoder (w_utf32_decode_body max true input is_end) fuel (chunks 4 input) out
  | Utf32LE => run_decoder (w_utf32_decode_body max false input is_end) fuel (chunks 4 input) out
  | Big5WHATWG => run_decoder (w_big5_decode_body max big5_decode_table is_end) fuel input out
  | ShiftJISWHATWG => run_decoder (w_sjis_decode_body max sjis_decode_table is_end) fuel input out
  | Single m => run_decoder (w_ascii_ext_decode_body max (sb_decode_table m)) fuel input out
  end.
