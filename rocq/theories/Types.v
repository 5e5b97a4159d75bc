(* Result types of the crate and the parts every encoder / decoder loop shares. *)
From Coq Require Import List NArith Arith Bool.
From Verif Require Import Prelude RustCore.
Import ListNotations.

(* /repo/src/lib.rs:255-259 *)
Record encode_error := EncodeError {
  ee_character : N;
  ee_range : nat * nat;
  ee_written : nat
}.

(* /repo/src/lib.rs:279-286 *)
Inductive decode_error_cause := InvalidData | UnknownConversion.

(* /repo/src/lib.rs:272-276 *)
Record decode_error := DecodeError {
  de_cause : decode_error_cause;
  de_range : nat * nat;
  de_written : nat
}.

(* /repo/src/lib.rs:235 and 241: EncodeResult and DecodeResult.  The returned slice is represented by its contents; every
   model function returns it together with the final contents of the whole output buffer. *)
Definition encode_result := result (list N * nat) encode_error.
Definition decode_result := result (list N * nat) decode_error.

(* The local variables of an encoder loop: the rest of char_indices(), input_i, output_i and the output buffer
   (/repo/src/utf16_le.rs:8-10, utf32_le.rs:8-10, single_byte.rs:276-278, big5_whatwg.rs:21-24, shiftjis_whatwg.rs:15-17) *)
Record enc_state := EncState {
  es_itr : list (nat * N);
  es_in : nat;
  es_out : nat;
  es_buf : list N
}.

(* "Calculate how much of the input was consumed": the same lines in every loop encoder
   (/repo/src/utf16_le.rs:39-46, utf16_be.rs:39-46, utf32_le.rs:24-31, utf32_be.rs:24-31, single_byte.rs:299-306,
   big5_whatwg.rs:70-77, shiftjis_whatwg.rs:79-86) *)
Definition finish_input (input : list N) (input_i : nat) : outcome nat :=
  if length input <? input_i then Ret (length input)
  else
    let* r := loop (R := Empty_set) (S (length input))
                (fun i => if is_char_boundary input i then Ret (Break i) else Ret (Continue (i + 1)))
                input_i in
    match r with
    | inl i => Ret i
    | inr x => match x with end
    end.

(* The frame common to all loop encoders: initialise, run the loop, compute the consumed length, return the slice
   (/repo/src/utf16_le.rs:7-10,39-48, utf16_be.rs:7-10,39-48, utf32_le.rs:7-10,24-33, utf32_be.rs:7-10,24-33,
   single_byte.rs:275-278,299-308, big5_whatwg.rs:20-24,70-79, shiftjis_whatwg.rs:14-17,79-88).
   An early `return Err(..)` leaves the buffer as the loop has written it. *)
Definition run_encoder (body : enc_state -> outcome (ctl enc_state (encode_error * list N)))
    (input out : list N) : outcome (encode_result * list N) :=
  let* itr := char_indices input in
  let* r := loop (S (length input)) body (EncState itr 0 0 out) in
  match r with
  | inl st =>
      let* input_i := finish_input input (es_in st) in
      let* s := slice_to (es_buf st) (es_out st) in
      Ret (Ok (s, input_i), es_buf st)
  | inr (e, buf) => Ret (Err e, buf)
  end.

(* The local variables of a decoder loop: the rest of the input iterator (of bytes or chunks),
   input_i, output_i and the output buffer
   (/repo/src/utf16_le.rs:52-57, utf32_le.rs:37-41, single_byte.rs:319-321, big5_whatwg.rs:94-100, shiftjis_whatwg.rs:93-99) *)
Record dec_state (T : Type) := DecState {
  ds_itr : list T;
  ds_in : nat;
  ds_out : nat;
  ds_buf : list N
}.
Arguments DecState {T} _ _ _ _.
Arguments ds_itr {T} _.
Arguments ds_in {T} _.
Arguments ds_out {T} _.
Arguments ds_buf {T} _.

(* The frame common to all loop decoders
   (/repo/src/utf16_le.rs:52-57,132-135, utf16_be.rs:52-57,132-135, utf32_le.rs:37-41,80-83, utf32_be.rs:37-41,80-83,
   single_byte.rs:319-321,353-356, big5_whatwg.rs:94-100,186-189, shiftjis_whatwg.rs:93-99,204-207) *)
Definition run_decoder {T} (body : dec_state T -> outcome (ctl (dec_state T) (decode_error * list N)))
    (fuel : nat) (itr : list T) (out : list N) : outcome (decode_result * list N) :=
  let* r := loop fuel body (DecState itr 0 0 out) in
  match r with
  | inl st =>
      let* s := slice_to (ds_buf st) (ds_out st) in
      let* s := from_utf8_unchecked s in
      Ret (Ok (s, ds_in st), ds_buf st)
  | inr (e, buf) => Ret (Err e, buf)
  end.

(* `return Err(DecodeError { cause: InvalidData, error_range: (a, b), output_bytes_written: w })` *)
Definition invalid_data (a b w : nat) : decode_error := DecodeError InvalidData (a, b) w.

(* The UTF-8 copying tail of the decoder loops: stop when the piece does not fit, else copy it and advance
   (/repo/src/utf16_le.rs:122-129, utf32_le.rs:62-69, single_byte.rs:344-349, big5_whatwg.rs:163-170,
   shiftjis_whatwg.rs:192-200) *)
Definition copy_string {T} (st : dec_state T) (itr : list T) (s : list N) (input_consumed : nat)
    : outcome (ctl (dec_state T) (decode_error * list N)) :=
  if length (ds_buf st) <? ds_out st + length s then
    Ret (Break (DecState itr (ds_in st) (ds_out st) (ds_buf st)))
  else
    let* buf := copy_at (ds_buf st) (ds_out st) (ds_out st + length s) s in
    Ret (Continue (DecState itr (ds_in st + input_consumed) (ds_out st + length s) buf)).
