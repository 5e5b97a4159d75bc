(* Model of /repo/src/utf8.rs *)
From Coq Require Import List NArith Arith Bool.
From Verif Require Import Prelude RustCore Types.
Import ListNotations.
Local Open Scope N_scope.

(* /repo/src/utf8.rs:77-87 *)
Definition copy_len (input : list N) (output_len : nat) : outcome nat :=
  if (length input <=? output_len)%nat then Ret (length input)
  else
    let* r := loop (R := Empty_set) (S output_len)
                (fun i =>
                   if (0 <? i)%nat then
                     let* b := idx input i in
                     if N.land b 0xC0 =? 0x80 then Ret (Continue (i - 1)%nat) else Ret (Break i)
                   else Ret (Break i))
                output_len in
    match r with
    | inl i => Ret i
    | inr x => match x with end
    end.

(* `input[..cl]` on a &str (/repo/src/utf8.rs:13): panics unless cl is a char boundary *)
Definition str_slice_to (s : list N) (n : nat) : outcome (list N) :=
  if (n <=? length s)%nat && is_char_boundary s n then Ret (firstn n s) else Panic.

(* /repo/src/utf8.rs:11-15 *)
Definition utf8_encode_from_str (input out : list N) : outcome (encode_result * list N) :=
  let* cl := copy_len input (length out) in
  let* src := str_slice_to input cl in
  let* out := copy_at out 0 cl src in
  let* s := slice_to out cl in
  Ret (Ok (s, cl), out).

(* the loop of /repo/src/utf8.rs:39-45 *)
Definition utf8_error_end (input : list N) (start : nat) : outcome nat :=
  let* r := loop (R := Empty_set) (S (length input))
              (fun i =>
                 if (i <? length input)%nat then
                   let* b := idx input i in
                   if (N.land b 0xC0 =? 0x80) || (N.land b 0xF8 =? 0xF8)
                   then Ret (Continue (i + 1)%nat) else Ret (Break i)
                 else Ret (Break i))
              start in
  match r with
  | inl i => Ret i
  | inr x => match x with end
  end.

(* /repo/src/utf8.rs:17-67 *)
Definition utf8_decode_to_str (input out : list N) (is_end : bool) : outcome (decode_result * list N) :=
  (* 19-22 *)
  let valid_up_to := utf8_valid_up_to input in
  (* 25-26 *)
  let* valid := slice_to input valid_up_to in
  let* bytes_copied := copy_len valid (length out) in
  let* src := slice_to input bytes_copied in
  let* out := copy_at out 0 bytes_copied src in
  (* 63-66 *)
  let success :=
    let* s := slice_to out bytes_copied in
    let* s := from_utf8_unchecked s in
    Ret (Ok (s, bytes_copied), out) in
  (* 29 *)
  if (bytes_copied <? length out)%nat && (bytes_copied =? valid_up_to)%nat
     && (valid_up_to <? length input)%nat then
    let trailing_bytes := (length input - valid_up_to)%nat in
    let* byte := idx input valid_up_to in
    (* 33-35 *)
    let is_truncated :=
      (N.land byte 0xE0 =? 0xC0) && (trailing_bytes <? 2)%nat
      || (N.land byte 0xF0 =? 0xE0) && (trailing_bytes <? 3)%nat
      || (N.land byte 0xF8 =? 0xF0) && (trailing_bytes <? 4)%nat in
    if negb is_truncated then
      (* 37-51 *)
      let* i := utf8_error_end input (valid_up_to + 1) in
      Ret (Err (invalid_data valid_up_to i bytes_copied), out)
    else if is_end then
      (* 53-58 *)
      Ret (Err (invalid_data valid_up_to (length input) bytes_copied), out)
    else success
  else success.
