(* Machine integers: no arithmetic operation of the crate overflows. *)
From Coq Require Import List NArith Arith Bool Lia.
From Verif Require Import Encodings Spec Prelude RustCore Types ModelApi ModelWord.
From Verif Require Import Tac ProofUtf8 ProofApi ProofWord.
Import ListNotations.
Local Open Scope N_scope.

(** * C59: no overflow *)

(* usize has 16 bits or more (max = usize::MAX); Rust's slices have at most isize::MAX = max / 2 bytes.  [encode_word] panics on
   any operation that leaves the range of its type, so these two theorems say that none does. *)
Theorem C59_encoders_do_not_overflow : forall max e is_end cs out, 65535 <= max -> text cs ->
  N.of_nat (length (utf8 cs)) <= max / 2 -> N.of_nat (length out) <= max / 2 ->
  exists r buf, encode_word max e (utf8 cs) out is_end = Ret (r, buf).
Proof.
  intros max e ie cs out Hm Ht Hi Ho. rewrite encode_word_same; [|assumption|assumption|lia|lia]. exact (encode_total e ie cs out Ht).
Qed.

Theorem C59_decoders_do_not_overflow : forall max e is_end bs out, 65535 <= max -> bytes bs ->
  N.of_nat (length bs) <= max / 2 -> N.of_nat (length out) <= max / 2 ->
  exists r buf, decode_word max e bs out is_end = Ret (r, buf).
Proof.
  intros max e ie bs out Hm Hb Hi Ho. rewrite decode_word_same; [|assumption|assumption|lia|lia]. exact (decode_total e ie bs out Hb).
Qed.

(* and the results do not depend on the size of usize: they are those of the model with unbounded numbers, about which
   all other properties are stated *)
Theorem C59_encoders_word_size : forall max e is_end cs out, 65535 <= max -> text cs ->
  N.of_nat (length (utf8 cs)) <= max / 2 -> N.of_nat (length out) <= max / 2 ->
  encode_word max e (utf8 cs) out is_end = encode_from_str e (utf8 cs) out is_end.
Proof. intros max e ie cs out Hm Ht Hi Ho. apply encode_word_same; [assumption|assumption|lia|lia]. Qed.

Theorem C59_decoders_word_size : forall max e is_end bs out, 65535 <= max -> bytes bs ->
  N.of_nat (length bs) <= max / 2 -> N.of_nat (length out) <= max / 2 ->
  decode_word max e bs out is_end = decode_to_str e bs out is_end.
Proof. intros max e ie bs out Hm Hb Hi Ho. apply decode_word_same; [assumption|assumption|lia|lia]. Qed.

(* 64 bits; an error at the end of the input, where `input_i + 2` is computed *)
Example C59_example : exists buf, decode_word 0xFFFFFFFFFFFFFFFF Big5WHATWG [0x41; 0xFE; 0xFF]%N (repeat 0 3) true
  = Ret (Err (DecodeError InvalidData (1, 3)%nat 1), buf).
Proof. eexists. vm_compute. reflexivity. Qed.
(* the checks are there: without the bound on the pointer arithmetic, or on the lengths *)
Example C59_example_small : decode_word 0x3FFF Big5WHATWG [0xFE; 0xFE]%N (repeat 0 3) true = Panic
  /\ encode_word 3 Utf32BE (utf8 [0x41])%N (repeat 0 4) true = Panic.
Proof. split; vm_compute; reflexivity. Qed.

Definition word_theorems := (C59_encoders_do_not_overflow, C59_decoders_do_not_overflow, C59_encoders_word_size, C59_decoders_word_size).
Print Assumptions word_theorems.
