(* The source text itself: read and run as a program (SourceCrate.v, SourceApi.v), it does what the model does, and what the
   specification says. *)
From Coq Require Import List NArith Arith Bool Lia.
From Verif Require Import Encodings Spec SpecCalls Prelude RustCore Types ModelApi ModelWord.
From Verif Require Import RustSyntax RustEval RustProgram SourceCrate SourceAst SourceApi.
From Verif Require Import Spec Tac ProofUtf8 ProofApi ProofWord ProofSrc ProofSrcAll PropSpec.
Import ListNotations.
Local Open Scope N_scope.

(** * C66 *)

(* max = usize::MAX; Rust's slices have at most isize::MAX = max / 2 bytes.  fuel bounds the iterations of each loop, depth the
   nesting of expressions and calls: any bounds that are large enough give the same result. *)
Theorem C66_source_encoders : forall max e is_end cs out fuel depth, 65535 <= max -> text cs ->
  N.of_nat (length (utf8 cs)) <= max / 2 -> N.of_nat (length out) <= max / 2 ->
  (length (utf8 cs) < fuel)%nat -> (60 <= depth)%nat ->
  source_encode max (text_encoding max) fuel depth e (utf8 cs) out is_end = encode_from_str e (utf8 cs) out is_end.
Proof.
  intros max e ie cs out fuel depth M T Li Lo F D. rewrite source_ok.
  destruct (encode_total e ie cs out T) as (r & buf & E). rewrite E. destruct (encode_buffer e) as [t B].
  replace depth with (60 + (depth - 60))%nat by lia.
  eapply observe_ok; [exact (encode_found max e) | exact B | apply read_encode_ok |].
  apply (encode_call max fuel (depth - 60) e (utf8 cs) out ie (r, buf) M F).
  - intros itr I. unfold char_indices in I. rewrite (char_indices_offsets cs T) in I. apply Ret_inj in I. subst.
    clear - T. unfold scalar_items. generalize 0%nat. induction T as [|c cs H _ IH]; intros off; cbn [offsets]; constructor; [|apply IH].
    cbn. unfold scalar in H. lia.
  - rewrite encode_word_same; [exact E|assumption|assumption|lia|lia].
Qed.

Theorem C66_source_decoders : forall max e is_end bs out fuel depth, 65535 <= max -> bytes bs ->
  N.of_nat (length bs) <= max / 2 -> N.of_nat (length out) <= max / 2 ->
  (length bs < fuel)%nat -> (60 <= depth)%nat ->
  source_decode max (text_encoding max) fuel depth e bs out is_end = decode_to_str e bs out is_end.
Proof.
  intros max e ie bs out fuel depth M T Li Lo F D. rewrite source_ok.
  destruct (decode_total e ie bs out T) as (r & buf & E). rewrite E. destruct (decode_buffer e) as [t B].
  replace depth with (60 + (depth - 60))%nat by lia.
  eapply observe_ok; [exact (decode_found max e) | exact B | apply read_decode_ok |].
  apply (decode_call max fuel (depth - 60) e bs out ie (r, buf) M F).
  - exact T.
  - rewrite decode_word_same; [exact E|assumption|assumption|lia|lia].
Qed.

(* without the model: the complete specification of the calls (SpecCalls.v) *)
Theorem C66_source_encode_complete : forall max e is_end cs out fuel depth r buf, 65535 <= max -> text cs ->
  N.of_nat (length (utf8 cs)) <= max / 2 -> N.of_nat (length out) <= max / 2 ->
  (length (utf8 cs) < fuel)%nat -> (60 <= depth)%nat ->
  source_encode max (text_encoding max) fuel depth e (utf8 cs) out is_end = Ret (r, buf) <-> EncodeCall e cs out is_end r buf.
Proof. intros. rewrite C66_source_encoders by assumption. apply C60_encode_complete. assumption. Qed.

Theorem C66_source_decode_complete : forall max e is_end bs out fuel depth r buf, 65535 <= max -> bytes bs ->
  N.of_nat (length bs) <= max / 2 -> N.of_nat (length out) <= max / 2 ->
  (length bs < fuel)%nat -> (60 <= depth)%nat ->
  source_decode max (text_encoding max) fuel depth e bs out is_end = Ret (r, buf) <-> DecodeCall e bs out is_end r buf.
Proof. intros. rewrite C66_source_decoders by assumption. apply C60_decode_complete. assumption. Qed.

(* no panic, no undefined behaviour, no endless loop *)
Theorem C66_source_encoders_total : forall max e is_end cs out fuel depth, 65535 <= max -> text cs ->
  N.of_nat (length (utf8 cs)) <= max / 2 -> N.of_nat (length out) <= max / 2 ->
  (length (utf8 cs) < fuel)%nat -> (60 <= depth)%nat ->
  exists r buf, source_encode max (text_encoding max) fuel depth e (utf8 cs) out is_end = Ret (r, buf).
Proof. intros. rewrite C66_source_encoders by assumption. apply encode_total. assumption. Qed.

Theorem C66_source_decoders_total : forall max e is_end bs out fuel depth, 65535 <= max -> bytes bs ->
  N.of_nat (length bs) <= max / 2 -> N.of_nat (length out) <= max / 2 ->
  (length bs < fuel)%nat -> (60 <= depth)%nat ->
  exists r buf, source_decode max (text_encoding max) fuel depth e bs out is_end = Ret (r, buf).
Proof. intros. rewrite C66_source_decoders by assumption. apply decode_total. assumption. Qed.

(* 64 bits: a surrogate pair, with two bytes left over; a lone surrogate *)
Example C66_example_utf16 : source_encode 0xFFFFFFFFFFFFFFFF (text_encoding 0xFFFFFFFFFFFFFFFF) 10 60 Utf16LE (utf8 [0x41; 0x1F600]) (repeat 7 8) true
  = Ret (Ok ([0x41; 0; 0x3D; 0xD8; 0; 0xDE], 5%nat), [0x41; 0; 0x3D; 0xD8; 0; 0xDE; 7; 7]).
Proof. rewrite source_ok. vm_compute. reflexivity. Qed.
Example C66_example_lone : source_decode 0xFFFFFFFF (text_encoding 0xFFFFFFFF) 10 60 Utf16BE [0; 0x41; 0xDC; 0; 0; 0x42] (repeat 7 3) true
  = Ret (Err (DecodeError InvalidData (2, 4)%nat 1), [0x41; 7; 7]).
Proof. rewrite source_ok. vm_compute. reflexivity. Qed.
(* the bounds matter to the interpreter only *)
Example C66_example_fuel : source_encode 0xFFFF (text_encoding 0xFFFF) 2 60 Utf16LE (utf8 [0x41; 0x42; 0x43]) (repeat 7 8) true = Diverge.
Proof. rewrite source_ok. vm_compute. reflexivity. Qed.

Definition source_theorems := (C66_source_encoders, C66_source_decoders, C66_source_encode_complete, C66_source_decode_complete,
  C66_source_encoders_total, C66_source_decoders_total).
Print Assumptions source_theorems.
