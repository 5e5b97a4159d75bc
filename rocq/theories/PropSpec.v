(* The complete specification of the calls (SpecCalls.v): what it allows is exactly what the code does. *)
From Coq Require Import List NArith Arith Bool Lia.
From Verif Require Import Encodings Spec SpecErrors SpecCalls Prelude RustCore Types ModelApi ProofApi ProofSpec.
Import ListNotations.
Local Open Scope nat_scope.

(** * C60 *)
Theorem C60_encode_complete : forall e is_end cs out r buf, text cs ->
  encode_from_str e (utf8 cs) out is_end = Ret (r, buf) <-> EncodeCall e cs out is_end r buf.
Proof.
  intros e ie cs out r buf Ht. split; [apply encode_sound, Ht|]. intros H.
  destruct (encode_total e ie cs out Ht) as (r' & buf' & E). rewrite E.
  destruct (EncodeCall_unique e ie cs out r buf r' buf' Ht H) as [-> ->]; [apply encode_sound; assumption|reflexivity].
Qed.

Theorem C60_decode_complete : forall e is_end bs out r buf, bytes bs ->
  decode_to_str e bs out is_end = Ret (r, buf) <-> DecodeCall e bs out is_end r buf.
Proof.
  intros e ie bs out r buf Hb. split; [apply decode_sound, Hb|]. intros H.
  destruct (decode_total e ie bs out Hb) as (r' & buf' & E). rewrite E.
  destruct (DecodeCall_unique e ie bs out r buf r' buf' Hb H) as [-> ->]; [apply decode_sound; assumption|reflexivity].
Qed.

(* the specification allows exactly one outcome of every call *)
Theorem C60_encode_one_outcome : forall e is_end cs out, text cs ->
  exists r buf, EncodeCall e cs out is_end r buf /\ forall r' buf', EncodeCall e cs out is_end r' buf' -> r' = r /\ buf' = buf.
Proof.
  intros e ie cs out Ht. destruct (encode_total e ie cs out Ht) as (r & buf & E). exists r, buf.
  pose proof (encode_sound _ _ _ _ _ _ Ht E) as S. split; [exact S|]. intros r' buf' S'. exact (EncodeCall_unique _ _ _ _ _ _ _ _ Ht S' S).
Qed.

Theorem C60_decode_one_outcome : forall e is_end bs out, bytes bs ->
  exists r buf, DecodeCall e bs out is_end r buf /\ forall r' buf', DecodeCall e bs out is_end r' buf' -> r' = r /\ buf' = buf.
Proof.
  intros e ie bs out Hb. destruct (decode_total e ie bs out Hb) as (r & buf & E). exists r, buf.
  pose proof (decode_sound _ _ _ _ _ _ Hb E) as S. split; [exact S|]. intros r' buf' S'. exact (DecodeCall_unique _ _ _ _ _ _ _ _ Hb S' S).
Qed.

(* A, E circumflex: the second letter waits for a combining mark unless the text ends here *)
Example C60_example_wait : EncodeCall Big5WHATWG [0x41; 0xCA]%N [1; 2; 3; 4]%N false (Ok ([0x41]%N, 1)) [0x41; 2; 3; 4]%N.
Proof. apply C60_encode_complete; [repeat constructor; unfold scalar; lia|]. vm_compute. reflexivity. Qed.

Example C60_example_end : EncodeCall Big5WHATWG [0x41; 0xCA]%N [1; 2; 3; 4]%N true (Ok ([0x41; 0x88; 0x66]%N, 3)) [0x41; 0x88; 0x66; 4]%N.
Proof. apply C60_encode_complete; [repeat constructor; unfold scalar; lia|]. vm_compute. reflexivity. Qed.

Example C60_example_error : EncodeCall ShiftJISWHATWG [0x41; 0x1F600]%N [1; 2; 3]%N true (Err (EncodeError 0x1F600%N (1, 5) 1)) [0x41; 2; 3]%N.
Proof. apply C60_encode_complete; [repeat constructor; unfold scalar; lia|]. vm_compute. reflexivity. Qed.

Example C60_example_no_room : EncodeCall ShiftJISWHATWG [0x41; 0x1F600]%N [1; 2]%N true (Ok ([0x41]%N, 1)) [0x41; 2]%N.
Proof. apply C60_encode_complete; [repeat constructor; unfold scalar; lia|]. vm_compute. reflexivity. Qed.

Example C60_example_decode : DecodeCall Utf8 [0x41; 0xFF; 0x80; 0x42]%N [1; 2]%N false (Err (DecodeError InvalidData (1, 3) 1)) [0x41; 2]%N.
Proof. apply C60_decode_complete; [repeat constructor|]. vm_compute. reflexivity. Qed.

(* checked against the specification by hand, without the code *)
Example C60_example_by_hand : EncodeCall Utf16BE [0x41; 0x1F600]%N [1; 2; 3; 4; 5]%N true (Ok ([0; 0x41]%N, 1)) [0; 0x41; 3; 4; 5]%N.
Proof.
  assert (A : forall c, scalar c -> EncUnit Utf16BE [c] (utf16_char true c)) by (intros c Hc; exists c; auto).
  assert (L : forall (c : N) txt, settled Utf16BE true [c] txt).
  { intros c txt. split; [|discriminate]. intros u' w' (c' & _ & -> & _) _. apply le_n. }
  apply (encode_call Utf16BE [0x41; 0x1F600]%N [1; 2; 3; 4; 5]%N true [0x41]%N [0; 0x41]%N [0x1F600]%N); [reflexivity| |cbn; lia|].
  - apply (Taken_unit _ _ [0x41]%N [0; 0x41]%N [] [] _); [apply (A 0x41%N); unfold scalar; lia|apply L|constructor].
  - apply (stop_full Utf16BE true 5 [0x41]%N [0; 0x41]%N [0x1F600]%N (utf16_char true 0x1F600) []); [apply A; unfold scalar; lia|apply L|vm_compute; lia].
Qed.

Definition complete_theorems := (C60_encode_complete, C60_decode_complete, C60_encode_one_outcome, C60_decode_one_outcome).
Print Assumptions complete_theorems.
