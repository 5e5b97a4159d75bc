(* The example program /repo/examples/wrapper.rs, read and run as a program that uses the crate (SourceWrapper.v). *)
From Coq Require Import List NArith Arith Bool Lia.
From Verif Require Import Encodings Spec SpecCalls Prelude RustCore Types ModelApi ModelWord.
From Verif Require Import RustSyntax RustEval RustProgram SourceCrate SourceAst SourceApi SourceWrapper.
From Verif Require Import Spec Tac ProofUtf8 ProofApi ProofWord ProofSrc ProofSrcAll ProofSrcWrap PropSpec.
Import ListNotations.
Local Open Scope N_scope.

(** * C67 *)

(* fuel, depth, max: as for C66 *)
Theorem C67_wrapper_encode : forall max e is_end cs out fuel depth, 65535 <= max -> text cs ->
  N.of_nat (length (utf8 cs)) <= max / 2 -> N.of_nat (length out) <= max / 2 ->
  (length (utf8 cs) < fuel)%nat -> (63 <= depth)%nat ->
  wrapper_encode max (wrapper max) fuel depth e (utf8 cs) out is_end = encode_from_str e (utf8 cs) out is_end.
Proof.
  intros max e ie cs out fuel depth M T Li Lo F D. rewrite wrapper_ok.
  destruct (encode_total e ie cs out T) as (r & buf & E). rewrite E.
  replace depth with (63 + (depth - 63))%nat by lia.
  eapply observe_ok; [exact (proj1 (proj2 (main_names max))) | reflexivity | apply read_encode_ok |].
  apply (wrapper_encode_call max fuel (depth - 63) e (utf8 cs) out ie (r, buf) M F).
  - intros itr I. unfold char_indices in I. rewrite (char_indices_offsets cs T) in I. apply Ret_inj in I. subst.
    clear - T. unfold scalar_items. generalize 0%nat. induction T as [|c cs H _ IH]; intros off; cbn [offsets]; constructor; [|apply IH].
    cbn. unfold scalar in H. lia.
  - rewrite encode_word_same; [exact E|assumption|assumption|lia|lia].
Qed.

Theorem C67_wrapper_decode : forall max e is_end bs out fuel depth, 65535 <= max -> bytes bs ->
  N.of_nat (length bs) <= max / 2 -> N.of_nat (length out) <= max / 2 ->
  (length bs < fuel)%nat -> (63 <= depth)%nat ->
  wrapper_decode max (wrapper max) fuel depth e bs out is_end = decode_to_str e bs out is_end.
Proof.
  intros max e ie bs out fuel depth M T Li Lo F D. rewrite wrapper_ok.
  destruct (decode_total e ie bs out T) as (r & buf & E). rewrite E.
  replace depth with (63 + (depth - 63))%nat by lia.
  eapply observe_ok; [exact (proj2 (proj2 (main_names max))) | reflexivity | apply read_decode_ok |].
  apply (wrapper_decode_call max fuel (depth - 63) e bs out ie (r, buf) M F).
  - exact T.
  - rewrite decode_word_same; [exact E|assumption|assumption|lia|lia].
Qed.

(* without the model: the complete specification of the calls (SpecCalls.v) *)
Theorem C67_wrapper_encode_complete : forall max e is_end cs out fuel depth r buf, 65535 <= max -> text cs ->
  N.of_nat (length (utf8 cs)) <= max / 2 -> N.of_nat (length out) <= max / 2 ->
  (length (utf8 cs) < fuel)%nat -> (63 <= depth)%nat ->
  wrapper_encode max (wrapper max) fuel depth e (utf8 cs) out is_end = Ret (r, buf) <-> EncodeCall e cs out is_end r buf.
Proof. intros. rewrite C67_wrapper_encode by assumption. apply C60_encode_complete. assumption. Qed.

Theorem C67_wrapper_decode_complete : forall max e is_end bs out fuel depth r buf, 65535 <= max -> bytes bs ->
  N.of_nat (length bs) <= max / 2 -> N.of_nat (length out) <= max / 2 ->
  (length bs < fuel)%nat -> (63 <= depth)%nat ->
  wrapper_decode max (wrapper max) fuel depth e bs out is_end = Ret (r, buf) <-> DecodeCall e bs out is_end r buf.
Proof. intros. rewrite C67_wrapper_decode by assumption. apply C60_decode_complete. assumption. Qed.

(* main() runs to its end *)
Theorem C67_wrapper_main : forall max fuel depth, 65535 <= max -> (25 <= fuel)%nat -> (70 <= depth)%nat ->
  runs max (wrapper max) fuel depth.
Proof.
  intros max fuel depth M F D. rewrite wrapper_ok. destruct (main_ok max fuel (depth - 70) M ltac:(lia)) as [r R].
  replace (70 + (depth - 70))%nat with depth in R by lia.
  exists [], w_main, r. split; [exact (proj1 (main_names max))|exact R].
Qed.

(* the yen sign in two of the encodings *)
Example C67_example_yen :
  wrapper_encode 0xFFFFFFFF (wrapper 0xFFFFFFFF) 10 63 ShiftJISWHATWG (utf8 [0xA5]) [7; 7] true = Ret (Ok ([0x5C], 2%nat), [0x5C; 7]) /\
  wrapper_encode 0xFFFFFFFF (wrapper 0xFFFFFFFF) 10 63 (Single iso_8859_1) (utf8 [0xA5]) [7; 7] true = Ret (Ok ([0xA5], 2%nat), [0xA5; 7]).
Proof. rewrite wrapper_ok. split; vm_compute; reflexivity. Qed.
(* with too small a depth, the interpreter gives up *)
Example C67_example_depth : ~ runs 0xFFFF (wrapper 0xFFFF) 25 5.
Proof.
  rewrite wrapper_ok. intros (m & f & r & N & C). rewrite (proj1 (main_names _)) in N.
  assert (E : m = [] /\ f = w_main) by (split; congruence). destruct E as [-> ->]. vm_compute in C. discriminate C.
Qed.

Definition wrapper_theorems := (C67_wrapper_encode, C67_wrapper_decode, C67_wrapper_encode_complete, C67_wrapper_decode_complete,
  C67_wrapper_main).
Print Assumptions wrapper_theorems.
