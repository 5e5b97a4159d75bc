(* C71: how often the loops of a call run: as the size of the buffer allows, whatever the length of the input. *)
From Coq Require Import List NArith Arith Bool Lia.
From Verif Require Import Encodings Prelude RustCore Types ModelApi ModelWord.
From Verif Require Import RustSyntax RustEval RustProgram SourceCrate SourceAst SourceApi.
From Verif Require Import Tac ProofUtf8 ProofApi ProofWord ProofSrc ProofSrcAll ProofIter ProofIterMore ProofLook PropSpec PropSource.
From Verif Require Import Spec SpecCalls.
Import ListNotations.
Local Open Scope N_scope.

(* the number of iterations that is enough for each loop, for a buffer of n bytes *)
Definition encode_iterations (e : encoding) (n : nat) : nat :=
  match e with
  | Utf8 => 4
  | Utf16BE | Utf16LE => Nat.max 4 (n / 2 + 1)
  | Utf32BE | Utf32LE => Nat.max 4 (n / 4 + 1)
  | _ => Nat.max 4 (n + 1)
  end.

(* the function in the source, run with at most fuel iterations of each loop *)
Theorem C71_encode_iterations : forall max e is_end cs out fuel depth, 65535 <= max -> text cs ->
  N.of_nat (length (utf8 cs)) <= max / 2 -> N.of_nat (length out) <= max / 2 ->
  (encode_iterations e (length out) <= fuel)%nat -> (60 <= depth)%nat ->
  exists r buf, source_encode max (text_encoding max) fuel depth e (utf8 cs) out is_end = Ret (r, buf) /\ EncodeCall e cs out is_end r buf.
Proof.
  intros max e ie cs out fuel depth M T Li Lo F D. rewrite source_ok.
  destruct (encode_total e ie cs out T) as (r & buf & E). exists r, buf. split; [|apply C60_encode_complete; assumption].
  destruct (encode_buffer e) as [t B].
  replace depth with (60 + (depth - 60))%nat by lia.
  eapply observe_ok; [exact (encode_found max e) | exact B | apply read_encode_ok |].
  apply (encode_call_within max fuel (depth - 60) e (utf8 cs) out ie (r, buf) M).
  - unfold encode_iterations in F. destruct e; try (apply encode_bounded; [exact T|cbn [least]; lia|lia]). apply encode_bounded8; assumption.
  - intros itr I. unfold char_indices in I. rewrite (char_indices_offsets cs T) in I. apply Ret_inj in I. subst.
    clear - T. unfold scalar_items. generalize 0%nat. induction T as [|c cs H _ IH]; intros off; cbn [offsets]; constructor; [|apply IH].
    cbn. unfold scalar in H. lia.
  - rewrite encode_word_same; [exact E|assumption|assumption|lia|lia].
Qed.
(* the same for decoders, other than that of UTF-8 *)
Theorem C71_decode_iterations : forall max e is_end bs out fuel depth, 65535 <= max -> bytes bs ->
  N.of_nat (length bs) <= max / 2 -> N.of_nat (length out) <= max / 2 ->
  e <> Utf8 -> (length out < fuel)%nat -> (60 <= depth)%nat ->
  exists r buf, source_decode max (text_encoding max) fuel depth e bs out is_end = Ret (r, buf) /\ DecodeCall e bs out is_end r buf.
Proof.
  intros max e ie bs out fuel depth M T Li Lo U F D. rewrite source_ok.
  destruct (decode_total e ie bs out T) as (r & buf & E). exists r, buf. split; [|apply C60_decode_complete; assumption].
  destruct (decode_buffer e) as [t B].
  replace depth with (60 + (depth - 60))%nat by lia.
  eapply observe_ok; [exact (decode_found max e) | exact B | apply read_decode_ok |].
  apply (decode_call_within max fuel (depth - 60) e bs out ie (r, buf) M).
  - apply decode_bounded; assumption.
  - exact T.
  - rewrite decode_word_same; [exact E|assumption|assumption|lia|lia].
Qed.
(* the decoder of UTF-8 takes an iteration for each byte of the error that it reports, and otherwise four at most *)
Theorem C71_utf8_decode_iterations : forall max is_end bs out fuel depth r buf, 65535 <= max -> bytes bs ->
  N.of_nat (length bs) <= max / 2 -> N.of_nat (length out) <= max / 2 ->
  DecodeCall Utf8 bs out is_end r buf ->
  (forall cause a b n, r = Err (DecodeError cause (a, b) n) -> (b - a <= fuel)%nat) -> (4 <= fuel)%nat -> (60 <= depth)%nat ->
  source_decode max (text_encoding max) fuel depth Utf8 bs out is_end = Ret (r, buf).
Proof.
  intros max ie bs out fuel depth r buf M T Li Lo C R F D. rewrite source_ok. apply C60_decode_complete in C; [|exact T].
  destruct (decode_buffer Utf8) as [t B].
  replace depth with (60 + (depth - 60))%nat by lia.
  assert (W : decode_word max Utf8 bs out ie = Ret (r, buf)) by (rewrite decode_word_same; [exact C|assumption|assumption|lia|lia]).
  eapply observe_ok; [exact (decode_found max Utf8) | exact B | apply read_decode_ok |].
  apply (decode_call_within max fuel (depth - 60) Utf8 bs out ie (r, buf) M).
  - apply decode_utf8_bounded; assumption.
  - exact T.
  - exact W.
Qed.

(** * The numbers are the least *)

Definition is_diverge {A} (o : outcome A) : bool := match o with Diverge => true | _ => false end.
Lemma diverges {A} (o : outcome A) : is_diverge o = true -> o = Diverge.
Proof. destruct o; [discriminate|discriminate|discriminate|reflexivity]. Qed.

(* with one iteration less there are calls that do not end, for each of the encodings *)
Theorem C71_encode_iterations_needed : forall e, exists cs out, text cs /\
  source_encode 65535 (text_encoding 65535) (encode_iterations e (length out) - 1) 60 e (utf8 cs) out true = Diverge.
Proof.
  intros e. rewrite source_ok. exists (match e with Utf8 => [0x1F600] | _ => repeat 65 17 end), (match e with Utf8 => repeat 0 3 | _ => repeat 0 16 end). split.
  - assert (T : text (repeat 65 17)) by (apply Forall_forall; intros c Hc; apply repeat_spec in Hc; subst; unfold scalar; lia).
    destruct e; try exact T. constructor; [unfold scalar; lia|constructor].
  - apply diverges. destruct e as [| | | | | | |m]; [..|destruct m]; vm_compute; reflexivity.
Qed.
Definition letters (e : encoding) (n : nat) : list N :=
  match e with
  | Utf16BE => concat (repeat [0; 65] n) | Utf16LE => concat (repeat [65; 0] n)
  | Utf32BE => concat (repeat [0; 0; 0; 65] n) | Utf32LE => concat (repeat [65; 0; 0; 0] n)
  | _ => repeat 65 n
  end.
Theorem C71_decode_iterations_needed : forall e, e <> Utf8 -> exists bs out, bytes bs /\
  source_decode 65535 (text_encoding 65535) (length out) 60 e bs out true = Diverge.
Proof.
  intros e U. rewrite source_ok. exists (letters e 9), (repeat 0 8). split.
  - apply Forall_forall. intros b Hb. assert (B : b = 0 \/ b = 65).
    { destruct e; unfold letters in Hb; try (apply repeat_spec in Hb; auto);
      apply in_concat in Hb; destruct Hb as (l & Hl & Hb); apply repeat_spec in Hl; subst l; cbn [In] in Hb; intuition. }
    destruct B; subst; lia.
  - apply diverges. destruct e as [| | | | | | |m]; [contradiction|..|destruct m]; vm_compute; reflexivity.
Qed.
(* the decoder of UTF-8 does not end with fewer iterations than the error has bytes *)
Theorem C71_utf8_decode_iterations_needed : forall max is_end bs out fuel depth cause a b n buf, 65535 <= max -> bytes bs ->
  N.of_nat (length bs) <= max / 2 -> N.of_nat (length out) <= max / 2 ->
  DecodeCall Utf8 bs out is_end (Err (DecodeError cause (a, b) n)) buf ->
  (4 <= fuel < b - a)%nat -> (60 <= depth)%nat ->
  source_decode max (text_encoding max) fuel depth Utf8 bs out is_end = Diverge.
Proof.
  intros max ie bs out fuel depth cause a b n buf M T Li Lo C F D. rewrite source_ok. apply C60_decode_complete in C; [|exact T].
  assert (W : decode_word max Utf8 bs out ie = Ret (Err (DecodeError cause (a, b) n), buf)) by (rewrite decode_word_same; [exact C|assumption|assumption|lia|lia]).
  unfold source_decode, observe. rewrite (decode_found max Utf8).
  replace depth with (40 + (depth - 40))%nat by lia.
  apply bind_diverges. apply (utf8_decode_diverges max fuel (depth - 40) bs ie out cause a b n buf M); [|exact F|exact W].
  apply copy_within_valid; [exact T|lia].
Qed.
(* so the size of the buffer is no bound *)
Theorem C71_utf8_decode_iterations_unbounded : forall fuel, (4 <= fuel)%nat -> exists max bs, 65535 <= max /\ bytes bs /\
  N.of_nat (length bs) <= max / 2 /\
  source_decode max (text_encoding max) fuel 60 Utf8 bs [0] true = Diverge.
Proof.
  intros fuel F.
  assert (T : bytes (0xFF :: repeat 0x80 fuel)).
  { constructor; [lia|]. apply Forall_forall. intros b Hb. apply repeat_spec in Hb. subst. lia. }
  assert (X : N.of_nat (length (0xFF :: repeat 0x80 fuel)) <= 2 * (N.of_nat fuel + 65535) / 2).
  { rewrite N.mul_comm, N.div_mul by discriminate. cbn [length]. rewrite repeat_length. lia. }
  exists (2 * (N.of_nat fuel + 65535)), (0xFF :: repeat 0x80 fuel).
  split; [lia|]. split; [exact T|]. split; [exact X|].
  pose proof (utf8_long_error fuel [] [0] ltac:(constructor) (le_n 1)) as E. rewrite app_nil_r in E. apply C60_decode_complete in E; [|exact T].
  assert (M : 65535 <= 2 * (N.of_nat fuel + 65535)) by lia.
  refine (C71_utf8_decode_iterations_needed _ _ _ _ _ _ _ _ _ _ _ M T X _ E _ (le_n 60)).
  - rewrite N.mul_comm, N.div_mul by discriminate. cbn [length]. lia.
  - cbn. lia.
Qed.

(** * Cases *)

(* a buffer of 4 bytes: 5 iterations are enough for any text, here one of 1000 characters *)
Example first_four : exists buf, source_encode 65535 (text_encoding 65535) 5 60 (Single ascii) (utf8 (repeat 65 1000)) [0; 0; 0; 0] true = Ret (Ok ([65; 65; 65; 65], 4%nat), buf).
Proof. exists [65; 65; 65; 65]. rewrite source_ok. vm_compute. reflexivity. Qed.

Definition iteration_theorems := (C71_encode_iterations, C71_decode_iterations, C71_utf8_decode_iterations,
  C71_encode_iterations_needed, C71_decode_iterations_needed, C71_utf8_decode_iterations_needed, C71_utf8_decode_iterations_unbounded).
Print Assumptions iteration_theorems.
