(* Error recovery in UTF-8 and in data that arrives piece by piece. *)
From Coq Require Import List NArith Arith Bool Lia.
From Verif Require Import Encodings Spec SpecErrors SpecWhatwg SpecRecover Prelude RustCore Types ModelApi Session.
From Verif Require Import Tac Engine NextUtf8 Units Decide Greedy ProofUtf8 ProofApi ProofSession ProofWhatwg ProofRecover.
Import ListNotations.
Local Open Scope nat_scope.

(** * C49: what error recovery in UTF-8 yields *)

(* whatever buffers the client uses *)
Theorem C49_utf8_recovery : forall bs s, bytes bs -> Recovered Utf8 bs s -> exists cs, Utf8Replaced bs cs /\ s = utf8 cs.
Proof.
  intros bs s Hb H. destruct (recovered_reads Utf8 bs s H Hb) as (cs & -> & HR). exists cs. split; [|reflexivity].
  apply reads_replaced; assumption.
Qed.

(* and this determines the text *)
Theorem C49_utf8_replacement_unique : forall bs, bytes bs -> exists! cs, Utf8Replaced bs cs.
Proof.
  intros bs Hb. destruct (Reads_total Utf8 bs Hb) as (cs & H). exists cs. split; [apply reads_replaced; assumption|].
  intros cs' H'. apply (replaced_reads bs cs' Hb) in H'. exact (Reads_det _ _ _ _ H H').
Qed.

(* with buffers of 4 bytes or more the client gets there, one call per input byte being enough *)
Theorem C49_utf8_recovery_loop : forall bs outs cs, bytes bs -> Utf8Replaced bs cs ->
  Forall (fun out => 4 <= length out) outs -> length bs <= length outs ->
  recover_loop Utf8 bs outs = (utf8 cs, []).
Proof.
  intros bs outs cs Hb Hcs Ho Hl. destruct (recover_loop_done Utf8 outs bs Hb Ho Hl) as [E R].
  destruct (recovered_reads _ _ _ R Hb) as (cs' & Es & HR). apply (replaced_reads bs cs Hb) in Hcs.
  rewrite (Reads_det _ _ _ _ HR Hcs) in Es. destruct (recover_loop Utf8 bs outs) as [em r]. cbn [fst snd] in *. congruence.
Qed.

(* a surrogate code, an overlong form, text, a stray byte, and a cut-off sequence that hides the letter behind it *)
Example C49_example : recover_loop Utf8 [0xED; 0xA0; 0x80; 0xC0; 0x80; 0xC3; 0xA9; 0xFF; 0x41; 0xE3; 0x42]%N (repeat (repeat 0%N 4) 11)
  = (utf8 [0xFFFD; 0xFFFD; 0xE9; 0xFFFD; 0x41; 0xFFFD]%N, []).
Proof. vm_compute. reflexivity. Qed.

(** * C50: UTF-8 recovery compared with the Encoding Standard *)

(* up to the number of U+FFFD in a row, the text is the one the standard's decoder yields, except that a cut-off code
   sequence at the end makes everything behind it one error *)
Theorem C50_utf8_recovery_near_whatwg : forall bs s, bytes bs -> Recovered Utf8 bs s ->
  exists pre tail cs, bs = pre ++ tail /\ squeeze cs = squeeze (whatwg_utf8 pre) /\
    ((tail = [] /\ s = utf8 cs) \/ (Undecodable Utf8 tail /\ Incomplete Utf8 tail /\ s = utf8 (cs ++ [replacement]))).
Proof.
  intros bs s Hb H. destruct (C49_utf8_recovery bs s Hb H) as (cs & Hcs & ->).
  destruct (replaced_whatwg bs cs Hb Hcs) as (pre & t & cs1 & -> & E & X). exists pre, t, cs1. split; [reflexivity|]. split; [exact E|].
  destruct X as [(-> & ->)|(X1 & X2 & ->)]; [left|right]; auto.
Qed.

(* so if no such tail exists, the texts agree up to the number of U+FFFD in a row *)
Theorem C50_utf8_recovery_whatwg_if_not_cut : forall bs s, bytes bs -> Recovered Utf8 bs s ->
  (forall pre tail, bs = pre ++ tail -> Incomplete Utf8 tail -> ~ Undecodable Utf8 tail) ->
  exists cs, s = utf8 cs /\ squeeze cs = squeeze (whatwg_utf8 bs).
Proof.
  intros bs s Hb H Hno. destruct (C50_utf8_recovery_near_whatwg bs s Hb H) as (pre & t & cs & -> & E & [(-> & ->)|(X1 & X2 & _)]).
  - exists cs. rewrite app_nil_r. auto.
  - exfalso. exact (Hno pre t eq_refl X2 X1).
Qed.

(* for well-formed data both are the text itself *)
Theorem C50_whatwg_utf8_decodes : forall cs, text cs -> whatwg_utf8 (utf8 cs) = cs.
Proof.
  intros cs H. induction H as [|c cs Hc Hcs IH]; [reflexivity|]. rewrite utf8_cons. rewrite (W_char c _ Hc). unfold W. rewrite IH. reflexivity.
Qed.

(* the number of U+FFFD really differs, and the text behind a cut-off sequence really gets lost *)
Theorem C50_utf8_recovery_is_whatwg_refuted : exists bs s, bytes bs /\ Recovered Utf8 bs s /\ s <> utf8 (whatwg_utf8 bs) /\
  exists bs' s' cs', bytes bs' /\ Recovered Utf8 bs' s' /\ s' = utf8 cs' /\ squeeze cs' <> squeeze (whatwg_utf8 bs').
Proof.
  exists [0x80; 0x80]%N, (utf8_char 0xFFFD). split; [repeat constructor|]. split; [|split; [vm_compute; discriminate|]].
  - apply (rec_err Utf8 _ [0%N] (DecodeError InvalidData (0, 2) 0) [0%N] []); [vm_compute; reflexivity|]. constructor.
  - exists [0xE3; 0x41]%N, (utf8_char 0xFFFD), [0xFFFD]%N. split; [repeat constructor|].
    split; [|split; [vm_compute; reflexivity|vm_compute; discriminate]].
    apply (rec_err Utf8 _ [0%N] (DecodeError InvalidData (0, 2) 0) [0%N] []); [vm_compute; reflexivity|]. constructor.
Qed.

Example C50_example : whatwg_utf8 [0xED; 0xA0; 0x80; 0xC3; 0xA9; 0xE3; 0x81; 0x41]%N = [0xFFFD; 0xFFFD; 0xFFFD; 0xE9; 0xFFFD; 0x41]%N /\
  recover_loop Utf8 [0xED; 0xA0; 0x80; 0xC3; 0xA9; 0xE3; 0x81; 0x41]%N (repeat (repeat 0%N 4) 8) = (utf8 [0xFFFD; 0xE9; 0xFFFD; 0x41]%N, []).
Proof. split; vm_compute; reflexivity. Qed.

(** * C51: error recovery while data is still arriving *)

(* However the data is split and whatever buffers are used: the text is the standard decoder's *)
Theorem C51_streaming_recovery : forall e fed em, e <> Utf8 -> RecSession e fed true (length fed) em ->
  em = utf8 (replacement_decode e fed).
Proof.
  intros e fed em He H. destruct (stream_reads_done e fed em H) as (Hb & cs & all & -> & _ & HR & _ & X). rewrite <- (X He).
  rewrite (reads_follows _ _ _ _ (replacement_follows e He) Hb HR). reflexivity.
Qed.

(* for UTF-8, up to the number of U+FFFD in a row, it is the text obtained from the data as a whole *)
Theorem C51_streaming_recovery_utf8 : forall fed em, RecSession Utf8 fed true (length fed) em ->
  exists cs whole, text cs /\ em = utf8 cs /\ Utf8Replaced fed whole /\ squeeze cs = squeeze whole.
Proof.
  intros fed em H. destruct (stream_reads_done Utf8 fed em H) as (Hb & cs & all & -> & Ht & HR & Hq & _). exists cs, all.
  split; [exact Ht|]. split; [reflexivity|]. split; [apply reads_replaced; assumption|]. symmetry. exact Hq.
Qed.

(* it can indeed depend on how the data arrives: two stray bytes at once or one by one *)
Theorem C51_streaming_recovery_utf8_exact_refuted : exists fed em em',
  RecSession Utf8 fed true (length fed) em /\ RecSession Utf8 fed true (length fed) em' /\ em <> em'.
Proof.
  exists ([] ++ [0x80; 0x80])%N, ([] ++ firstn 0 [0] ++ utf8_char 0xFFFD)%N,
    (([] ++ firstn 0 [0] ++ utf8_char 0xFFFD) ++ firstn 0 [0] ++ utf8_char 0xFFFD)%N. split; [|split; [|vm_compute; discriminate]].
  - apply (rs_err Utf8 _ _ 0 _ [0%N] (DecodeError InvalidData (0, 2) 0) [0%N]); [|vm_compute; reflexivity].
    apply rs_finish, rs_feed; [constructor|repeat constructor].
  - change (([] ++ [0x80; 0x80])%N) with (([] ++ [0x80]) ++ [0x80])%N.
    apply (rs_err Utf8 _ _ 1 _ [0%N] (DecodeError InvalidData (0, 1) 0) [0%N]); [|vm_compute; reflexivity].
    apply rs_finish, rs_feed; [|repeat constructor].
    apply (rs_err Utf8 _ _ 0 _ [0%N] (DecodeError InvalidData (0, 1) 0) [0%N]); [|vm_compute; reflexivity].
    apply rs_feed; [constructor|repeat constructor].
Qed.

(* a session that meets an error in the middle of the stream and one at the end: Big5 [A4] [51 80 A4] end *)
Example C51_example : RecSession Big5WHATWG [0xA4; 0x51; 0x80; 0xA4]%N true 4 (utf8 [0x5341; 0xFFFD; 0xFFFD]%N).
Proof.
  change (utf8 [0x5341; 0xFFFD; 0xFFFD]%N) with (((([] ++ []) ++ utf8 [0x5341] ++ utf8_char 0xFFFD)%N ++ []) ++ firstn 0 [0;0;0;0] ++ utf8_char 0xFFFD)%N.
  apply (rs_err Big5WHATWG _ _ 3 _ [0;0;0;0]%N (DecodeError InvalidData (0, 1) 0) [0;0;0;0]%N); [|vm_compute; reflexivity].
  apply rs_finish. apply (rs_ok Big5WHATWG _ _ 3 _ [0;0;0;0]%N _ 0 [0;0;0;0]%N); [|vm_compute; reflexivity].
  apply (rs_err Big5WHATWG _ _ 0 _ [0;0;0;0]%N (DecodeError InvalidData (2, 3) 3) [0xE5;0x8D;0x81;0]%N); [|vm_compute; reflexivity].
  change [0xA4; 0x51; 0x80; 0xA4]%N with (([] ++ [0xA4]) ++ [0x51; 0x80; 0xA4])%N. apply rs_feed; [|repeat constructor].
  apply (rs_ok Big5WHATWG _ _ 0 _ [0;0;0;0]%N _ 0 [0;0;0;0]%N); [|vm_compute; reflexivity]. apply rs_feed; [constructor|repeat constructor].
Qed.

Definition recover_theorems := (C49_utf8_recovery, C49_utf8_replacement_unique, C49_utf8_recovery_loop, C50_utf8_recovery_near_whatwg,
  C50_utf8_recovery_whatwg_if_not_cut, C50_whatwg_utf8_decodes, C50_utf8_recovery_is_whatwg_refuted, C51_streaming_recovery,
  C51_streaming_recovery_utf8, C51_streaming_recovery_utf8_exact_refuted).
Print Assumptions recover_theorems.
