(* Properties of sequences of calls: streaming, progress, the role of is_end. *)
From Coq Require Import List NArith Arith Bool Lia.
From Verif Require Import Encodings Spec SpecErrors Prelude RustCore Types ModelApi Session ProofApi ProofSession ProofMore ProofRound PropCalls.
From Verif Require Import Engine Greedy Units ProofUtf8.
Import ListNotations.
Local Open Scope nat_scope.

(** * C22: streaming encode *)

(* a session that has processed everything emitted what one call emits *)
Theorem C22_streaming_encode_complete : forall e fed em, EncSession e fed true (length fed) em ->
  forall out, length em <= length out -> exists buf, encode_from_str e fed out true = Ret (Ok (em, length fed), buf).
Proof. exact stream_encode_same. Qed.

(* an error met in a session is the error of the single call on the whole text (known so far, or with anything more to come) *)
Theorem C22_streaming_encode_error : forall e fed ended n em out er buf more out',
  EncSession e fed ended n em -> encode_from_str e (skipn n fed) out ended = Ret (Err er, buf) ->
  text more -> (ended = true -> more = []) -> length em + ee_written er + encode_room e <= length out' ->
  exists buf', encode_from_str e (fed ++ utf8 more) out' true =
     Ret (Err (EncodeError (ee_character er) (n + fst (ee_range er), n + snd (ee_range er)) (length em + ee_written er)), buf') /\
     firstn (length em + ee_written er) buf' = em ++ firstn (ee_written er) buf.
Proof. exact stream_encode_error. Qed.

(* at any time, what has been emitted is the beginning of what a single call on the whole text emits, whatever may follow,
   and no more than that call consumes has been consumed *)
Theorem C22_streaming_encode_prefix : forall e fed ended n em more out' r buf',
  EncSession e fed ended n em -> text more -> (ended = true -> more = []) -> length em <= length out' ->
  encode_from_str e (fed ++ utf8 more) out' true = Ret (r, buf') ->
  match r with
  | Ok (s, k) => prefix em s /\ n <= k
  | Err er => prefix em (firstn (ee_written er) buf') /\ n <= fst (ee_range er)
  end.
Proof.
  intros e fed ended n em more out' r buf' HS Hm Hend Hl H.
  destruct (enc_session_inv _ _ _ _ _ HS) as (pre & rest & Ht & -> & -> & Hs).
  assert (Hs' : esteps (enc_next e true) ((pre ++ rest) ++ more) pre em (rest ++ more)).
  { destruct ended; [|apply esteps_more; assumption]. rewrite (Hend eq_refl), !app_nil_r. exact Hs. }
  assert (Ht' : text ((pre ++ rest) ++ more)) by (apply text_app; auto).
  rewrite <- utf8_app in H. destruct (encode_cases _ _ _ _ _ _ Ht' H) as (p & bs & rest' & E0 & Hs2 & Hl2 & -> & Hc).
  assert (X : prefix em bs /\ length (utf8 pre) <= length (utf8 p)).
  { destruct (esteps_linear _ _ _ _ _ _ _ _ Hs' Hs2) as [(q & d & Hq & -> & ->)|(q & d & Hq & Ep & Ed)].
    - split; [exists d; reflexivity|]. rewrite utf8_app, app_length. lia.
    - destruct (esteps_nonempty _ _ _ _ _ Hq) as [(-> & -> & _)|(k & w & En & [x ->])].
      + rewrite app_nil_r in *. subst. split; [exists []; rewrite app_nil_r; reflexivity|lia].
      + rewrite En in Hc. rewrite Ed, !app_length in Hl. destruct Hc as [(_ & Hc)|(? & ? & _ & X & _)]; [lia|discriminate X]. }
  destruct Hc as [(-> & _)|(c & r' & _ & _ & _ & ->)]; [exact X|]. cbn [ee_written ee_range fst]. rewrite frame_prefix. exact X.
Qed.

(* U+00CA at the end of a chunk, the combining mark in the next one; a small buffer in between *)
Example C22_example : EncSession Big5WHATWG (utf8 [0x41; 0xCA; 0x304]%N) true 5 [0x41; 0x88; 0x62]%N.
Proof.
  change [0x41; 0x88; 0x62]%N with (([] ++ [0x41]%N) ++ [0x88; 0x62]%N).
  apply (enc_call Big5WHATWG _ true 1 _ buf2 [0x88; 0x62]%N 4 [0x88; 0x62]%N); [|vm_compute; reflexivity].
  apply enc_finish. change (utf8 [0x41; 0xCA; 0x304]%N) with (utf8 [0x41; 0xCA]%N ++ utf8 [0x304]%N).
  apply enc_feed; [|repeat constructor; unfold scalar; lia].
  apply (enc_call Big5WHATWG _ false 0 [] buf2 [0x41]%N 1 [0x41; 202]%N); [|vm_compute; reflexivity].
  apply (enc_feed Big5WHATWG [0x41; 0xCA]%N []); [apply enc_start|repeat constructor; unfold scalar; lia].
Qed.

(** * C23: streaming decode *)

Theorem C23_streaming_decode_complete : forall e fed em, DecSession e fed true (length fed) em ->
  forall out, length em <= length out -> exists buf, decode_to_str e fed out true = Ret (Ok (em, length fed), buf).
Proof. exact stream_decode_same. Qed.

(* same position, same text before it; the same extent too, except that UTF-8 chunks may cut a run of invalid bytes *)
Theorem C23_streaming_decode_error : forall e fed ended n em out er buf more out',
  DecSession e fed ended n em -> decode_to_str e (skipn n fed) out ended = Ret (Err er, buf) ->
  bytes more -> (ended = true -> more = []) -> length em + de_written er + decode_room e <= length out' ->
  exists b buf', decode_to_str e (fed ++ more) out' true =
     Ret (Err (DecodeError InvalidData (n + fst (de_range er), b) (length em + de_written er)), buf') /\
     firstn (length em + de_written er) buf' = em ++ firstn (de_written er) buf /\
     ((e <> Utf8 \/ ended = true) -> b = n + snd (de_range er)).
Proof. exact stream_decode_error. Qed.

Theorem C23_streaming_decode_prefix : forall e fed ended n em more out' r buf',
  DecSession e fed ended n em -> bytes more -> (ended = true -> more = []) -> length em <= length out' ->
  decode_to_str e (fed ++ more) out' true = Ret (r, buf') ->
  match r with
  | Ok (s, k) => prefix em s /\ n <= k
  | Err er => prefix em (firstn (de_written er) buf') /\ n <= fst (de_range er)
  end.
Proof.
  intros e fed ended n em more out' r buf' HS Hm Hend Hl H.
  destruct (dec_session_inv _ _ _ _ _ HS) as (pre & rest & cs & Hb & -> & -> & -> & Hs).
  pose proof (dsteps_more e ended true _ _ _ _ more Hb Hs) as Hs'.
  assert (Hb' : bytes ((pre ++ rest) ++ more)) by (apply bytes_app; auto).
  destruct (decode_cases _ _ _ _ _ _ Hb' H) as (p & cs2 & rest' & E0 & Hs2 & Hl2 & -> & Hc).
  assert (X : prefix (utf8 cs) (utf8 cs2) /\ length pre <= length p).
  { destruct (dsteps_linear _ _ _ _ _ _ _ _ Hs' Hs2) as [(q & d & Hq & -> & ->)|(q & d & Hq & Ep & Ed)].
    - split; [rewrite utf8_app; eexists; reflexivity|]. rewrite app_length. lia.
    - inversion Hq as [|? k u q' d' ? En Hq']; subst q d.
      + rewrite app_nil_r in *. subst. split; [exists []; rewrite app_nil_r; reflexivity|lia].
      + rewrite En in Hc. rewrite Ed, !utf8_app, !app_length in Hl. destruct Hc as [(_ & Hc)|(? & X & _)]; [lia|discriminate X]. }
  destruct Hc as [(-> & _)|(m & _ & _ & ->)]; [exact X|]. cbn [de_written de_range fst]. rewrite frame_prefix. exact X.
Qed.

(* a surrogate pair cut after its third byte *)
Example C23_example : DecSession Utf16LE [0x3D; 0xD8; 0x00; 0xDE]%N true 4 (utf8 [0x1F600]%N).
Proof.
  change (utf8 [0x1F600]%N) with (([] ++ []) ++ utf8 [0x1F600]%N).
  apply (dec_call Utf16LE _ true 0 _ buf8 (utf8 [0x1F600]%N) 4 (frame (utf8 [0x1F600]%N) buf8)); [|vm_compute; reflexivity].
  apply dec_finish. change [0x3D; 0xD8; 0x00; 0xDE]%N with ([0x3D; 0xD8; 0x00]%N ++ [0xDE]%N).
  apply dec_feed; [|repeat constructor; lia].
  apply (dec_call Utf16LE _ false 0 [] buf8 [] 0 buf8); [|vm_compute; reflexivity].
  apply (dec_feed Utf16LE [0x3D; 0xD8; 0x00]%N []); [apply dec_start|repeat constructor; lia].
Qed.

(* the exception for UTF-8 is real *)
Theorem C23_utf8_error_end_depends_on_chunking_refuted : exists fed n em out er buf more out' er' buf',
  DecSession Utf8 fed false n em /\ decode_to_str Utf8 (skipn n fed) out false = Ret (Err er, buf) /\ bytes more /\
  decode_to_str Utf8 (fed ++ more) out' true = Ret (Err er', buf') /\ snd (de_range er') <> n + snd (de_range er).
Proof.
  exists [0x80%N], 0, [], buf8, (DecodeError InvalidData (0, 1) 0), buf8, [0x80%N], buf8, (DecodeError InvalidData (0, 2) 0), buf8.
  split; [apply (dec_feed Utf8 [0x80%N] []); [apply dec_start|repeat constructor; lia]|].
  split; [vm_compute; reflexivity|]. split; [repeat constructor; lia|]. split; [vm_compute; reflexivity|]. cbn. lia.
Qed.

(** * C24: progress and the documented loop *)

Theorem C24_encode_progress : forall e is_end cs out s n buf, text cs -> cs <> [] -> 4 <= length out ->
  encode_from_str e (utf8 cs) out is_end = Ret (Ok (s, n), buf) ->
  1 <= n \/ (is_end = false /\ e = Big5WHATWG /\ (cs = [0xCA%N] \/ cs = [0xEA%N])).
Proof. exact encode_progress. Qed.

Theorem C24_decode_progress : forall e is_end bs out s n buf, bytes bs -> bs <> [] -> 4 <= length out ->
  decode_to_str e bs out is_end = Ret (Ok (s, n), buf) ->
  1 <= n \/ (is_end = false /\ Undecodable e bs /\ Incomplete e bs).
Proof. exact decode_progress. Qed.

(* the loop ends after at most as many calls as there are input bytes, with the result of a single call *)
Theorem C24_encode_loop_terminates : forall e outs cs big, text cs -> Forall (fun out => 4 <= length out) outs ->
  length (utf8 cs) <= length outs -> 4 * length cs + 2 <= length big ->
  match encode_loop e (utf8 cs) outs with
  | (em, inl rest) => rest = [] /\ exists buf, encode_from_str e (utf8 cs) big true = Ret (Ok (em, length (utf8 cs)), buf)
  | (em, inr er) => exists a b buf, encode_from_str e (utf8 cs) big true = Ret (Err (EncodeError (ee_character er) (a, b) (length em)), buf) /\
      firstn (length em) buf = em /\ b - a = snd (ee_range er) - fst (ee_range er)
  end.
Proof. exact encode_loop_oneshot. Qed.

Theorem C24_decode_loop_terminates : forall e outs bs big, bytes bs -> Forall (fun out => 4 <= length out) outs ->
  length bs <= length outs -> 3 * length bs + 1 <= length big ->
  match decode_loop e bs outs with
  | (em, inl rest) => rest = [] /\ exists buf, decode_to_str e bs big true = Ret (Ok (em, length bs), buf)
  | (em, inr er) => exists a b buf, decode_to_str e bs big true = Ret (Err (DecodeError InvalidData (a, b) (length em)), buf) /\
      firstn (length em) buf = em /\ b - a = snd (de_range er) - fst (de_range er)
  end.
Proof. exact decode_loop_oneshot. Qed.

Example C24_example : encode_loop Utf16BE (utf8 hello) (repeat (firstn 4 buf8) 10)
  = ([0; 0x68; 0; 0xE9; 0x4E; 0; 0xD8; 0x3D; 0xDE; 0]%N, inl []) /\
  decode_loop ShiftJISWHATWG [0x88; 0x9F; 0x41; 0xFF; 0x41]%N (repeat (firstn 4 buf8) 5)
  = (utf8 [0x4E9C; 0x41]%N, inr (DecodeError InvalidData (0, 1) 0)).
Proof. split; vm_compute; reflexivity. Qed.

(* 4 bytes are needed in general: with 3 the loop makes no progress on a character outside the BMP *)
Example C24_four_bytes_needed : encode_from_str Utf16LE (utf8 [0x1F600]%N) (firstn 3 buf8) true = Ret (Ok ([], 0), firstn 3 buf8) /\
  decode_to_str Big5WHATWG [0x88; 0x62]%N (firstn 3 buf8) true = Ret (Ok ([], 0), firstn 3 buf8).
Proof. split; vm_compute; reflexivity. Qed.

(** * C32: is_end *)

Theorem C32_encode_is_end : forall e cs out, text cs ->
  encode_from_str e (utf8 cs) out true = encode_from_str e (utf8 cs) out false \/
  (* or a final U+00CA / U+00EA is held back *)
  exists pre c s w buf buf', cs = pre ++ [c] /\ e = Big5WHATWG /\ (c = 0xCA \/ c = 0xEA)%N /\ EncUnit e [c] w /\
    encode_from_str e (utf8 cs) out false = Ret (Ok (s, length (utf8 pre)), buf) /\
    encode_from_str e (utf8 cs) out true = Ret (Ok (s ++ w, length (utf8 cs)), buf').
Proof. exact encode_flag. Qed.

Theorem C32_decode_is_end : forall e bs out, bytes bs ->
  decode_to_str e bs out true = decode_to_str e bs out false \/
  (* or an incomplete code sequence is held back, which is_end = true makes an error *)
  exists s n buf, n < length bs /\ Undecodable e (skipn n bs) /\ Incomplete e (skipn n bs) /\
    decode_to_str e bs out false = Ret (Ok (s, n), buf) /\
    decode_to_str e bs out true = Ret (Err (DecodeError InvalidData (n, length bs) (length s)), buf).
Proof. exact decode_flag. Qed.

Example C32_example : decode_to_str Utf32BE [0; 0; 0; 0x41; 0]%N buf8 true <> decode_to_str Utf32BE [0; 0; 0; 0x41; 0]%N buf8 false /\
  decode_to_str Utf32BE [0; 0; 0; 0x41]%N buf8 true = decode_to_str Utf32BE [0; 0; 0; 0x41]%N buf8 false.
Proof. split; [vm_compute; discriminate|vm_compute; reflexivity]. Qed.

(** * C39: Big5 combining sequences *)

(* p is the Encoding Standard's pointer of the pair; 1133 = 8862, 1135 = 8864, 1164 = 88A3, 1166 = 88A5 *)
Theorem C39_pair_encoded_together : forall p c d pre post out s buf, In (p, [c; d]) big5_sequences -> text (pre ++ [c; d] ++ post) ->
  encode_from_str Big5WHATWG (utf8 (pre ++ [c; d] ++ post)) out true = Ret (Ok (s, length (utf8 (pre ++ [c; d] ++ post))), buf) ->
  exists s1 s2, s = s1 ++ big5_code p ++ s2 /\ Encoded Big5WHATWG pre s1 /\ Encoded Big5WHATWG post s2.
Proof.
  intros p c d pre post out s buf Hp Ht H. apply (big5_pair_taken p c d pre post s Hp).
  destruct (encode_ok_exact _ _ _ _ _ _ _ Ht H) as (a & b & E & En & HE & _).
  rewrite E, utf8_app, app_length in En. assert (b = []) by (apply utf8_length_nil; lia). subst b. rewrite app_nil_r in E. rewrite E. exact HE.
Qed.

(* however the text is cut into chunks and whatever the buffers *)
Theorem C39_pair_encoded_together_streaming : forall p c d pre post em, In (p, [c; d]) big5_sequences -> text (pre ++ [c; d] ++ post) ->
  EncSession Big5WHATWG (utf8 (pre ++ [c; d] ++ post)) true (length (utf8 (pre ++ [c; d] ++ post))) em ->
  exists s1 s2, em = s1 ++ big5_code p ++ s2 /\ Encoded Big5WHATWG pre s1 /\ Encoded Big5WHATWG post s2.
Proof.
  intros p c d pre post em Hp Ht HS. destruct (enc_session_done _ _ _ HS) as (cs & Ht' & E & HE).
  apply utf8_inj in E; [|assumption|assumption]. subst cs. exact (big5_pair_taken p c d pre post em Hp HE).
Qed.

(* given room, only those two letters at the very end are ever held back *)
Theorem C39_only_the_letters_are_held_back : forall e cs out s n buf, text cs -> (exists s', Encoded e cs s') ->
  4 * length cs <= length out -> encode_from_str e (utf8 cs) out false = Ret (Ok (s, n), buf) -> n < length (utf8 cs) ->
  e = Big5WHATWG /\ exists pre c, cs = pre ++ [c] /\ (c = 0xCA \/ c = 0xEA)%N /\ n = length (utf8 pre).
Proof.
  intros e cs out s n buf Ht [s' HE'] Hl H Hn. pose proof (Encoded_size _ _ _ HE').
  pose proof (encode_enough e cs out s' HE' ltac:(lia)) as HT.
  destruct (encode_flag e cs out Ht) as [E|(pre & c & s2 & w & b1 & b2 & E & -> & Hc & Hu & HF & HT2)].
  - rewrite HT, H in E. injection E as _ E _. lia.
  - rewrite H in HF. injection HF as -> -> _. split; [reflexivity|]. exists pre, c. auto.
Qed.

Example C39_example : exists buf, encode_from_str Big5WHATWG (utf8 [0xCA; 0xEA; 0x30C; 0xCA]%N) buf8 false
  = Ret (Ok ([0x88; 0x66; 0x88; 0xA5]%N, 6), buf).
Proof. eexists. vm_compute. reflexivity. Qed.

(** * C42: deferred errors *)

(* the first call stops in front of the error that a call with more room reports; the next call reports it *)
Theorem C42_decode_error_not_lost : forall e is_end bs out s n buf er big buf' out', bytes bs ->
  decode_to_str e bs out is_end = Ret (Ok (s, n), buf) ->
  decode_to_str e bs big is_end = Ret (Err er, buf') -> fst (de_range er) = n -> 1 <= length out' ->
  decode_to_str e (skipn n bs) out' is_end = Ret (Err (DecodeError InvalidData (0, snd (de_range er) - n) 0), out').
Proof. exact decode_deferred. Qed.

Theorem C42_encode_error_not_lost : forall e is_end cs out s n buf er big buf' out', text cs ->
  encode_from_str e (utf8 cs) out is_end = Ret (Ok (s, n), buf) ->
  encode_from_str e (utf8 cs) big is_end = Ret (Err er, buf') -> fst (ee_range er) = n -> 2 <= length out' ->
  encode_from_str e (skipn n (utf8 cs)) out' is_end =
    Ret (Err (EncodeError (ee_character er) (0, snd (ee_range er) - n) 0), out').
Proof. exact encode_deferred. Qed.

Example C42_example : decode_to_str Utf8 [0x41; 0x42; 0x80]%N buf2 true = Ret (Ok ([0x41; 0x42]%N, 2), [0x41; 0x42]%N) /\
  (exists buf, decode_to_str Utf8 [0x41; 0x42; 0x80]%N buf8 true = Ret (Err (DecodeError InvalidData (2, 3) 2), buf)) /\
  decode_to_str Utf8 [0x80]%N [7%N] true = Ret (Err (DecodeError InvalidData (0, 1) 0), [7%N]).
Proof. split; [vm_compute; reflexivity|]. split; [eexists; vm_compute; reflexivity|vm_compute; reflexivity]. Qed.

Definition stream_theorems := (C22_streaming_encode_complete, C22_streaming_encode_error, C22_streaming_encode_prefix,
  C23_streaming_decode_complete, C23_streaming_decode_error, C23_streaming_decode_prefix,
  C23_utf8_error_end_depends_on_chunking_refuted,
  C24_encode_progress, C24_decode_progress, C24_encode_loop_terminates, C24_decode_loop_terminates,
  C32_encode_is_end, C32_decode_is_end,
  C39_pair_encoded_together, C39_pair_encoded_together_streaming, C39_only_the_letters_are_held_back,
  C42_decode_error_not_lost, C42_encode_error_not_lost).
Print Assumptions stream_theorems.
