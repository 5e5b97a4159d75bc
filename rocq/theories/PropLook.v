(* C63: how much of its input a call looks at. *)
From Coq Require Import List NArith Arith Bool Lia ZArith.
From Verif Require Import Tac Encodings Spec SpecErrors SpecLook RefBig5 RefSjis Prelude RustCore Types ModelApi.
From Verif Require Import ProofUtf8 Engine NextEnc NextDec NextUtf8 Units Decide Greedy ProofApi ProofMore ProofRound ProofLook.
Import ListNotations.
Local Open Scope nat_scope.

(** * C63 *)

(* Input beyond the bound makes no difference: neither its contents, nor whether there is any, nor is_end. *)
Theorem C63_decode_local : forall e is_end is_end' p s s' out, e <> Utf8 -> bytes (p ++ s) -> bytes (p ++ s') ->
  decode_lookahead e (length out) <= length p ->
  decode_to_str e (p ++ s) out is_end = decode_to_str e (p ++ s') out is_end'.
Proof.
  intros e ie ie' p s s' out He Hb Hb' Hl. destruct (decode_look e ie ie' p s s' out Hb Hb' Hl) as (r & r' & buf & -> & -> & _ & E).
  rewrite (E He). reflexivity.
Qed.

(* UTF-8: everything but the end of the range of an error *)
Theorem C63_decode_local_utf8 : forall is_end is_end' p s s' out, bytes (p ++ s) -> bytes (p ++ s') ->
  decode_lookahead Utf8 (length out) <= length p ->
  exists r r' buf, decode_to_str Utf8 (p ++ s) out is_end = Ret (r, buf) /\ decode_to_str Utf8 (p ++ s') out is_end' = Ret (r', buf) /\
  same_but_error_end r r'.
Proof.
  intros ie ie' p s s' out Hb Hb' Hl. destruct (decode_look Utf8 ie ie' p s s' out Hb Hb' Hl) as (r & r' & buf & H & H' & E & _).
  exists r, r', buf. auto.
Qed.

(* That end can depend on bytes arbitrarily far behind. *)
Theorem C63_utf8_error_end_unbounded : forall far out, 1 <= length out ->
  exists p s s', bytes (p ++ s) /\ bytes (p ++ s') /\ far <= length p /\
    decode_to_str Utf8 (p ++ s) out true <> decode_to_str Utf8 (p ++ s') out true.
Proof.
  intros far out Ho. exists (0xFF%N :: repeat 0x80%N far), [0x80%N], [0x41%N].
  assert (Hp : bytes (0xFF%N :: repeat 0x80%N far)).
  { apply Forall_cons; [reflexivity|]. apply Forall_forall. intros x Hx. apply repeat_spec in Hx. subst x. reflexivity. }
  split; [apply Forall_app; split; [exact Hp|repeat constructor]|]. split; [apply Forall_app; split; [exact Hp|repeat constructor]|].
  split; [cbn [length]; rewrite repeat_length; lia|]. cbn [app]. rewrite !utf8_long_error by first [exact Ho|repeat constructor].
  change (run_len [0x80%N]) with 1. change (run_len [0x41%N]) with 0. intros E. injection E. lia.
Qed.

Theorem C63_encode_local : forall e is_end is_end' p s s' out, text (p ++ s) -> text (p ++ s') ->
  encode_lookahead e (length out) <= length p ->
  encode_from_str e (utf8 (p ++ s)) out is_end = encode_from_str e (utf8 (p ++ s')) out is_end'.
Proof. exact encode_look. Qed.

(** ** The bounds are the best possible *)

Definition multibyte (e : encoding) : bool := match e with Single _ => false | _ => true end.

(* m times the letter A *)
Definition letter (e : encoding) : list N :=
  match e with
  | Utf16BE => [0; 0x41] | Utf16LE => [0x41; 0] | Utf32BE => [0; 0; 0; 0x41] | Utf32LE => [0x41; 0; 0; 0] | _ => [0x41]
  end%N.

Lemma letter_unit e : DecUnit e (letter e) [0x41%N].
Proof.
  assert (S : scalar 0x41) by (unfold scalar; lia).
  destruct e; try (exists 0x41%N; split; [exact S|split; reflexivity]); apply ascii_unit; first [exact I|lia].
Qed.

Lemma letters_decoded e m : Decoded e (concat (repeat (letter e) m)) (repeat 0x41%N m).
Proof. induction m as [|m IH]; [constructor|]. cbn [repeat concat]. change (0x41%N :: repeat 0x41%N m) with ([0x41%N] ++ repeat 0x41%N m). constructor; [apply letter_unit|exact IH]. Qed.

Lemma letters_length e m : length (concat (repeat (letter e) m)) = dec_density e * m.
Proof.
  induction m as [|m IH]; [cbn; lia|]. cbn [repeat concat]. rewrite app_length, IH. destruct e; cbn [letter length dec_density]; lia.
Qed.

Lemma letters_utf8 m : length (utf8 (repeat 0x41%N m)) = m.
Proof. induction m as [|m IH]; [reflexivity|]. cbn [repeat]. rewrite utf8_cons, app_length, IH. reflexivity. Qed.

(* a code sequence that needs all bytes it can have *)
Definition sequence (e : encoding) : list N * list N :=
  match e with
  | Utf8 => ([0xF0; 0x90; 0x80], [0x80])
  | Utf16BE => ([0xD8; 0; 0xDC], [0]) | Utf16LE => ([0; 0xD8; 0], [0xDC])
  | Utf32BE => ([0; 1; 0], [0]) | Utf32LE => ([0; 0; 1], [0])
  | Big5WHATWG => ([0xA4], [0x40])
  | ShiftJISWHATWG => ([0x82], [0xA0])
  | Single _ => ([], [])
  end%N.

Lemma sequence_cut e : multibyte e = true -> (exists k, dec_next e true (fst (sequence e)) = DBad k) /\
  exists k c, dec_next e true (fst (sequence e) ++ snd (sequence e)) = DUnit k [c] /\ 2 <= length (utf8 [c]).
Proof.
  destruct e; intros H; [..|discriminate H]; (split; [eexists; vm_compute; reflexivity|eexists _, _; split; [vm_compute; reflexivity|vm_compute; lia]]).
Qed.

Theorem C63_decode_bound_tight : forall e out, multibyte e = true -> 1 <= length out ->
  exists p s s', bytes (p ++ s) /\ bytes (p ++ s') /\ S (length p) = decode_lookahead e (length out) /\
    decode_to_str e (p ++ s) out true <> decode_to_str e (p ++ s') out true.
Proof.
  intros e out He Ho. destruct (sequence_cut e He) as [(kb & Eb) (k & c & Eu & Hc)].
  set (m := length out - decode_room e). assert (Hr : decode_room e <= 1) by (destruct e; cbn; lia).
  set (l := concat (repeat (letter e) m)). pose proof (letters_decoded e m) as D. fold l in D.
  assert (Hl : bytes l) by apply (Decoded_text _ _ _ D).
  assert (Hs : bytes (fst (sequence e) ++ snd (sequence e))) by (destruct e; cbn; repeat constructor).
  assert (Hs0 : bytes (fst (sequence e) ++ [])) by (rewrite app_nil_r; apply Forall_app in Hs; apply Hs).
  exists (l ++ fst (sequence e)), (snd (sequence e)), []. rewrite <- !app_assoc.
  assert (B1 : bytes (l ++ fst (sequence e) ++ snd (sequence e))) by (apply Forall_app; auto).
  assert (B2 : bytes (l ++ fst (sequence e) ++ [])) by (apply Forall_app; auto).
  split; [exact B1|]. split; [exact B2|]. split.
  { unfold l. rewrite app_length, letters_length. unfold m.
    destruct e; cbn [fst sequence length dec_density decode_lookahead decode_room]; first [lia|discriminate He]. }
  pose proof (letters_utf8 m) as Lm.
  rewrite (decode_from_steps e true _ _ _ _ out B1 (Decoded_dsteps e true l _ _ D)); rewrite ?Lm; [|unfold m; lia|rewrite Eu; unfold m in *; lia].
  rewrite (decode_from_steps e true _ _ _ _ out B2 (Decoded_dsteps e true l _ _ D)); rewrite ?Lm; [|unfold m; lia|rewrite app_nil_r, Eb; exact I].
  rewrite app_nil_r, Eb, Eu. destruct (Nat.leb_spec (m + decode_room e) (length out)); [discriminate|unfold m in *; lia].
Qed.

Lemma letters_encoded e m : exists s, Encoded e (repeat 0x41%N m) s /\ length s <= enc_density e * m.
Proof.
  assert (T : text (repeat 0x41%N m)).
  { apply Forall_forall. intros x Hx. apply repeat_spec in Hx. subst x. unfold scalar. lia. }
  assert (X : exists s, Encoded e (repeat 0x41%N m) s).
  { destruct e; try (apply utf_encodes; [exact I|exact T]);
      (exists (repeat 0x41%N m); apply ascii_Encoded; [exact I|]; apply Forall_forall; intros x Hx; apply repeat_spec in Hx; subst x; reflexivity). }
  destruct X as [s Hs]. exists s. split; [exact Hs|]. apply Encoded_factor in Hs. rewrite letters_utf8 in Hs.
  replace (enc_density e) with (encode_factor e); [exact Hs|]. destruct e; reflexivity.
Qed.

Theorem C63_encode_bound_tight : forall e out, 1 <= encode_lookahead e (length out) ->
  exists p s s', text (p ++ s) /\ text (p ++ s') /\ S (length p) = encode_lookahead e (length out) /\
    encode_from_str e (utf8 (p ++ s)) out true <> encode_from_str e (utf8 (p ++ s')) out true.
Proof.
  intros e out H. set (n := encode_lookahead e (length out)) in *.
  assert (Hn : enc_density e * n <= length out).
  { unfold n. destruct e; cbn [enc_density encode_lookahead]; try lia;
      first [pose proof (Nat.mul_div_le (length out) 2 ltac:(lia)); lia|pose proof (Nat.mul_div_le (length out) 4 ltac:(lia)); lia]. }
  assert (T : forall m, text (repeat 0x41%N m)).
  { intros m. apply Forall_forall. intros x Hx. apply repeat_spec in Hx. subst x. unfold scalar. lia. }
  exists (repeat 0x41%N (n - 1)), [0x41%N], []. rewrite app_nil_r.
  assert (E : repeat 0x41%N (n - 1) ++ [0x41%N] = repeat 0x41%N n).
  { rewrite <- repeat_cons. change (0x41%N :: repeat 0x41%N (n - 1)) with (repeat 0x41%N (S (n - 1))). f_equal. lia. }
  rewrite E. split; [apply T|]. split; [apply T|]. split; [rewrite repeat_length; lia|].
  destruct (letters_encoded e n) as (s & Hs & Ls). destruct (letters_encoded e (n - 1)) as (s' & Hs' & Ls').
  rewrite (encode_enough e _ out s Hs) by lia. rewrite (encode_enough e _ out s' Hs') by nia.
  intros X. injection X as _ X _. rewrite !letters_utf8 in X. lia.
Qed.

(** ** Instances *)

(* An empty buffer: a UTF-16 decoder looks at four bytes, an encoder at nothing. *)
Example decode_local_example :
  decode_to_str Utf16LE ([0x3D; 0xD8; 0x3A; 0xDE] ++ [0x3D])%N [] true = decode_to_str Utf16LE ([0x3D; 0xD8; 0x3A; 0xDE] ++ [1; 2; 3])%N [] false.
Proof. apply C63_decode_local; [discriminate|repeat constructor|repeat constructor|cbn; lia]. Qed.

Example encode_local_example :
  encode_from_str Big5WHATWG (utf8 ([0x41; 0xCA] ++ [0x304]))%N [0; 0]%N true = encode_from_str Big5WHATWG (utf8 ([0x41; 0xCA] ++ [0x1F600]))%N [0; 0]%N false.
Proof. apply C63_encode_local; [repeat constructor; unfold scalar; lia|repeat constructor; unfold scalar; lia|cbn; lia]. Qed.

(* with one more byte of output the combining mark matters *)
Example encode_local_sharp :
  encode_from_str Big5WHATWG (utf8 ([0x41; 0xCA] ++ [0x304]))%N [0; 0; 0]%N true <> encode_from_str Big5WHATWG (utf8 ([0x41; 0xCA] ++ [0x1F600]))%N [0; 0; 0]%N true.
Proof. vm_compute. discriminate. Qed.

(* single-byte encodings with undefined bytes attain their bound, too *)
Example single_byte_tight :
  decode_to_str (Single iso_8859_7) ([0x41] ++ [0xAE])%N [0]%N true <> decode_to_str (Single iso_8859_7) ([0x41] ++ [0x42])%N [0]%N true.
Proof. vm_compute. discriminate. Qed.

Definition look_theorems := (C63_decode_local, C63_decode_local_utf8, C63_utf8_error_end_unbounded, C63_encode_local,
  C63_decode_bound_tight, C63_encode_bound_tight).
Print Assumptions look_theorems.
