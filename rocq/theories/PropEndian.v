(* Byte order, and independence of the binary search implementation. *)
From Coq Require Import List NArith Arith Bool Lia Sorted.
From Verif Require Import Encodings Spec SpecErrors Prelude RustCore Types ModelSingleByte ModelApi TabBig5 TabSjis PropCalls.
From Verif Require Import Tac Engine Search NextEnc NextDec Tables Units Decide Greedy ProofUtf8 ProofApi ProofSession ProofMore ProofRound.
Import ListNotations.
Local Open Scope nat_scope.

(** * C29: big-endian and little-endian *)

(* reverse the bytes of each 2-byte (4-byte) code unit; incomplete units stay as they are *)
Fixpoint swap16 (bs : list N) : list N :=
  match bs with a :: b :: r => b :: a :: swap16 r | _ => bs end.
Fixpoint swap32 (bs : list N) : list N :=
  match bs with a :: b :: c :: d :: r => d :: c :: b :: a :: swap32 r | _ => bs end.

Lemma pair_ind (P : list N -> Prop) : P [] -> (forall a, P [a]) -> (forall a b r, P r -> P (a :: b :: r)) -> forall l, P l.
Proof.
  intros H0 H1 H2 l. enough (P l /\ forall a, P (a :: l)) by tauto. induction l as [|b l [IH1 IH2]]; [auto|]. split; [apply IH2|]. intros a. auto.
Qed.

Lemma quad_ind (P : list N -> Prop) : P [] -> (forall a, P [a]) -> (forall a b, P [a; b]) -> (forall a b c, P [a; b; c]) ->
  (forall a b c d r, P r -> P (a :: b :: c :: d :: r)) -> forall l, P l.
Proof.
  intros H0 H1 H2 H3 H4 l. enough (P l /\ (forall a, P (a :: l)) /\ (forall a b, P (a :: b :: l)) /\ forall a b c, P (a :: b :: c :: l)) by tauto.
  induction l as [|x l (IH0 & IH1 & IH2 & IH3)]; [auto|]. split; [apply IH1|]. split; [auto|]. split; [auto|]. auto.
Qed.

Lemma swap16_length l : length (swap16 l) = length l.
Proof. induction l using pair_ind; cbn [swap16 length]; lia. Qed.
Lemma swap32_length l : length (swap32 l) = length l.
Proof. induction l using quad_ind; cbn [swap32 length]; lia. Qed.

Lemma swap16_bytes l : bytes l -> bytes (swap16 l).
Proof.
  induction l as [|a|a b r IH] using pair_ind; intros H; [exact H|exact H|]. inversion H as [|? ? Ha H']; subst. inversion H' as [|? ? Hb H2]; subst.
  cbn [swap16]. constructor; [exact Hb|]. constructor; [exact Ha|]. apply IH, H2.
Qed.
Lemma swap32_bytes l : bytes l -> bytes (swap32 l).
Proof.
  induction l as [|a|a b|a b c|a b c d r IH] using quad_ind; intros H; [exact H|exact H|exact H|exact H|].
  inversion H as [|? ? Ha H']; subst. inversion H' as [|? ? Hb H2]; subst. inversion H2 as [|? ? Hc H3]; subst. inversion H3 as [|? ? Hd H4]; subst.
  cbn [swap32]. repeat (constructor; [assumption|]). apply IH, H4.
Qed.

(* swapping reverses itself, so the statements below cover both directions *)
Lemma swap16_involutive l : swap16 (swap16 l) = l.
Proof. induction l as [|a|a b r IH] using pair_ind; cbn [swap16]; rewrite ?IH; reflexivity. Qed.
Lemma swap32_involutive l : swap32 (swap32 l) = l.
Proof. induction l as [|a|a b|a b c|a b c d r IH] using quad_ind; cbn [swap32]; rewrite ?IH; reflexivity. Qed.

Definition swaps (e1 e2 : encoding) (sw : list N -> list N) : Prop :=
  (e1 = Utf16LE /\ e2 = Utf16BE /\ sw = swap16) \/ (e1 = Utf32LE /\ e2 = Utf32BE /\ sw = swap32).

Lemma swaps_dec e1 e2 sw : swaps e1 e2 sw -> forall ie bs,
  dec_next e2 ie (sw bs) = dec_next e1 ie bs /\
  match dec_next e1 ie bs with
  | DUnit k _ => skipn k (sw bs) = sw (skipn k bs) /\ firstn k (sw bs) ++ sw (skipn k bs) = sw bs /\
                 (forall t, sw (firstn k bs ++ t) = firstn k (sw bs) ++ sw t)
  | _ => True
  end.
Proof.
  intros [(-> & -> & ->)|(-> & -> & ->)] ie bs.
  - destruct bs as [|a [|b r]]; [split; [reflexivity|exact I]|split; [reflexivity|destruct ie; exact I]|].
    cbn [dec_next utf16_dec_next swap16]. change (u16_from_bytes true b a) with (u16_from_bytes false a b).
    destruct (_ || _)%bool; [split; [reflexivity|]; cbn [skipn firstn app swap16]; auto|].
    destruct (_ <=? _)%N; [split; [reflexivity|exact I]|].
    destruct r as [|c [|d r]]; [split; [reflexivity|destruct ie; exact I]|split; [reflexivity|destruct ie; exact I]|]. cbn [swap16].
    change (u16_from_bytes true d c) with (u16_from_bytes false c d).
    destruct (_ && _)%bool; [|split; [reflexivity|exact I]]. split; [reflexivity|]. cbn [skipn firstn app swap16]. auto.
  - destruct bs as [|a [|b [|c [|d r]]]]; try (split; [reflexivity|destruct ie; exact I]).
    cbn [dec_next utf32_dec_next swap32]. change (u32_from_bytes true d c b a) with (u32_from_bytes false a b c d).
    destruct (is_char _); [|split; [reflexivity|exact I]]. split; [reflexivity|]. cbn [skipn firstn app swap32]. auto.
Qed.

Lemma swaps_dsteps e1 e2 sw : swaps e1 e2 sw -> forall ie bs pre cs rest,
  dsteps (dec_next e1 ie) bs pre cs rest -> dsteps (dec_next e2 ie) (sw bs) (sw pre) cs (sw rest).
Proof.
  intros Hsw ie bs pre cs rest H. assert (H0 : sw [] = []) by (destruct Hsw as [(_ & _ & ->)|(_ & _ & ->)]; reflexivity).
  induction H as [bs|bs k u pre cs rest Hn Hs IH]; [rewrite H0; constructor|].
  destruct (swaps_dec e1 e2 sw Hsw ie bs) as [En Hk]. rewrite Hn in En, Hk. destruct Hk as (E1 & E2 & E3).
  rewrite E3. econstructor; [exact En|]. rewrite E1. exact IH.
Qed.

Lemma swaps_length e1 e2 sw l : swaps e1 e2 sw -> length (sw l) = length l.
Proof. intros [(_ & _ & ->)|(_ & _ & ->)]; [apply swap16_length|apply swap32_length]. Qed.

Lemma swaps_bytes e1 e2 sw l : swaps e1 e2 sw -> bytes l -> bytes (sw l).
Proof. intros [(_ & _ & ->)|(_ & _ & ->)]; [apply swap16_bytes|apply swap32_bytes]. Qed.

Lemma swaps_room e1 e2 sw : swaps e1 e2 sw -> decode_room e2 = decode_room e1 /\ e1 <> Big5WHATWG.
Proof. intros [(-> & -> & _)|(-> & -> & _)]; split; reflexivity || discriminate. Qed.

Lemma swaps_decode e1 e2 sw : swaps e1 e2 sw -> forall ie bs out, bytes bs ->
  decode_to_str e2 (sw bs) out ie = decode_to_str e1 bs out ie.
Proof.
  intros Hsw ie bs out Hb. destruct (decode_total e1 ie bs out Hb) as (r & buf & H).
  destruct (decode_cases _ _ _ _ _ _ Hb H) as (pre & cs & rest & E0 & Hs & Hl & -> & Hc).
  assert (Hstop : match dec_next e1 ie rest with DUnit _ u => length out < length (utf8 cs) + length (utf8 u) | _ => True end).
  { destruct (dec_next e1 ie rest); try exact I. destruct Hc as [(_ & Hc)|(? & ? & _)]; [exact Hc|discriminate]. }
  rewrite (decode_from_steps e1 ie bs pre cs rest out Hb Hs Hl Hstop).
  destruct (swaps_dec e1 e2 sw Hsw ie rest) as [En _]. rewrite <- En in Hstop.
  rewrite (decode_from_steps e2 ie (sw bs) (sw pre) cs (sw rest) out); [|eapply swaps_bytes; eassumption|eapply swaps_dsteps; eassumption|exact Hl|exact Hstop].
  rewrite En, (swaps_length e1 e2 sw pre Hsw), (proj1 (swaps_room e1 e2 sw Hsw)). reflexivity.
Qed.

Lemma swaps_enc e1 e2 sw : swaps e1 e2 sw -> forall ie cs,
  match enc_next e1 ie cs with
  | EUnit k w => enc_next e2 ie cs = EUnit k (sw w) /\ forall t, sw (w ++ t) = sw w ++ sw t
  | a => enc_next e2 ie cs = a
  end.
Proof.
  intros [(-> & -> & ->)|(-> & -> & ->)] ie [|c r]; [reflexivity| |reflexivity|]; unfold enc_next, utf_enc_next, chars_next.
  - unfold utf16_char, unit16. destruct (c <? 0x10000)%N; cbn [app swap16]; auto.
  - unfold utf32_char. cbn [app swap32]. auto.
Qed.

Lemma swaps_esteps e1 e2 sw : swaps e1 e2 sw -> forall ie cs pre bs rest,
  esteps (enc_next e1 ie) cs pre bs rest -> esteps (enc_next e2 ie) cs pre (sw bs) rest.
Proof.
  intros Hsw ie cs pre bs rest H. assert (H0 : sw [] = []) by (destruct Hsw as [(_ & _ & ->)|(_ & _ & ->)]; reflexivity).
  induction H as [cs|cs k w pre bs rest Hn Hs IH]; [rewrite H0; constructor|].
  pose proof (swaps_enc e1 e2 sw Hsw ie cs) as X. rewrite Hn in X. destruct X as [En Ew]. rewrite Ew. econstructor; [exact En|exact IH].
Qed.

Lemma swaps_encode e1 e2 sw : swaps e1 e2 sw -> forall ie cs out, text cs ->
  exists s n buf buf', encode_from_str e1 (utf8 cs) out ie = Ret (Ok (s, n), buf) /\
    encode_from_str e2 (utf8 cs) out ie = Ret (Ok (sw s, n), buf').
Proof.
  intros Hsw ie cs out Ht. destruct (encode_total e1 ie cs out Ht) as (r & buf & H).
  destruct (encode_cases _ _ _ _ _ _ Ht H) as (pre & bs & rest & E0 & Hs & Hl & -> & Hc).
  assert (Hno : forall c, enc_next e1 ie rest <> EBad c).
  { intros c. destruct Hsw as [(-> & _)|(-> & _)]; destruct rest; discriminate. }
  destruct Hc as [(-> & Hc)|(c & ? & _ & E & _)]; [|exfalso; exact (Hno c E)].
  exists bs, (length (utf8 pre)), (frame bs out). eexists. split; [exact H|].
  pose proof (swaps_enc e1 e2 sw Hsw ie rest) as X.
  rewrite (encode_from_steps e2 ie cs pre (sw bs) rest out Ht); [|eapply swaps_esteps; eassumption|rewrite (swaps_length e1 e2 sw); assumption|].
  - destruct (enc_next e1 ie rest) as [| |c|k w]; [rewrite X; reflexivity|rewrite X; reflexivity|exfalso; exact (Hno c eq_refl)|].
    destruct X as [-> _]. reflexivity.
  - destruct (enc_next e1 ie rest) as [| |c|k w]; [rewrite X; exact I|rewrite X; exact I|exfalso; exact (Hno c eq_refl)|].
    destruct X as [-> _]. rewrite !(swaps_length e1 e2 sw) by exact Hsw. exact Hc.
Qed.

(* decoding swapped data with the other variant: the same text, count, error and buffer *)
Theorem C29_utf16_decode_mirrors : forall is_end bs out, bytes bs ->
  decode_to_str Utf16BE (swap16 bs) out is_end = decode_to_str Utf16LE bs out is_end.
Proof. intros ie bs out Hb. apply swaps_decode; [left; auto|exact Hb]. Qed.

Theorem C29_utf32_decode_mirrors : forall is_end bs out, bytes bs ->
  decode_to_str Utf32BE (swap32 bs) out is_end = decode_to_str Utf32LE bs out is_end.
Proof. intros ie bs out Hb. apply swaps_decode; [right; auto|exact Hb]. Qed.

(* encoding: the same number of bytes consumed, the output swapped *)
Theorem C29_utf16_encode_mirrors : forall is_end cs out, text cs ->
  exists s n buf buf', encode_from_str Utf16LE (utf8 cs) out is_end = Ret (Ok (s, n), buf) /\
    encode_from_str Utf16BE (utf8 cs) out is_end = Ret (Ok (swap16 s, n), buf').
Proof. intros ie cs out Ht. apply swaps_encode; [left; auto|exact Ht]. Qed.

Theorem C29_utf32_encode_mirrors : forall is_end cs out, text cs ->
  exists s n buf buf', encode_from_str Utf32LE (utf8 cs) out is_end = Ret (Ok (s, n), buf) /\
    encode_from_str Utf32BE (utf8 cs) out is_end = Ret (Ok (swap32 s, n), buf').
Proof. intros ie cs out Ht. apply swaps_encode; [right; auto|exact Ht]. Qed.

Example C29_example : swap16 [0x41; 0; 0x3D; 0xD8; 0x41]%N = [0; 0x41; 0xD8; 0x3D; 0x41]%N /\
  decode_to_str Utf16BE [0; 0x41; 0xD8; 0x3D; 0x41]%N buf8 true =
  Ret (Err (DecodeError InvalidData (2, 5) 1), 0x41%N :: skipn 1 buf8) /\
  decode_to_str Utf16LE [0x41; 0; 0x3D; 0xD8; 0x41]%N buf8 true =
  Ret (Err (DecodeError InvalidData (2, 5) 1), 0x41%N :: skipn 1 buf8).
Proof. split; [|split]; vm_compute; reflexivity. Qed.

(** * C38: binary search *)

(* What the documentation of binary_search_by_key promises about Ok/Err, for slices sorted by the key *)
Definition meets_documentation {V} (search : list (N * V) -> N -> option nat) : Prop := forall t key,
  StronglySorted (fun a b => (fst a <= fst b)%N) t ->
  match search t key with
  | Some i => exists v, nth_error t i = Some (key, v)
  | None => forall v, ~ In (key, v) t
  end.

(* for a table with strictly increasing keys the result is determined by the documentation *)
Lemma any_search {V} (search : list (N * V) -> N -> option nat) t key : meets_documentation search -> increasing t ->
  binary_search_by_key t key = Ret (search t key).
Proof.
  intros Hs Ht. assert (Hsort : StronglySorted (fun a b => (fst a <= fst b)%N) t).
  { clear -Ht. induction Ht as [|a l Hl IH Ha]; constructor; [exact IH|]. eapply Forall_impl; [|exact Ha]. cbn. intros; lia. }
  specialize (Hs t key Hsort). destruct (binary_search_spec t key Ht) as [(i & v & -> & Hi & Ha)|(-> & Ha)].
  - destruct (search t key) as [j|].
    + destruct Hs as (w & Hj). rewrite (increasing_nth_inj t Ht i j _ _ Hi Hj eq_refl). reflexivity.
    + exfalso. apply (Hs v). eapply nth_error_In, Hi.
  - destruct (search t key) as [j|]; [|reflexivity]. exfalso. destruct Hs as (w & Hj).
    apply nth_error_In in Hj. rewrite (In_assoc t key w Ht Hj) in Ha. discriminate.
Qed.

(* every encode table of the crate, whatever (documented) search is used *)
Theorem C38_single_byte_search : forall m search key, meets_documentation search ->
  binary_search_by_key (sb_encode_table m) key = Ret (search (sb_encode_table m) key).
Proof. intros m search key Hs. apply any_search; [exact Hs|apply sb_facts]. Qed.

Theorem C38_big5_search : forall search key, meets_documentation search ->
  binary_search_by_key big5_encode_table key = Ret (search big5_encode_table key).
Proof. intros search key Hs. apply any_search; [exact Hs|apply big5_facts]. Qed.

Theorem C38_shift_jis_search : forall search key, meets_documentation search ->
  binary_search_by_key sjis_encode_table key = Ret (search sjis_encode_table key).
Proof. intros search key Hs. apply any_search; [exact Hs|apply sjis_facts]. Qed.

(* the keys are strictly increasing, and the search finds an entry exactly if there is one *)
Definition strictly_increasing {V} (t : list (N * V)) : Prop := forall i j x y,
  i < j -> nth_error t i = Some x -> nth_error t j = Some y -> (fst x < fst y)%N.

Theorem C38_tables_strictly_increasing :
  (forall m, strictly_increasing (sb_encode_table m)) /\ strictly_increasing big5_encode_table /\ strictly_increasing sjis_encode_table.
Proof.
  split; [|split].
  - intros m i j x y L Hi Hj. exact (increasing_nth _ (proj1 (sb_facts m)) i j x y Hi Hj L).
  - intros i j x y L Hi Hj. exact (increasing_nth _ (proj1 big5_facts) i j x y Hi Hj L).
  - intros i j x y L Hi Hj. exact (increasing_nth _ (proj1 sjis_facts) i j x y Hi Hj L).
Qed.

Theorem C38_finds_exactly_the_entries : forall V (t : list (N * V)) key, strictly_increasing t ->
  match binary_search_by_key t key with
  | Ret (Some i) => exists v, nth_error t i = Some (key, v) /\ forall w, In (key, w) t -> w = v
  | Ret None => forall v, ~ In (key, v) t
  | _ => False
  end.
Proof.
  intros V t key Hi. assert (Ht : increasing t).
  { clear key. induction t as [|a t IH]; [constructor|]. constructor.
    - apply IH. intros i j x y L Hx Hy. apply (Hi (S i) (S j) x y); [lia|exact Hx|exact Hy].
    - apply Forall_forall. intros x Hx. apply In_nth_error in Hx. destruct Hx as [n Hn].
      apply (Hi 0 (S n) a x); [lia|reflexivity|exact Hn]. }
  destruct (binary_search_spec t key Ht) as [(i & v & -> & Hn & Ha)|(-> & Ha)].
  - exists v. split; [exact Hn|]. intros w Hw. rewrite (In_assoc t key w Ht Hw) in Ha. congruence.
  - intros v Hv. rewrite (In_assoc t key v Ht Hv) in Ha. discriminate.
Qed.

(* a linear search meets the documentation too *)
Fixpoint linear_search {V} (t : list (N * V)) (key : N) : option nat :=
  match t with
  | [] => None
  | (k, _) :: r => if (k =? key)%N then Some 0 else match linear_search r key with Some i => Some (S i) | None => None end
  end.

Example C38_example : meets_documentation (@linear_search N) /\ linear_search (sb_encode_table koi8_r) 0x416 = Some 13.
Proof.
  split; [|vm_compute; reflexivity]. intros t key _. induction t as [|[k v] t IH]; cbn [linear_search].
  - intros v [].
  - destruct (N.eqb_spec k key) as [->|Hne]; [exists v; reflexivity|]. destruct (linear_search t key) as [i|]; [exact IH|].
    intros w [E|Hin]; [congruence|exact (IH w Hin)].
Qed.

Definition endian_theorems :=
  (C29_utf16_decode_mirrors, C29_utf32_decode_mirrors, C29_utf16_encode_mirrors, C29_utf32_encode_mirrors,
   C38_single_byte_search, C38_big5_search, C38_shift_jis_search, C38_tables_strictly_increasing, C38_finds_exactly_the_entries).
Print Assumptions endian_theorems.
