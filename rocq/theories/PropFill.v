(* C73: a call that stops early has filled its buffer, so how many calls a conversion takes depends on the size of the output. *)
From Coq Require Import List NArith Arith Bool Lia.
From Verif Require Import Encodings Spec SpecErrors Prelude RustCore Types ModelApi Session Tac Tables RefSjis Engine Greedy Units.
From Verif Require Import ProofUtf8 ProofApi ProofSession ProofMore PropCalls PropStream.
Import ListNotations.
Local Open Scope nat_scope.

(** ** One call *)

(* the bytes of the buffer that may be left over: one less than the longest piece has *)
Definition encode_waste (e : encoding) : nat :=
  match e with
  | Utf8 | Utf16BE | Utf16LE | Utf32BE | Utf32LE => 3
  | Big5WHATWG | ShiftJISWHATWG => 1
  | Single _ => 0
  end.
Definition largest (m : sb_module) : nat := list_max (map (fun bc => length (utf8_char (snd bc))) (charset m)).
Definition decode_waste (e : encoding) : nat :=
  match e with
  | Utf8 | Utf16BE | Utf16LE | Utf32BE | Utf32LE | Big5WHATWG => 3
  | ShiftJISWHATWG => 2
  | Single m => largest m - 1
  end.

Lemma EncUnit_waste e u w : EncUnit e u w -> length w <= encode_waste e + 1.
Proof.
  intros H. assert (L : length w <= 4) by (apply enc_unit_shape in H; destruct e; cbn [EncUnit] in *; destruct H; lia).
  destruct e; cbn [encode_waste]; try lia; cbn [EncUnit] in H.
  - destruct H as [(c & Hc & -> & ->)|[(c & p & [Hp _] & -> & ->)|(p & Hp & ->)]]; cbn; lia.
  - destruct H as [(c & Hc & -> & ->)|[(-> & ->)|[(-> & ->)|[(c & Hc & -> & ->)|[(c & Hc & -> & ->)|[(p & Hp & -> & ->)|(c & p & Hp & -> & ->)]]]]]];
      rewrite ?sjis_code_len; cbn; lia.
  - destruct H as (b & c & _ & -> & ->). cbn. lia.
Qed.
Lemma jis_bmp p c : In (p, c) jis0208_index -> (c < 0x10000)%N.
Proof.
  assert (H : forallb (fun e => (snd e <? 0x10000)%N) jis0208_index = true) by (vm_compute; reflexivity).
  rewrite forallb_forall in H. intros I. apply H in I. apply N.ltb_lt, I.
Qed.
Lemma largest_ok m b c : In (b, c) (charset m) -> length (utf8_char c) <= largest m.
Proof.
  intros I. assert (H : Forall (fun k => k <= largest m) (map (fun bc => length (utf8_char (snd bc))) (charset m))) by (apply list_max_le; reflexivity).
  rewrite Forall_forall in H. apply H. exact (in_map (fun bc => length (utf8_char (snd bc))) _ _ I).
Qed.
Lemma DecUnit_waste e w u : DecUnit e w u -> length (utf8 u) <= decode_waste e + 1.
Proof.
  intros H. pose proof (DecUnit_size4 _ _ _ H) as L. destruct e; cbn [decode_waste]; try lia; cbn [DecUnit] in H.
  - assert (B : forall c, (c < 0x10000)%N -> length (utf8 [c]) <= 2 + 1) by (intros c Hc; rewrite utf8_single; apply utf8_char_le3 in Hc; lia).
    destruct H as [(b & Hb & -> & ->)|[(b & Hb & -> & ->)|[(p & c & Hp & -> & ->)|(p & Hp & -> & ->)]]]; apply B; try lia. eapply jis_bmp, Hp.
  - destruct H as (b & c & I & -> & ->). apply largest_ok in I. rewrite utf8_single. lia.
Qed.

(* input is left, so the buffer is full but for these bytes, unless a character of Big5 is held back because more text may follow *)
Theorem C73_encode_fills : forall e is_end cs out s n buf, text cs -> encode_from_str e (utf8 cs) out is_end = Ret (Ok (s, n), buf) ->
  n < length (utf8 cs) ->
  length out <= length s + encode_waste e \/ (is_end = false /\ e = Big5WHATWG /\ exists c, (c = 0xCA%N \/ c = 0xEA%N) /\ skipn n (utf8 cs) = utf8 [c]).
Proof.
  intros e ie cs out s n buf T H L.
  destruct (encode_cases _ _ _ _ _ _ T H) as (pre & bs & rest & E & Hs & _ & _ & [(R & _)|(? & ? & _ & _ & _ & R)]); [|discriminate R].
  injection R as -> ->. assert (rest <> []) by (intros ->; rewrite app_nil_r in E; subst; lia).
  destruct (encode_maximal e ie cs out bs (length (utf8 pre)) buf pre rest T H E eq_refl ltac:(assumption)) as [(u & w & U & _ & _ & F)|[(I & B & P)|(_ & F)]].
  - left. apply EncUnit_waste in U. lia.
  - right. split; [exact I|]. split; [exact B|]. rewrite E, utf8_app, skipn_len_app. destruct P as [-> | ->]; eexists; split; [|reflexivity| |reflexivity]; tauto.
  - left. destruct e; cbn [encode_room encode_waste] in *; lia.
Qed.
(* the same for decoders; what may be held back is the beginning of a character *)
Theorem C73_decode_fills : forall e is_end bs out s n buf, bytes bs -> decode_to_str e bs out is_end = Ret (Ok (s, n), buf) ->
  n < length bs ->
  length out <= length s + decode_waste e \/ (is_end = false /\ Undecodable e (skipn n bs) /\ Incomplete e (skipn n bs)).
Proof.
  intros e ie bs out s n buf T H L.
  destruct (decode_maximal e ie bs out s n buf T H L) as [(w & u & U & _ & F)|[P|(_ & F)]].
  - left. apply DecUnit_waste in U. lia.
  - right. exact P.
  - left. destruct e; cbn [decode_room decode_waste] in *; lia.
Qed.

(* no less can be promised *)
Lemma decode_nothing e w u out : bytes w -> DecUnit e w u -> length out < length (utf8 u) ->
  exists buf, decode_to_str e w out true = Ret (Ok ([], 0), buf).
Proof.
  intros T U L. destruct (decode_total e true w out T) as (r & buf & H). exists buf. rewrite H. do 2 f_equal.
  pose proof (dec_unit_next e w u [] true U) as Hn. rewrite app_nil_r in Hn.
  destruct (decode_cases _ _ _ _ _ _ T H) as (pre & cs & rest & E & Hs & Hl & _ & C).
  inversion Hs as [|? k u' p b ? Hn' Hs']; subst.
  - destruct C as [(-> & _)|(c & B & _)]; [reflexivity|]. cbn [app] in Hn. rewrite Hn in B. discriminate B.
  - rewrite Hn in Hn'. injection Hn' as <- <-. rewrite utf8_app, app_length in Hl. lia.
Qed.
Theorem C73_encode_waste_tight : forall e, exists cs out s n buf, text cs /\ encode_from_str e (utf8 cs) out true = Ret (Ok (s, n), buf) /\
  n < length (utf8 cs) /\ length out = length s + encode_waste e.
Proof.
  intros e.
  assert (W : exists c, scalar c /\ exists buf, encode_from_str e (utf8 [c]) (repeat 0%N (encode_waste e)) true = Ret (Ok ([], 0), buf)).
  { destruct e; cbn [encode_waste].
    1-5: exists 0x1F600%N; split; [unfold scalar; lia|]; eexists; vm_compute; reflexivity.
    - exists 0x4E00%N. split; [unfold scalar; lia|]. eexists. vm_compute. reflexivity.
    - exists 0x4E00%N. split; [unfold scalar; lia|]. eexists. vm_compute. reflexivity.
    - exists 0x41%N. split; [unfold scalar; lia|]. exists []. reflexivity. }
  destruct W as (c & S & buf & E). exists [c], (repeat 0%N (encode_waste e)), [], 0, buf.
  split; [constructor; [exact S|constructor]|]. split; [exact E|]. split; [|rewrite repeat_length; reflexivity].
  rewrite utf8_single. apply utf8_char_pos.
Qed.
Theorem C73_decode_waste_tight : forall e, exists bs out s n buf, bytes bs /\ decode_to_str e bs out true = Ret (Ok (s, n), buf) /\
  n < length bs /\ length out = length s + decode_waste e.
Proof.
  intros e.
  assert (W : exists bs, bytes bs /\ bs <> [] /\ exists buf, decode_to_str e bs (repeat 0%N (decode_waste e)) true = Ret (Ok ([], 0), buf)).
  { destruct e; cbn [decode_waste].
    - exists [0xF0; 0x9F; 0x98; 0x80]%N. split; [repeat constructor; lia|]. split; [discriminate|]. eexists. vm_compute. reflexivity.
    - exists [0xD8; 0x3D; 0xDE; 0x00]%N. split; [repeat constructor; lia|]. split; [discriminate|]. eexists. vm_compute. reflexivity.
    - exists [0x3D; 0xD8; 0x00; 0xDE]%N. split; [repeat constructor; lia|]. split; [discriminate|]. eexists. vm_compute. reflexivity.
    - exists [0x00; 0x01; 0xF6; 0x00]%N. split; [repeat constructor; lia|]. split; [discriminate|]. eexists. vm_compute. reflexivity.
    - exists [0x00; 0xF6; 0x01; 0x00]%N. split; [repeat constructor; lia|]. split; [discriminate|]. eexists. vm_compute. reflexivity.
    - exists [0x88; 0x62]%N. split; [repeat constructor; lia|]. split; [discriminate|]. eexists. vm_compute. reflexivity.
    - exists [0x88; 0x9F]%N. split; [repeat constructor; lia|]. split; [discriminate|]. eexists. vm_compute. reflexivity.
    - assert (S : existsb (fun bc => (fst bc <? 256)%N && (length (utf8_char (snd bc)) =? largest m) && (1 <=? largest m)) (charset m) = true).
      { revert m. apply module_sweep. vm_compute. reflexivity. }
      apply existsb_exists in S. destruct S as ([b c] & I & S). cbn [fst snd] in S. apply andb_prop in S. destruct S as [S P].
      apply andb_prop in S. destruct S as [S Q]. apply N.ltb_lt in S. apply Nat.eqb_eq in Q. apply Nat.leb_le in P.
      exists [b]. split; [repeat constructor; exact S|]. split; [discriminate|].
      apply (decode_nothing (Single m) [b] [c]).
      + repeat constructor. exact S.
      + cbn [DecUnit]. eauto.
      + rewrite repeat_length, utf8_single. lia. }
  destruct W as (bs & T & Z & buf & E). exists bs, (repeat 0%N (decode_waste e)), [], 0, buf.
  split; [exact T|]. split; [exact E|]. split; [|rewrite repeat_length; reflexivity]. destruct bs; [congruence|cbn; lia].
Qed.
Example waste_examples : decode_waste (Single ascii) = 0 /\ decode_waste (Single iso_8859_1) = 1 /\ decode_waste (Single windows_1252) = 2.
Proof. repeat split; vm_compute; reflexivity. Qed.

(** ** The documented loop *)

Lemma encode_loop_fills e k : forall outs cs, text cs ->
  match encode_loop e (utf8 cs) outs with
  | (em, inl lft) => exists pre rest, lft = utf8 rest /\ esteps (enc_next e true) cs pre em rest /\
                        length em <= list_sum (map (@length N) outs) /\
                        (rest = [] \/ (Forall (fun out => k <= length out) outs -> length outs * (k - encode_waste e) <= length em))
  | (em, inr er) => exists pre post, esteps (enc_next e true) cs pre em (ee_character er :: post) /\
                        enc_next e true (ee_character er :: post) = EBad (ee_character er) /\
                        length em <= list_sum (map (@length N) outs) /\
                        snd (ee_range er) = fst (ee_range er) + length (utf8_char (ee_character er))
  end.
Proof.
  induction outs as [|out outs IH]; intros cs Ht.
  - assert (E : encode_loop e (utf8 cs) [] = ([], inl (utf8 cs))) by (destruct (utf8 cs); reflexivity). rewrite E.
    exists [], cs. split; [reflexivity|]. split; [constructor|]. split; [cbn; lia|]. right. cbn. lia.
  - destruct cs as [|c cs]; [exists [], []; split; [reflexivity|]; split; [constructor|]; split; [cbn; lia|auto]|]. remember (c :: cs) as t eqn:Et.
    assert (exists x y, utf8 t = x :: y) as (x & y & Ex).
    { destruct (utf8 t) eqn:E; [|eauto]. subst t. exfalso. apply (utf8_nonempty c cs), E. }
    assert (El : encode_loop e (utf8 t) (out :: outs) =
      match encode_from_str e (utf8 t) out true with
      | Ret (Ok (s, n), _) => let (em, r) := encode_loop e (skipn n (utf8 t)) outs in (s ++ em, r)
      | Ret (Err er, buf) => (firstn (ee_written er) buf, inr er)
      | _ => ([], inl (utf8 t))
      end) by (rewrite Ex; reflexivity).
    rewrite El. clear El Ex. destruct (encode_total e true t out Ht) as (r & buf & H). rewrite H.
    change (list_sum (map (@length N) (out :: outs))) with (length out + list_sum (map (@length N) outs)).
    destruct (encode_cases _ _ _ _ _ _ Ht H) as (pre & bs & rest & E0 & Hs & Hb & Eb & [(E & _)|(c' & post & Er & Hbad & _ & E)]); subst r.
    + assert (Hr : text rest) by (eapply esteps_rest_text; eassumption).
      specialize (IH rest Hr).
      assert (F : rest = [] \/ length out <= length bs + encode_waste e).
      { destruct rest as [|c1 rest]; [auto|right].
        destruct (C73_encode_fills _ _ _ _ _ _ _ Ht H) as [F|(F & _)]; [|exact F|discriminate F].
        rewrite E0, utf8_app, app_length, utf8_cons, app_length. pose proof (utf8_char_pos c1). lia. }
      replace (skipn (length (utf8 pre)) (utf8 t)) with (utf8 rest) by (rewrite E0, utf8_app, skipn_len_app; reflexivity).
      destruct (encode_loop e (utf8 rest) outs) as [em [lft|er]].
      * destruct IH as (p & q & -> & Hs' & Hm & Hq). exists (pre ++ p), q. split; [reflexivity|].
        split; [eapply esteps_app; eassumption|]. rewrite app_length. split; [lia|].
        destruct F as [-> |F].
        { left. apply esteps_split in Hs'. destruct p; [exact (eq_sym Hs')|discriminate Hs']. }
        destruct Hq as [?|Hq]; [auto|right]. intros Ho. pose proof (Forall_inv Ho) as Ho1. pose proof (Forall_inv_tail Ho) as Ho2. cbv beta in Ho1.
        specialize (Hq Ho2). cbn [length]. rewrite Nat.mul_succ_l. lia.
      * destruct IH as (p & q & Hs' & Hbad & Hm & Hrange). exists (pre ++ p), q. split; [eapply esteps_app; eassumption|].
        rewrite app_length. split; [exact Hbad|]. split; [lia|exact Hrange].
    + cbn [ee_written ee_character ee_range fst snd]. rewrite Eb, frame_prefix. exists pre, post. rewrite Er in *.
      split; [exact Hs|]. split; [exact Hbad|]. split; [lia|reflexivity].
Qed.

Lemma unit_pos e ie cs k w : text cs -> enc_next e ie cs = EUnit k w -> 1 <= length w.
Proof. intros T H. destruct (enc_next_unit _ _ _ _ _ T H) as (_ & U & _). apply enc_unit_shape in U. lia. Qed.

(* A conversion whose output has s bytes takes no more calls than s divided by the size of the buffers, less the waste of each: the loop ends
   with what a single call with a large buffer returns.  An error takes one byte more. *)
Theorem C73_encode_calls : forall e k outs cs big r buf, text cs -> Forall (fun out => k <= length out) outs ->
  encode_from_str e (utf8 cs) big true = Ret (r, buf) ->
  match r with
  | Ok (s, n) => n = length (utf8 cs) -> length s <= length outs * (k - encode_waste e) -> encode_loop e (utf8 cs) outs = (s, inl [])
  | Err er => ee_written er < length outs * (k - encode_waste e) ->
      exists a b n, encode_loop e (utf8 cs) outs = (firstn (ee_written er) buf, inr (EncodeError (ee_character er) (a, b) n)) /\
        b - a = snd (ee_range er) - fst (ee_range er)
  end.
Proof.
  intros e k outs cs big r buf T Ho H. pose proof (encode_loop_fills e k outs cs T) as L.
  destruct (encode_cases _ _ _ _ _ _ T H) as (pre & bs & rest & E & Hs & _ & Eb & [(-> & _)|(c & post & Er & Hbad & _ & ->)]).
  - intros Hn Hl. assert (rest = []).
    { rewrite E, utf8_app, app_length in Hn. destruct rest as [|c rest]; [reflexivity|]. exfalso.
      rewrite utf8_cons, app_length in Hn. pose proof (utf8_char_pos c). lia. }
    subst rest. rewrite app_nil_r in E. subst pre. destruct (encode_loop e (utf8 cs) outs) as [em [lft|er]].
    + destruct L as (p & q & -> & Hs' & _ & Q). destruct (esteps_linear _ _ _ _ _ _ _ _ Hs' Hs) as [(x & y & S & Ep & ->)|(x & y & S & Ep & ->)].
      * destruct (esteps_nonempty _ _ _ _ _ S) as [(-> & -> & <-)|(k' & w & En & [z ->])]; [rewrite app_nil_r; reflexivity|].
        exfalso. assert (Tq : text q) by (eapply esteps_rest_text; [exact T|exact Hs']). pose proof (unit_pos _ _ _ _ _ Tq En).
        destruct Q as [-> |Q]; [destruct e; discriminate En|]. specialize (Q Ho). rewrite !app_length in Hl. lia.
      * inversion S; subst; [rewrite app_nil_r; reflexivity|]. destruct e; discriminate.
    + destruct L as (p & q & Hs' & Hb & _). exfalso. destruct (esteps_linear _ _ _ _ _ _ _ _ Hs' Hs) as [(x & y & S & _)|(x & y & S & _)].
      * inversion S; subst. rewrite Hb in *. discriminate.
      * apply esteps_split in S. destruct x; discriminate S.
  - cbn [ee_written ee_character ee_range fst snd]. intros Hl. rewrite Eb, frame_prefix. rewrite Er in *.
    destruct (encode_loop e (utf8 cs) outs) as [em [lft|er]].
    + exfalso. destruct L as (p & q & -> & Hs' & _ & Q). destruct (esteps_linear _ _ _ _ _ _ _ _ Hs' Hs) as [(x & y & S & Ep & ->)|(x & y & S & Ep & ->)].
      * destruct Q as [-> |Q]; [apply esteps_split in S; destruct x; discriminate S|]. specialize (Q Ho). rewrite app_length in Hl. lia.
      * inversion S; subst; [|congruence]. rewrite app_nil_r in *. destruct Q as [Q|Q]; [discriminate Q|]. specialize (Q Ho). lia.
    + destruct L as (p & q & Hs' & Hb & _ & R). destruct (esteps_linear _ _ _ _ _ _ _ _ Hs' Hs) as [(x & y & S & Ep & Ebs)|(x & y & S & Ep & Eem)].
      * destruct (esteps_nonempty _ _ _ _ _ S) as [(-> & -> & X)|(k' & w & En & _)]; [|congruence]. rewrite app_nil_r in Ebs. subst bs.
        destruct er as [ch [a b] n]. cbn [ee_character ee_range fst snd] in *. injection X as -> ->. exists a, b, n. split; [reflexivity|lia].
      * destruct (esteps_nonempty _ _ _ _ _ S) as [(-> & -> & X)|(k' & w & En & _)]; [|congruence]. rewrite app_nil_r in Eem. subst em.
        destruct er as [ch [a b] n]. cbn [ee_character ee_range fst snd] in *. injection X as <- <-. exists a, b, n. split; [reflexivity|lia].
Qed.
(* and no fewer than s divided by the size of the buffers *)
Theorem C73_encode_calls_needed : forall e k outs cs big s buf, text cs -> Forall (fun out => length out <= k) outs ->
  encode_from_str e (utf8 cs) big true = Ret (Ok (s, length (utf8 cs)), buf) -> length outs * k < length s ->
  exists em rest, encode_loop e (utf8 cs) outs = (em, inl rest) /\ rest <> [].
Proof.
  intros e k outs cs big s buf T Ho H Hl. pose proof (encode_loop_fills e k outs cs T) as L.
  assert (M : list_sum (map (@length N) outs) <= length outs * k).
  { clear - Ho. induction Ho as [|o outs O _ IH]; [cbn; lia|]. cbn [map length list_sum fold_right] in *. unfold list_sum in *. lia. }
  destruct (encode_cases _ _ _ _ _ _ T H) as (pre & bs & rest & E & Hs & _ & Eb & [(R & _)|(c & post & Er & Hbad & _ & R)]); [|discriminate R].
  injection R as -> R. assert (rest = []).
  { rewrite E, utf8_app, app_length in R. destruct rest as [|c rest]; [reflexivity|]. exfalso.
    rewrite utf8_cons, app_length in R. pose proof (utf8_char_pos c). lia. }
  subst rest. rewrite app_nil_r in E. subst pre. destruct (encode_loop e (utf8 cs) outs) as [em [lft|er]].
  - destruct L as (p & q & -> & Hs' & Hm & _). exists em, (utf8 q). split; [reflexivity|]. intros Q. apply (f_equal (@length N)) in Q.
    apply utf8_length_nil in Q. subst q.
    destruct (esteps_linear _ _ _ _ _ _ _ _ Hs' Hs) as [(x & y & S & _ & ->)|(x & y & S & _ & ->)]; inversion S; subst;
      try (destruct e; discriminate); rewrite ?app_length in *; cbn [length] in *; lia.
  - destruct L as (p & q & Hs' & Hb & _). exfalso. destruct (esteps_linear _ _ _ _ _ _ _ _ Hs' Hs) as [(x & y & S & _)|(x & y & S & _)].
    + inversion S; subst. rewrite Hb in *. discriminate.
    + apply esteps_split in S. destruct x; discriminate S.
Qed.
(* 100 characters, 200 bytes of output, buffers of 7 bytes: 50 calls are enough, and 28 are not *)
Example C73_ex1 : encode_loop Utf16LE (utf8 (repeat 0x41%N 100)) (repeat (repeat 0%N 7) 50) = (concat (repeat [0x41; 0]%N 100), inl []).
Proof.
  assert (E : exists buf, encode_from_str Utf16LE (utf8 (repeat 0x41%N 100)) (repeat 0%N 200) true = Ret (Ok (concat (repeat [0x41; 0]%N 100), 100), buf))
    by (eexists; vm_compute; reflexivity).
  destruct E as [buf E].
  refine (C73_encode_calls Utf16LE 7 (repeat (repeat 0%N 7) 50) _ _ _ _ _ _ E _ _).
  - apply Forall_forall. intros c I. apply repeat_spec in I. subst. unfold scalar. lia.
  - apply Forall_forall. intros o I. apply repeat_spec in I. subst. cbn. lia.
  - vm_compute. reflexivity.
  - vm_compute. lia.
Qed.

Lemma decode_loop_fills e k : forall outs bs, bytes bs ->
  match decode_loop e bs outs with
  | (em, inl lft) => exists pre cs, em = utf8 cs /\ dsteps (dec_next e true) bs pre cs lft /\
                        length em <= list_sum (map (@length N) outs) /\
                        (lft = [] \/ (Forall (fun out => k <= length out) outs -> length outs * (k - decode_waste e) <= length em))
  | (em, inr er) => exists pre cs rest n, em = utf8 cs /\ dsteps (dec_next e true) bs pre cs rest /\
                        dec_next e true rest = DBad n /\ length em <= list_sum (map (@length N) outs) /\
                        snd (de_range er) = fst (de_range er) + n /\ de_cause er = InvalidData
  end.
Proof.
  induction outs as [|out outs IH]; intros bs Ht.
  - assert (E : decode_loop e bs [] = ([], inl bs)) by (destruct bs; reflexivity). rewrite E.
    exists [], []. split; [reflexivity|]. split; [constructor|]. split; [cbn; lia|]. right. cbn. lia.
  - destruct bs as [|b bs]; [exists [], []; split; [reflexivity|]; split; [constructor|]; split; [cbn; lia|auto]|]. remember (b :: bs) as t eqn:Et.
    assert (El : decode_loop e t (out :: outs) =
      match decode_to_str e t out true with
      | Ret (Ok (s, n), _) => let (em, r) := decode_loop e (skipn n t) outs in (s ++ em, r)
      | Ret (Err er, buf) => (firstn (de_written er) buf, inr er)
      | _ => ([], inl t)
      end) by (rewrite Et; reflexivity).
    rewrite El. clear El. destruct (decode_total e true t out Ht) as (r & buf & H). rewrite H.
    change (list_sum (map (@length N) (out :: outs))) with (length out + list_sum (map (@length N) outs)).
    destruct (decode_cases _ _ _ _ _ _ Ht H) as (pre & cs & rest & E0 & Hs & Hb & Eb & [(E & _)|(m & Hbad & _ & E)]); subst r.
    + assert (Hr : bytes rest) by (eapply dsteps_rest_bytes; eassumption).
      specialize (IH rest Hr).
      assert (F : rest = [] \/ length out <= length (utf8 cs) + decode_waste e).
      { destruct rest as [|c1 rest]; [auto|right].
        destruct (C73_decode_fills _ _ _ _ _ _ _ Ht H) as [F|(F & _)]; [|exact F|discriminate F].
        rewrite E0, app_length. cbn [length]. lia. }
      replace (skipn (length pre) t) with rest by (rewrite E0, skipn_len_app; reflexivity).
      destruct (decode_loop e rest outs) as [em [lft|er]].
      * destruct IH as (p & cs' & -> & Hs' & Hm & Hq). exists (pre ++ p), (cs ++ cs'). split; [rewrite utf8_app; reflexivity|].
        split; [eapply dsteps_app; eassumption|]. rewrite app_length. split; [lia|].
        destruct F as [-> |F].
        { left. apply dsteps_split in Hs'. destruct p; [exact (eq_sym Hs')|discriminate Hs']. }
        destruct Hq as [?|Hq]; [auto|right]. intros Ho. pose proof (Forall_inv Ho) as Ho1. pose proof (Forall_inv_tail Ho) as Ho2. cbv beta in Ho1.
        specialize (Hq Ho2). cbn [length]. rewrite Nat.mul_succ_l. lia.
      * destruct IH as (p & cs' & q & n & -> & Hs' & Hbad & Hm & Hrange). exists (pre ++ p), (cs ++ cs'), q, n. split; [rewrite utf8_app; reflexivity|].
        split; [eapply dsteps_app; eassumption|]. rewrite app_length. split; [exact Hbad|]. split; [lia|exact Hrange].
    + cbn [de_written de_range de_cause fst snd]. rewrite Eb, frame_prefix. exists pre, cs, rest, m.
      split; [reflexivity|]. split; [exact Hs|]. split; [exact Hbad|]. split; [lia|]. split; reflexivity.
Qed.

Lemma dsteps_nonempty next bs p c r : dsteps next bs p c r -> (p = [] /\ c = [] /\ r = bs) \/ exists k u, next bs = DUnit k u /\ prefix u c.
Proof. intros H. inversion H; subst; [auto|]. right. do 2 eexists. split; [eassumption|]. eexists. reflexivity. Qed.
Lemma dunit_pos e ie bs k u : bytes bs -> dec_next e ie bs = DUnit k u -> 1 <= length (utf8 u).
Proof. intros T H. destruct (dec_next_unit _ _ _ _ _ T H) as (_ & U). apply dec_unit_shape in U.
  destruct u as [|c u]; [tauto|]. rewrite utf8_cons, app_length. pose proof (utf8_char_pos c). lia. Qed.
Lemma dec_next_nil e : dec_next e true [] = DEnd.
Proof. destruct e; reflexivity. Qed.

(* the same for decoders *)
Theorem C73_decode_calls : forall e k outs bs big r buf, bytes bs -> Forall (fun out => k <= length out) outs ->
  decode_to_str e bs big true = Ret (r, buf) ->
  match r with
  | Ok (s, n) => n = length bs -> length s <= length outs * (k - decode_waste e) -> decode_loop e bs outs = (s, inl [])
  | Err er => de_written er < length outs * (k - decode_waste e) ->
      exists a b n, decode_loop e bs outs = (firstn (de_written er) buf, inr (DecodeError InvalidData (a, b) n)) /\
        b - a = snd (de_range er) - fst (de_range er)
  end.
Proof.
  intros e k outs bs big r buf T Ho H. pose proof (decode_loop_fills e k outs bs T) as L.
  destruct (decode_cases _ _ _ _ _ _ T H) as (pre & cs & rest & E & Hs & _ & Eb & [(-> & _)|(m & Hbad & _ & ->)]).
  - intros Hn Hl. assert (rest = []).
    { rewrite E, app_length in Hn. destruct rest as [|c rest]; [reflexivity|]. exfalso. cbn [length] in Hn. lia. }
    subst rest. rewrite app_nil_r in E. subst pre. destruct (decode_loop e bs outs) as [em [lft|er]].
    + destruct L as (p & cs' & -> & Hs' & _ & Q). destruct (dsteps_linear _ _ _ _ _ _ _ _ Hs' Hs) as [(x & y & S & Ep & ->)|(x & y & S & Ep & ->)].
      * destruct (dsteps_nonempty _ _ _ _ _ S) as [(-> & -> & <-)|(k' & w & En & [z ->])]; [rewrite app_nil_r; reflexivity|].
        exfalso. assert (Tq : bytes lft) by (eapply dsteps_rest_bytes; [exact T|exact Hs']). pose proof (dunit_pos _ _ _ _ _ Tq En).
        destruct Q as [-> |Q]; [rewrite dec_next_nil in En; discriminate En|]. specialize (Q Ho). rewrite !utf8_app, !app_length in Hl. lia.
      * destruct (dsteps_nonempty _ _ _ _ _ S) as [(-> & -> & ->)|(k' & w & En & _)]; [rewrite app_nil_r; reflexivity|].
        rewrite dec_next_nil in En. discriminate En.
    + destruct L as (p & cs' & q & n & -> & Hs' & Hb & _). exfalso. destruct (dsteps_linear _ _ _ _ _ _ _ _ Hs' Hs) as [(x & y & S & _)|(x & y & S & _)].
      * destruct (dsteps_nonempty _ _ _ _ _ S) as [(_ & _ & X)|(k' & w & En & _)]; [|congruence]. rewrite <- X, dec_next_nil in Hb. discriminate Hb.
      * destruct (dsteps_nonempty _ _ _ _ _ S) as [(_ & _ & X)|(k' & w & En & _)]; [|rewrite dec_next_nil in En; discriminate En].
        rewrite X, dec_next_nil in Hb. discriminate Hb.
  - cbn [de_written de_range fst snd]. intros Hl. rewrite Eb, frame_prefix. destruct (decode_loop e bs outs) as [em [lft|er]].
    + exfalso. destruct L as (p & cs' & -> & Hs' & _ & Q). destruct (dsteps_linear _ _ _ _ _ _ _ _ Hs' Hs) as [(x & y & S & Ep & ->)|(x & y & S & Ep & ->)].
      * destruct Q as [-> |Q].
        { destruct (dsteps_nonempty _ _ _ _ _ S) as [(_ & _ & X)|(k' & w & En & _)]; [subst rest|]; rewrite dec_next_nil in *; discriminate. }
        specialize (Q Ho). rewrite utf8_app, app_length in Hl. lia.
      * destruct (dsteps_nonempty _ _ _ _ _ S) as [(-> & -> & ->)|(k' & w & En & _)]; [|congruence]. rewrite app_nil_r in *.
        destruct Q as [-> |Q]; [rewrite dec_next_nil in Hbad; discriminate Hbad|]. specialize (Q Ho). lia.
    + destruct L as (p & cs' & q & n & -> & Hs' & Hb & _ & R & C).
      assert (X : cs' = cs /\ q = rest).
      { destruct (dsteps_linear _ _ _ _ _ _ _ _ Hs' Hs) as [(x & y & S & _ & ->)|(x & y & S & _ & ->)];
          (destruct (dsteps_nonempty _ _ _ _ _ S) as [(-> & -> & ->)|(k' & w & En & _)]; [|congruence]); rewrite app_nil_r; auto. }
      destruct X as [-> ->]. rewrite Hb in Hbad. injection Hbad as ->.
      destruct er as [cause [a b] n']. cbn [de_range de_cause fst snd] in *. subst cause. exists a, b, n'. split; [reflexivity|lia].
Qed.
Theorem C73_decode_calls_needed : forall e k outs bs big s buf, bytes bs -> Forall (fun out => length out <= k) outs ->
  decode_to_str e bs big true = Ret (Ok (s, length bs), buf) -> length outs * k < length s ->
  exists em rest, decode_loop e bs outs = (em, inl rest) /\ rest <> [].
Proof.
  intros e k outs bs big s buf T Ho H Hl. pose proof (decode_loop_fills e k outs bs T) as L.
  assert (M : list_sum (map (@length N) outs) <= length outs * k).
  { clear - Ho. induction Ho as [|o outs O _ IH]; [cbn; lia|]. cbn [map length list_sum fold_right] in *. unfold list_sum in *. lia. }
  destruct (decode_cases _ _ _ _ _ _ T H) as (pre & cs & rest & E & Hs & _ & Eb & [(R & _)|(m & Hbad & _ & R)]); [|discriminate R].
  injection R as -> R. assert (rest = []).
  { rewrite E, app_length in R. destruct rest as [|c rest]; [reflexivity|]. exfalso. cbn [length] in R. lia. }
  subst rest. rewrite app_nil_r in E. subst pre. destruct (decode_loop e bs outs) as [em [lft|er]].
  - destruct L as (p & cs' & -> & Hs' & Hm & _). eexists _, lft. split; [reflexivity|]. intros ->.
    destruct (dsteps_linear _ _ _ _ _ _ _ _ Hs' Hs) as [(x & y & S & _ & ->)|(x & y & S & _ & ->)];
      (destruct (dsteps_nonempty _ _ _ _ _ S) as [(-> & -> & _)|(k' & w & En & _)]; [|rewrite dec_next_nil in En; discriminate En]);
      rewrite ?app_nil_r in *; lia.
  - destruct L as (p & cs' & q & n & -> & Hs' & Hb & _). exfalso. destruct (dsteps_linear _ _ _ _ _ _ _ _ Hs' Hs) as [(x & y & S & _)|(x & y & S & _)].
    + destruct (dsteps_nonempty _ _ _ _ _ S) as [(_ & _ & X)|(k' & w & En & _)]; [|congruence]. rewrite <- X, dec_next_nil in Hb. discriminate Hb.
    + destruct (dsteps_nonempty _ _ _ _ _ S) as [(_ & _ & X)|(k' & w & En & _)]; [|rewrite dec_next_nil in En; discriminate En].
      rewrite X, dec_next_nil in Hb. discriminate Hb.
Qed.
Example C73_ex2 : decode_loop (Single ascii) (repeat 0x41%N 10) (repeat [0%N] 10) = (repeat 0x41%N 10, inl []) /\
  exists em rest, decode_loop (Single ascii) (repeat 0x41%N 10) (repeat [0%N] 9) = (em, inl rest) /\ rest <> [].
Proof. split; [vm_compute; reflexivity|]. exists (repeat 0x41%N 9), [0x41%N]. split; [vm_compute; reflexivity|discriminate]. Qed.

Definition fill_theorems := (C73_encode_fills, C73_decode_fills, C73_encode_waste_tight, C73_decode_waste_tight,
  C73_encode_calls, C73_encode_calls_needed, C73_decode_calls, C73_decode_calls_needed).
Print Assumptions fill_theorems.
