(* The effect of is_end, deferred errors, output sizes, and the UTF-8 copy property. *)
From Coq Require Import List NArith Arith Bool Lia ZArith.
From Verif Require Import Tac Encodings Spec SpecErrors RefBig5 RefSjis Prelude RustCore Types ProofUtf8 Engine NextEnc NextDec NextUtf8 Tables Units Decide Greedy ModelApi ProofApi Session ProofSession.
Import ListNotations.
Local Open Scope nat_scope.

(** ** A call is determined by where the steps stop *)

Lemma encode_from_steps e ie cs pre bs rest out : text cs -> esteps (enc_next e ie) cs pre bs rest -> length bs <= length out ->
  match enc_next e ie rest with EUnit _ w => length out < length bs + length w | _ => True end ->
  encode_from_str e (utf8 cs) out ie =
  Ret (match enc_next e ie rest with
       | EBad c => if length bs + encode_room e <=? length out
                   then Err (EncodeError c (length (utf8 pre), length (utf8 pre) + length (utf8_char c)) (length bs))
                   else Ok (bs, length (utf8 pre))
       | _ => Ok (bs, length (utf8 pre))
       end, frame bs out).
Proof.
  intros Ht Hs Hl Hstop. destruct (encode_total e ie cs out Ht) as (r & buf & H). rewrite H.
  destruct (encode_cases _ _ _ _ _ _ Ht H) as (p & b & rest' & E0 & Hs' & Hl' & -> & Hc).
  assert (X : p = pre /\ b = bs /\ rest' = rest).
  { destruct (esteps_linear _ _ _ _ _ _ _ _ Hs Hs') as [(q & d & Hq & Ep & Ed)|(q & d & Hq & Ep & Ed)].
    - destruct (esteps_nonempty _ _ _ _ _ Hq) as [(-> & -> & ->)|(k & w & En & [x ->])].
      + rewrite app_nil_r in *. auto.
      + rewrite En in Hstop. subst b. rewrite !app_length in Hl'. lia.
    - destruct (esteps_nonempty _ _ _ _ _ Hq) as [(-> & -> & ->)|(k & w & En & [x ->])].
      + rewrite app_nil_r in *. auto.
      + rewrite En in Hc. subst bs. rewrite !app_length in Hl. destruct Hc as [(_ & ?)|(? & ? & _ & ? & _)]; [lia|discriminate]. }
  destruct X as (-> & -> & ->). destruct (enc_next e ie rest) as [| |c|k w].
  - destruct Hc as [(-> & _)|(? & ? & _ & ? & _)]; [reflexivity|discriminate].
  - destruct Hc as [(-> & _)|(? & ? & _ & ? & _)]; [reflexivity|discriminate].
  - destruct Hc as [(-> & Hx)|(c' & ? & _ & E & Hx & ->)].
    + destruct (Nat.leb_spec (length bs + encode_room e) (length out)); [lia|reflexivity].
    + injection E as <-. destruct (Nat.leb_spec (length bs + encode_room e) (length out)); [reflexivity|lia].
  - destruct Hc as [(-> & _)|(? & ? & _ & ? & _)]; [reflexivity|discriminate].
Qed.

Lemma decode_from_steps e ie bs pre cs rest out : bytes bs -> dsteps (dec_next e ie) bs pre cs rest -> length (utf8 cs) <= length out ->
  match dec_next e ie rest with DUnit _ u => length out < length (utf8 cs) + length (utf8 u) | _ => True end ->
  decode_to_str e bs out ie =
  Ret (match dec_next e ie rest with
       | DBad n => if length (utf8 cs) + decode_room e <=? length out
                   then Err (DecodeError InvalidData (length pre, length pre + n) (length (utf8 cs)))
                   else Ok (utf8 cs, length pre)
       | _ => Ok (utf8 cs, length pre)
       end, frame (utf8 cs) out).
Proof.
  intros Ht Hs Hl Hstop. destruct (decode_total e ie bs out Ht) as (r & buf & H). rewrite H.
  destruct (decode_cases _ _ _ _ _ _ Ht H) as (p & b & rest' & E0 & Hs' & Hl' & -> & Hc).
  assert (X : p = pre /\ b = cs /\ rest' = rest).
  { destruct (dsteps_linear _ _ _ _ _ _ _ _ Hs Hs') as [(q & d & Hq & Ep & Ed)|(q & d & Hq & Ep & Ed)].
    - inversion Hq as [|? k u q' d' ? En Hq']; subst.
      + rewrite !app_nil_r in *. auto.
      + rewrite En in Hstop. rewrite !utf8_app, !app_length in Hl'. lia.
    - inversion Hq as [|? k u q' d' ? En Hq']; subst.
      + rewrite !app_nil_r in *. auto.
      + rewrite En in Hc. rewrite !utf8_app, !app_length in Hl. destruct Hc as [(_ & ?)|(? & ? & _)]; [lia|discriminate]. }
  destruct X as (-> & -> & ->). destruct (dec_next e ie rest) as [| |n|k u].
  - destruct Hc as [(-> & _)|(? & ? & _)]; [reflexivity|discriminate].
  - destruct Hc as [(-> & _)|(? & ? & _)]; [reflexivity|discriminate].
  - destruct Hc as [(-> & Hx)|(c' & E & Hx & ->)].
    + destruct (Nat.leb_spec (length (utf8 cs) + decode_room e) (length out)); [lia|reflexivity].
    + injection E as <-. destruct (Nat.leb_spec (length (utf8 cs) + decode_room e) (length out)); [reflexivity|lia].
  - destruct Hc as [(-> & _)|(? & ? & _)]; [reflexivity|discriminate].
Qed.

(** ** C32 *)

Lemma encode_flag e cs out : text cs ->
  encode_from_str e (utf8 cs) out true = encode_from_str e (utf8 cs) out false \/
  exists pre c s w buf buf', cs = pre ++ [c] /\ e = Big5WHATWG /\ (c = 0xCA \/ c = 0xEA)%N /\ EncUnit e [c] w /\
    encode_from_str e (utf8 cs) out false = Ret (Ok (s, length (utf8 pre)), buf) /\
    encode_from_str e (utf8 cs) out true = Ret (Ok (s ++ w, length (utf8 cs)), buf').
Proof.
  intros Ht. destruct (encode_total e false cs out Ht) as (r & buf & H).
  destruct (encode_cases _ _ _ _ _ _ Ht H) as (pre & bs & rest & E0 & Hs & Hl & -> & Hc).
  pose proof (esteps_final _ _ _ _ _ Ht Hs) as Hs'.
  pose proof (encode_from_steps e false cs pre bs rest out Ht Hs Hl) as HF.
  destruct (enc_next_final e rest) as [Ef|Ef].
  - left. rewrite HF.
    + rewrite Ef. apply encode_from_steps; try assumption. rewrite <- Ef. destruct (enc_next e false rest); try exact I.
      destruct Hc as [(_ & ?)|(? & ? & _ & X & _)]; [assumption|discriminate].
    + destruct (enc_next e false rest); try exact I. destruct Hc as [(_ & ?)|(? & ? & _ & X & _)]; [assumption|discriminate].
  - pose proof (enc_next_facts e false rest) as F. rewrite Ef in F. cbn in F. destruct F as (_ & -> & Hc2).
    rewrite Ef in HF. specialize (HF I).
    assert (X : exists c, (c = 0xCA \/ c = 0xEA)%N /\ rest = [c]) by (destruct Hc2 as [->| ->]; eexists; split; try reflexivity; auto).
    destruct X as (c & Hcc & ->).
    assert (exists w, enc_next Big5WHATWG true [c] = EUnit 1 w) as (w & Hw).
    { destruct Hcc as [->| ->]; vm_compute; eexists; reflexivity. }
    destruct (enc_next_unit Big5WHATWG true [c] 1 w) as (_ & Hu & _); [apply text_app with pre; rewrite <- E0; exact Ht|exact Hw|].
    cbn [firstn] in Hu.
    destruct (le_lt_dec (length bs + length w) (length out)) as [Hfit|Hno].
    + right. exists pre, c, bs, w. do 2 eexists. split; [exact E0|]. split; [reflexivity|]. split; [exact Hcc|]. split; [exact Hu|].
      split; [exact HF|].
      assert (Hs2 : esteps (enc_next Big5WHATWG true) cs (pre ++ [c]) (bs ++ w) []).
      { eapply esteps_app; [exact Hs'|]. rewrite <- (app_nil_r w). apply (esteps_unit _ [c] 1 w [] [] []); [exact Hw|constructor]. }
      rewrite (encode_from_steps _ _ _ _ _ _ out Ht Hs2); [|rewrite app_length; exact Hfit|rewrite enc_next_nil; exact I].
      rewrite enc_next_nil, E0. reflexivity.
    + left. rewrite HF. rewrite (encode_from_steps _ _ _ _ _ _ out Ht Hs' Hl); rewrite Hw; [reflexivity|exact Hno].
Qed.

Lemma decode_flag e bs out : bytes bs ->
  decode_to_str e bs out true = decode_to_str e bs out false \/
  exists s n buf, n < length bs /\ Undecodable e (skipn n bs) /\ Incomplete e (skipn n bs) /\
    decode_to_str e bs out false = Ret (Ok (s, n), buf) /\
    decode_to_str e bs out true = Ret (Err (DecodeError InvalidData (n, length bs) (length s)), buf).
Proof.
  intros Hb. destruct (decode_total e false bs out Hb) as (r & buf & H).
  destruct (decode_cases _ _ _ _ _ _ Hb H) as (pre & cs & rest & E0 & Hs & Hl & -> & Hc).
  pose proof (dsteps_flag _ _ true _ _ _ _ Hb Hs) as Hs'.
  pose proof (decode_from_steps e false bs pre cs rest out Hb Hs Hl) as HF.
  assert (Hr : bytes rest) by (eapply dsteps_rest_bytes; eassumption).
  destruct (dec_next_final e rest Hr) as [Ef|(Ef & Et)].
  - left. rewrite HF.
    + rewrite Ef. apply decode_from_steps; try assumption. rewrite <- Ef. destruct (dec_next e false rest); try exact I.
      destruct Hc as [(_ & ?)|(? & X & _)]; [assumption|discriminate].
    + destruct (dec_next e false rest); try exact I. destruct Hc as [(_ & ?)|(? & X & _)]; [assumption|discriminate].
  - rewrite Ef in HF. specialize (HF I). pose proof (decode_from_steps e true bs pre cs rest out Hb Hs' Hl) as HT.
    rewrite Et in HT. specialize (HT I). destruct (length (utf8 cs) + decode_room e <=? length out).
    + right. pose proof (dec_next_facts e false rest Hr) as F. rewrite Ef in F. cbn in F. destruct F as (_ & Hne & HI).
      exists (utf8 cs), (length pre), (frame (utf8 cs) out). rewrite E0, app_length, skipn_len_app.
      split; [destruct rest; [congruence|cbn; lia]|]. split; [apply (dec_bad_undecodable e false); intros ? ?; congruence|].
      split; [exact HI|]. rewrite <- E0. split; [exact HF|exact HT].
    + left. congruence.
Qed.

(** ** C42 *)

Lemma decode_deferred e ie bs out s n buf er big buf' out' : bytes bs ->
  decode_to_str e bs out ie = Ret (Ok (s, n), buf) ->
  decode_to_str e bs big ie = Ret (Err er, buf') -> fst (de_range er) = n -> 1 <= length out' ->
  decode_to_str e (skipn n bs) out' ie = Ret (Err (DecodeError InvalidData (0, snd (de_range er) - n) 0), out').
Proof.
  intros Hb H1 H2 Hn Ho.
  destruct (decode_cases _ _ _ _ _ _ Hb H2) as (pre & cs & rest & E0 & Hs & Hl & -> & [(E & _)|(m & Hbad & Hroom & E)]); [discriminate|].
  injection E as ->. cbn [de_range fst snd] in *. subst n. subst bs. rewrite skipn_len_app.
  assert (Hr : bytes rest) by (apply bytes_app in Hb; apply Hb).
  rewrite (decode_from_steps e ie rest [] [] rest out' Hr); [|constructor|cbn; lia|rewrite Hbad; exact I].
  rewrite Hbad. cbn [utf8 flat_map length]. replace (0 + decode_room e <=? length out') with true by (symmetry; apply Nat.leb_le; destruct e; cbn [decode_room encode_room]; lia).
  rewrite frame_nil. replace (length pre + m - length pre) with m by lia. reflexivity.
Qed.

Lemma encode_deferred e ie cs out s n buf er big buf' out' : text cs ->
  encode_from_str e (utf8 cs) out ie = Ret (Ok (s, n), buf) ->
  encode_from_str e (utf8 cs) big ie = Ret (Err er, buf') -> fst (ee_range er) = n -> 2 <= length out' ->
  encode_from_str e (skipn n (utf8 cs)) out' ie =
    Ret (Err (EncodeError (ee_character er) (0, snd (ee_range er) - n) 0), out').
Proof.
  intros Ht H1 H2 Hn Ho.
  destruct (encode_cases _ _ _ _ _ _ Ht H2) as (pre & bs & rest & E0 & Hs & Hl & -> & [(E & _)|(c & r & Er & Hbad & Hroom & E)]); [discriminate|].
  injection E as ->. cbn [ee_range ee_character fst snd] in *. subst n cs. rewrite utf8_app, skipn_len_app.
  assert (Hr : text rest) by (apply text_app in Ht; apply Ht).
  rewrite (encode_from_steps e ie rest [] [] rest out' Hr); [|constructor|cbn; lia|rewrite Hbad; exact I].
  rewrite Hbad. cbn [utf8 flat_map length]. replace (0 + encode_room e <=? length out') with true by (symmetry; apply Nat.leb_le; destruct e; cbn [decode_room encode_room]; lia).
  rewrite frame_nil. replace (length (utf8 pre) + length (utf8_char c) - length (utf8 pre)) with (length (utf8_char c)) by lia. reflexivity.
Qed.

(** ** C43 *)

Lemma big5_high p c : In (p, c) big5_index -> (0x80 <= c)%N.
Proof. intros H. destruct big5_facts as (_ & _ & _ & _ & F & _). apply (F p c H). Qed.

Lemma jis_high p c : In (p, c) jis0208_index -> (0x80 < c)%N.
Proof.
  intros H. destruct sjis_facts as (_ & _ & _ & _ & F & _). destruct (F p c H) as (X & _). clear -X. unfold sjis_special in X. lia.
Qed.

Lemma utf8_char_ge2 c : (0x80 <= c)%N -> 2 <= length (utf8_char c).
Proof. intros H. unfold utf8_char. bfalse (c <? 0x80)%N. repeat bcase; cbn; lia. Qed.

Lemma utf8_char_len4 c : (0x10000 <= c)%N -> length (utf8_char c) = 4.
Proof. intros H. unfold utf8_char. bfalse (c <? 0x80)%N. bfalse (c <? 0x800)%N. bfalse (c <? 0x10000)%N. reflexivity. Qed.

Lemma unit16_two big x : length (unit16 big x) = 2.
Proof. destruct big; reflexivity. Qed.

Lemma EncUnit_factor e u w : EncUnit e u w -> length w <= encode_factor e * length (utf8 u).
Proof.
  assert (P : forall c, 1 <= length (utf8 [c])) by (intros c; rewrite utf8_single; apply utf8_char_pos).
  assert (H16 : forall big c, length (utf16_char big c) <= 2 * length (utf8 [c])).
  { intros big c. rewrite utf8_single. unfold utf16_char. destruct (N.ltb_spec c 0x10000).
    - rewrite unit16_two. pose proof (utf8_char_pos c). lia.
    - rewrite app_length, !unit16_two, utf8_char_len4 by assumption. lia. }
  assert (H32 : forall big c, length (utf32_char big c) <= 4 * length (utf8 [c])).
  { intros big c. specialize (P c). destruct big; cbn [utf32_char length]; lia. }
  assert (H2 : forall c, (0x80 <= c)%N -> 2 <= length (utf8 [c])) by (intros; rewrite utf8_single; apply utf8_char_ge2; assumption).
  destruct e; cbn [EncUnit encode_factor].
  - intros (c & Hc & -> & ->). rewrite utf8_single. lia.
  - intros (c & Hc & -> & ->). apply H16.
  - intros (c & Hc & -> & ->). apply H16.
  - intros (c & Hc & -> & ->). apply H32.
  - intros (c & Hc & -> & ->). apply H32.
  - intros [(c & Hc & -> & ->)|[(c & p & [Hp _] & -> & ->)|(p & Hp & ->)]].
    + specialize (P c). cbn [length] in *. lia.
    + rewrite big5_code_len. apply big5_high in Hp. specialize (H2 c ltac:(lia)). lia.
    + rewrite big5_code_len. cbn in Hp. destruct Hp as [H|[H|[H|[H|[]]]]]; injection H as <- <-; cbn; lia.
  - assert (HJ : forall c p, sjis_pointer c p -> 2 <= length (utf8 [c])).
    { intros c p (Hp & _). apply jis_high in Hp. apply H2. lia. }
    intros [(c & Hc & -> & ->)|[(-> & ->)|[(-> & ->)|[(c & Hc & -> & ->)|[(c & Hc & -> & ->)|[(p & Hp & -> & ->)|(c & p & Hp & -> & ->)]]]]]].
    + specialize (P c). cbn [length] in *. lia.
    + cbn. lia.
    + cbn. lia.
    + specialize (P c). cbn [length] in *. lia.
    + rewrite sjis_code_len. specialize (H2 c ltac:(lia)). lia.
    + rewrite sjis_code_len. cbn. lia.
    + rewrite sjis_code_len. specialize (HJ _ _ Hp). lia.
  - intros (b & c & _ & -> & ->). specialize (P c). cbn [length] in *. lia.
Qed.

Lemma Encoded_factor e cs bs : Encoded e cs bs -> length bs <= encode_factor e * length (utf8 cs).
Proof.
  induction 1 as [|u w cs bs Hu Hl HE IH]; [cbn; lia|]. apply EncUnit_factor in Hu. rewrite utf8_app, !app_length. lia.
Qed.

Lemma utf8_char_le3 c : (c < 0x10000)%N -> length (utf8_char c) <= 3.
Proof. intros H. unfold utf8_char. repeat bcase; cbn; lia. Qed.

Lemma utf8_char_le1 c : (c < 0x80)%N -> length (utf8_char c) = 1.
Proof. intros H. unfold utf8_char. btrue (c <? 0x80)%N. reflexivity. Qed.

Lemma DecUnit_factor e w u : DecUnit e w u -> 2 * length (utf8 u) <= decode_factor2 e * length w.
Proof.
  assert (H16 : forall big c, 2 * length (utf8 [c]) <= 3 * length (utf16_char big c)).
  { intros big c. rewrite utf8_single. unfold utf16_char. destruct (N.ltb_spec c 0x10000).
    - rewrite unit16_two. pose proof (utf8_char_le3 c ltac:(assumption)). lia.
    - rewrite app_length, !unit16_two, utf8_char_len4 by assumption. lia. }
  assert (H32 : forall big c, length (utf8 [c]) <= length (utf32_char big c)).
  { intros big c. rewrite utf8_single. pose proof (utf8_char_pos c). destruct big; cbn [utf32_char length]; lia. }
  intros Hu. pose proof (DecUnit_size _ _ _ Hu) as H6. pose proof (DecUnit_size4 _ _ _ Hu) as H4.
  destruct e; cbn [decode_factor2]; try lia; cbn [DecUnit] in Hu.
  - destruct Hu as (c & Hc & -> & ->). rewrite utf8_single. lia.
  - destruct Hu as (c & Hc & -> & ->). apply H16.
  - destruct Hu as (c & Hc & -> & ->). apply H16.
  - destruct Hu as (c & Hc & -> & ->). specialize (H32 true c). lia.
  - destruct Hu as (c & Hc & -> & ->). specialize (H32 false c). lia.
  - destruct Hu as [(b & Hb & -> & ->)|[(p & c & Hp & -> & ->)|(p & Hp & ->)]].
    + rewrite utf8_single, utf8_char_le1 by assumption. cbn. lia.
    + rewrite big5_code_len in *. lia.
    + rewrite big5_code_len in *. lia.
Qed.

Lemma Decoded_factor e bs cs : Decoded e bs cs -> 2 * length (utf8 cs) <= decode_factor2 e * length bs.
Proof.
  induction 1 as [|w u bs cs Hu HD IH]; [cbn; lia|]. apply DecUnit_factor in Hu. rewrite utf8_app, !app_length. lia.
Qed.
