(* The decision functions of all encodings under one roof, and how they relate to the specification's units. *)
From Coq Require Import List NArith Arith Bool Lia ZArith.
From Verif Require Import Tac Encodings Spec SpecErrors Prelude RustCore Types ProofUtf8 Engine Search NextEnc NextDec NextUtf8 Tables.
From Verif Require Import TabBig5 TabSjis RefBig5 RefSjis ModelSingleByte ModelBig5 ModelShiftJis ModelApi.
From Verif Require Import ModelUtf8 ModelUtf16Le ModelUtf16Be EndianUtf16 ModelUtf32Le ModelUtf32Be EndianUtf32.
Import ListNotations.
Local Open Scope N_scope.

Definition enc_next (e : encoding) (is_end : bool) : list N -> eact :=
  match e with
  | Utf8 => utf_enc_next utf8_char
  | Utf16BE => utf_enc_next (utf16_char true)
  | Utf16LE => utf_enc_next (utf16_char false)
  | Utf32BE => utf_enc_next (utf32_char true)
  | Utf32LE => utf_enc_next (utf32_char false)
  | Big5WHATWG => big5_enc_next big5_encode_table is_end
  | ShiftJISWHATWG => sjis_enc_next sjis_encode_table
  | Single m => sb_enc_next (sb_encode_table m)
  end.

Definition dec_next (e : encoding) (is_end : bool) : list N -> dact :=
  match e with
  | Utf8 => utf8_dec_next is_end
  | Utf16BE => utf16_dec_next true is_end
  | Utf16LE => utf16_dec_next false is_end
  | Utf32BE => utf32_dec_next true is_end
  | Utf32LE => utf32_dec_next false is_end
  | Big5WHATWG => big5_dec_next big5_decode_table is_end
  | ShiftJISWHATWG => sjis_dec_next sjis_decode_table is_end
  | Single m => sb_dec_next (sb_decode_table m)
  end.

Theorem encode_outcome e is_end cs out : text cs ->
  enc_outcome (enc_next e is_end) (encode_room e) cs out (encode_from_str e (utf8 cs) out is_end).
Proof.
  intros Hcs. destruct e; cbn [enc_next encode_room encode_from_str].
  - apply utf8_encode_outcome, Hcs.
  - rewrite utf16_be_encode_same. apply run_encoder_outcome; [apply utf16_body_ok|exact Hcs].
  - rewrite utf16_le_encode_same. apply run_encoder_outcome; [apply utf16_body_ok|exact Hcs].
  - rewrite utf32_be_encode_same. apply run_encoder_outcome; [apply utf32_body_ok|exact Hcs].
  - rewrite utf32_le_encode_same. apply run_encoder_outcome; [apply utf32_body_ok|exact Hcs].
  - apply run_encoder_outcome; [apply big5_body_ok, big5_facts|exact Hcs].
  - apply run_encoder_outcome; [apply sjis_body_ok, sjis_facts|exact Hcs].
  - apply run_encoder_outcome; [apply sb_body_ok, sb_facts|exact Hcs].
Qed.

Theorem decode_outcome e is_end bs out : bytes bs ->
  dec_outcome (dec_next e is_end) (decode_room e) bs out (decode_to_str e bs out is_end).
Proof.
  intros Hb. destruct e; cbn [dec_next decode_room decode_to_str].
  - apply utf8_decode_outcome, Hb.
  - rewrite utf16_be_decode_same. exact (run_decoder_outcome _ _ _ _ _ (utf16_dec_body_ok _ _ _) Hb out).
  - rewrite utf16_le_decode_same. exact (run_decoder_outcome _ _ _ _ _ (utf16_dec_body_ok _ _ _) Hb out).
  - rewrite utf32_be_decode_same. exact (run_decoder_outcome _ _ _ _ _ (utf32_dec_body_ok _ _ _) Hb out).
  - rewrite utf32_le_decode_same. exact (run_decoder_outcome _ _ _ _ _ (utf32_dec_body_ok _ _ _) Hb out).
  - exact (run_decoder_outcome (fun bs => bs) _ _ _ _ (big5_dec_body_ok _ _ _ (proj1 (proj2 big5_facts))) Hb out).
  - exact (run_decoder_outcome (fun bs => bs) _ _ _ _ (sjis_dec_body_ok _ _ _ (proj1 (proj2 sjis_facts))) Hb out).
  - destruct (sb_facts m) as (_ & Hlen & Ht & _).
    exact (run_decoder_outcome (fun bs => bs) _ _ _ _ (sb_dec_body_ok _ _ Ht Hlen) Hb out).
Qed.

(** ** Decoding units *)

Lemma In_ascii b c : In (b, c) ascii_pairs <-> b < 128 /\ c = b.
Proof.
  unfold ascii_pairs. rewrite in_map_iff. split.
  - intros (i & E & Hi). injection E as <- <-. apply in_seq in Hi. lia.
  - intros [H ->]. exists (N.to_nat b). rewrite N2Nat.id. split; [reflexivity|]. apply in_seq. lia.
Qed.

Lemma charset_low m b c : b < 128 -> In (b, c) (charset m) <-> c = b.
Proof.
  intros Hb. destruct (sb_facts m) as (_ & _ & _ & E & _). rewrite E, in_app_iff, In_ascii, entries_In. split.
  - intros [[_ H]|[H _]]; [exact H|lia].
  - intros ->. left. auto.
Qed.

Lemma charset_high m b c : 128 <= b -> In (b, c) (charset m) <-> table_get (sb_decode_table m) (b - 128) = Some c.
Proof.
  intros Hb. destruct (sb_facts m) as (_ & _ & _ & E & _). rewrite E, in_app_iff, In_ascii, entries_In. split.
  - intros [[H _]|[_ H]]; [lia|exact H].
  - intros H. right. auto.
Qed.

Lemma charset_byte m b c : In (b, c) (charset m) -> b < 256 /\ scalar c.
Proof.
  intros H. destruct (N.lt_ge_cases b 128) as [L|L].
  - apply charset_low in H; [|exact L]. subst. split; [lia|]. unfold scalar. lia.
  - apply charset_high in H; [|exact L]. destruct (sb_facts m) as (_ & Hlen & Ht & _).
    split; [|eapply table_get_scalar; eauto].
    unfold table_get in H. destruct (nth_error _ _) eqn:E; [|discriminate].
    assert (X : nth_error (sb_decode_table m) (N.to_nat (b - 128)) <> None) by congruence. apply nth_error_Some in X. lia.
Qed.

(* pointers and codes *)
Lemma big5_code_ptr p : p < 19782 -> exists b1 b2, big5_code p = [b1; b2] /\ 0x81 <= b1 <= 0xFE /\
  (0x40 <= b2 <= 0x7E \/ 0xA1 <= b2 <= 0xFE) /\
  (b1 - 0x81) * 157 + (b2 - (if b2 <? 0x7F then 0x40 else 0x62)) = p.
Proof.
  intros H. unfold big5_code. eexists _, _. split; [reflexivity|].
  pose proof (N.div_mod' p 157). pose proof (N.mod_lt p 157 ltac:(lia)).
  assert (p / 157 < 126) by lia. set (l := p / 157) in *. set (t := p mod 157) in *. clearbody l t.
  destruct (N.ltb_spec t 0x3F).
  - btrue (t + 64 <? 127). lia.
  - bfalse (t + 98 <? 127). lia.
Qed.

Lemma big5_ptr_code b1 b2 : 0x81 <= b1 <= 0xFE -> 0x40 <= b2 <= 0x7E \/ 0xA1 <= b2 <= 0xFE ->
  big5_code ((b1 - 0x81) * 157 + (b2 - (if b2 <? 0x7F then 0x40 else 0x62))) = [b1; b2] /\
  (b1 - 0x81) * 157 + (b2 - (if b2 <? 0x7F then 0x40 else 0x62)) < 19782.
Proof.
  intros H1 H2.
  set (t := b2 - (if b2 <? 0x7F then 0x40 else 0x62)). set (l := b1 - 0x81).
  assert (Ht : t < 157 /\ b2 = t + (if t <? 0x3F then 0x40 else 0x62)).
  { unfold t. destruct (N.ltb_spec b2 0x7F).
    - btrue (b2 - 64 <? 63). lia.
    - bfalse (b2 - 98 <? 63). lia. }
  destruct Ht as [Ht E]. assert (Hl : l < 126 /\ b1 = 0x81 + l) by lia. clearbody t l.
  split; [|lia]. unfold big5_code.
  replace ((l * 157 + t) / 157) with l by lia. replace ((l * 157 + t) mod 157) with t by lia.
  rewrite <- E. destruct Hl as [_ <-]. reflexivity.
Qed.

Lemma sjis_code_ptr p : p < 11280 -> exists b1 b2, sjis_code p = [b1; b2] /\ (0x81 <= b1 <= 0x9F \/ 0xE0 <= b1 <= 0xFC) /\
  (0x40 <= b2 <= 0x7E \/ 0x80 <= b2 <= 0xFC) /\
  (b1 - (if b1 <? 0xA0 then 0x81 else 0xC1)) * 188 + (b2 - (if b2 <? 0x7F then 0x40 else 0x41)) = p.
Proof.
  intros H. unfold sjis_code. eexists _, _. split; [reflexivity|].
  pose proof (N.div_mod' p 188). pose proof (N.mod_lt p 188 ltac:(lia)).
  assert (p / 188 < 60) by lia. set (l := p / 188) in *. set (t := p mod 188) in *. clearbody l t.
  destruct (N.ltb_spec l 0x1F); destruct (N.ltb_spec t 0x3F).
  - btrue (t + 64 <? 127). btrue (l + 129 <? 160). lia.
  - bfalse (t + 65 <? 127). btrue (l + 129 <? 160). lia.
  - btrue (t + 64 <? 127). bfalse (l + 193 <? 160). lia.
  - bfalse (t + 65 <? 127). bfalse (l + 193 <? 160). lia.
Qed.

Lemma sjis_ptr_code b1 b2 : 0x81 <= b1 <= 0x9F \/ 0xE0 <= b1 <= 0xFC -> 0x40 <= b2 <= 0x7E \/ 0x80 <= b2 <= 0xFC ->
  sjis_code ((b1 - (if b1 <? 0xA0 then 0x81 else 0xC1)) * 188 + (b2 - (if b2 <? 0x7F then 0x40 else 0x41))) = [b1; b2].
Proof.
  intros H1 H2.
  set (t := b2 - (if b2 <? 0x7F then 0x40 else 0x41)). set (l := b1 - (if b1 <? 0xA0 then 0x81 else 0xC1)).
  assert (Ht : t < 188 /\ b2 = t + (if t <? 0x3F then 0x40 else 0x41)).
  { unfold t. destruct (N.ltb_spec b2 0x7F).
    - btrue (b2 - 64 <? 63). lia.
    - bfalse (b2 - 65 <? 63). lia. }
  assert (Hl : b1 = l + (if l <? 0x1F then 0x81 else 0xC1)).
  { unfold l. destruct (N.ltb_spec b1 0xA0).
    - btrue (b1 - 129 <? 31). lia.
    - bfalse (b1 - 193 <? 31). lia. }
  destruct Ht as [Ht E]. clearbody t l.
  unfold sjis_code.
  replace ((l * 188 + t) / 188) with l by lia. replace ((l * 188 + t) mod 188) with t by lia.
  rewrite <- E, <- Hl. reflexivity.
Qed.

Lemma u16_unit16 big x : x < 65536 -> exists a b, unit16 big x = [a; b] /\ a < 256 /\ b < 256 /\ u16_from_bytes big a b = x.
Proof.
  intros H. unfold unit16, u16_from_bytes, u16_from_be_bytes, u16_from_le_bytes. destruct big; eexists _, _; (split; [reflexivity|]); lia.
Qed.

Lemma unit16_u16 big a b : a < 256 -> b < 256 -> unit16 big (u16_from_bytes big a b) = [a; b].
Proof.
  intros Ha Hb. unfold unit16, u16_from_bytes, u16_from_be_bytes, u16_from_le_bytes. destruct big; f_equal; try lia; f_equal; lia.
Qed.

Lemma bytes_head b bs : bytes (b :: bs) -> b < 256 /\ bytes bs.
Proof. intros H. inversion H; auto. Qed.

(** from units to decisions *)

Lemma utf16_unit_next big c r is_end : scalar c ->
  utf16_dec_next big is_end (utf16_char big c ++ r) = DUnit (length (utf16_char big c)) [c].
Proof.
  intros Hc. unfold scalar in Hc. unfold utf16_char. destruct (N.ltb_spec c 0x10000).
  - destruct (u16_unit16 big c) as (a & b & -> & Ha & Hb & E); [lia|]. cbn [app utf16_dec_next length]. rewrite E.
    btrue ((c <? 0xD800) || (0xDFFF <? c)). reflexivity.
  - destruct (u16_unit16 big (0xD800 + (c - 0x10000) / 1024)) as (a & b & -> & Ha & Hb & E); [lia|].
    destruct (u16_unit16 big (0xDC00 + (c - 0x10000) mod 1024)) as (a' & b' & -> & Ha' & Hb' & E'); [lia|].
    cbn [app utf16_dec_next length]. rewrite E, E'.
    pose proof (N.div_mod' (c - 0x10000) 1024). pose proof (N.mod_lt (c - 0x10000) 1024 ltac:(lia)).
    assert ((c - 0x10000) / 1024 < 1024) by lia.
    set (q := (c - 0x10000) / 1024) in *. set (m := (c - 0x10000) mod 1024) in *. clearbody q m.
    bfalse ((0xD800 + q <? 0xD800) || (0xDFFF <? 0xD800 + q)). bfalse (0xDC00 <=? 0xD800 + q).
    btrue ((0xDC00 <=? 0xDC00 + m) && (0xDC00 + m <? 0xE000)). f_equal. f_equal. lia.
Qed.

Lemma utf32_unit_next big c r is_end : scalar c ->
  utf32_dec_next big is_end (utf32_char big c ++ r) = DUnit (length (utf32_char big c)) [c].
Proof.
  intros Hc. pose proof Hc as Hs. unfold scalar in Hc. unfold utf32_char.
  assert (E : c / 65536 * 65536 + (c / 256) mod 256 * 256 + c mod 256 = c) by lia.
  destruct big; cbn [app utf32_dec_next length]; unfold u32_from_bytes, u32_from_be_bytes, u32_from_le_bytes.
  - replace (((0 * 256 + c / 65536) * 256 + (c / 256) mod 256) * 256 + c mod 256) with c by lia.
    rewrite is_char_true by assumption. reflexivity.
  - replace (((0 * 256 + c / 65536) * 256 + (c / 256) mod 256) * 256 + c mod 256) with c by lia.
    rewrite is_char_true by assumption. reflexivity.
Qed.

Lemma big5_unit_next p r is_end : p < 19782 ->
  match table_get big5_decode_table p with
  | Some c => big5_dec_next big5_decode_table is_end (big5_code p ++ r) = DUnit 2 [c]
  | None => match assoc big5_sequences p with
            | Some cs => big5_dec_next big5_decode_table is_end (big5_code p ++ r) = DUnit 2 cs
            | None => True
            end
  end.
Proof.
  intros Hp. destruct (big5_code_ptr p Hp) as (b1 & b2 & -> & H1 & H2 & E).
  assert (E' : big5_dec_next big5_decode_table is_end ([b1; b2] ++ r) =
    match table_get big5_decode_table p with
    | Some c => DUnit 2 [c]
    | None => match assoc big5_sequences p with Some cs => DUnit 2 cs | None => DBad (if b2 <=? 127 then 1 else 2) end
    end).
  { cbn [app big5_dec_next]. bfalse (b1 <=? 127). bfalse ((b1 =? 0x80) || (b1 =? 0xFF)).
    bfalse ((b2 <? 0x40) || (0xFE <? b2) || ((0x7E <? b2) && (b2 <? 0xA1))). rewrite E. reflexivity. }
  rewrite E'. destruct (table_get big5_decode_table p); [reflexivity|]. destruct (assoc big5_sequences p); auto.
Qed.

Lemma sjis_unit_next p r is_end : p < 11280 ->
  sjis_dec_next sjis_decode_table is_end (sjis_code p ++ r) =
  if (8836 <=? p) && (p <=? 10715) then DUnit 2 [p - 8836 + 0xE000]
  else match table_get sjis_decode_table p with
       | Some c => DUnit 2 [c]
       | None => DBad (if snd (hd 0 (sjis_code p), nth 1 (sjis_code p) 0) <=? 127 then 1 else 2)
       end.
Proof.
  intros Hp. destruct (sjis_code_ptr p Hp) as (b1 & b2 & -> & H1 & H2 & E).
  cbn [app sjis_dec_next snd nth]. bfalse (b1 <=? 128). bfalse ((0xA1 <=? b1) && (b1 <=? 0xDF)).
  bfalse ((0x9F <? b1) && (b1 <? 0xE0) || (0xFC <? b1)).
  bfalse ((b2 <? 0x40) || (b2 =? 0x7F) || (0xFC <? b2)). rewrite E. reflexivity.
Qed.

Lemma In_sequences p cs : In (p, cs) big5_sequences -> assoc big5_sequences p = Some cs /\ p < 19782.
Proof.
  unfold big5_sequences. cbn [In]. intros [H|[H|[H|[H|[]]]]]; injection H as <- <-; (split; [reflexivity|lia]).
Qed.

Lemma sjis_code_len p : length (sjis_code p) = 2%nat.
Proof. reflexivity. Qed.
Lemma big5_code_len p : length (big5_code p) = 2%nat.
Proof. reflexivity. Qed.

Lemma dec_unit_next e w u r is_end : DecUnit e w u -> dec_next e is_end (w ++ r) = DUnit (length w) u.
Proof.
  destruct e; cbn [DecUnit dec_next].
  - intros (c & Hc & -> & ->). apply utf8_dec_next_char, Hc.
  - intros (c & Hc & -> & ->). apply utf16_unit_next, Hc.
  - intros (c & Hc & -> & ->). apply utf16_unit_next, Hc.
  - intros (c & Hc & -> & ->). apply utf32_unit_next, Hc.
  - intros (c & Hc & -> & ->). apply utf32_unit_next, Hc.
  - destruct big5_facts as (_ & _ & Hidx & _ & Hin & Hseq & _). intros [(b & Hb & -> & ->)|[(p & c & Hp & -> & ->)|(p & Hp & ->)]].
    + cbn [app big5_dec_next length]. btrue (b <=? 127). reflexivity.
    + destruct (Hin _ _ Hp) as (_ & Hlt & _). pose proof (big5_unit_next p r is_end Hlt) as H.
      apply Hidx in Hp. rewrite Hp in H. exact H.
    + destruct (In_sequences _ _ Hp) as [Ha Hlt]. pose proof (big5_unit_next p r is_end Hlt) as H.
      rewrite (Hseq _ _ Hp), Ha in H. exact H.
  - destruct sjis_facts as (_ & _ & Hidx & _ & Hin & _).
    intros [(b & Hb & -> & ->)|[(b & Hb & -> & ->)|[(p & c & Hp & -> & ->)|(p & Hp & -> & ->)]]].
    + cbn [app sjis_dec_next length]. btrue (b <=? 128). reflexivity.
    + cbn [app sjis_dec_next length]. bfalse (b <=? 128). btrue ((0xA1 <=? b) && (b <=? 0xDF)). reflexivity.
    + destruct (Hin _ _ Hp) as (_ & Hlt & Hne & _). rewrite sjis_unit_next by lia.
      apply Hidx in Hp. rewrite Hp. bfalse ((8836 <=? p) && (p <=? 10715)). reflexivity.
    + rewrite sjis_unit_next by lia. btrue ((8836 <=? p) && (p <=? 10715)). reflexivity.
  - intros (b & c & Hbc & -> & ->). cbn [app sb_dec_next length].
    destruct (N.ltb_spec b 0x80) as [L|L].
    + apply charset_low in Hbc; [|exact L]. subst c. reflexivity.
    + apply charset_high in Hbc; [|exact L]. rewrite Hbc. reflexivity.
Qed.

(** from decisions to units *)

Lemma utf16_next_unit big bs k u is_end : bytes bs -> utf16_dec_next big is_end bs = DUnit k u ->
  (1 <= k <= length bs)%nat /\ exists c, scalar c /\ firstn k bs = utf16_char big c /\ u = [c].
Proof.
  intros Hb. destruct bs as [|b0 [|b1 r]]; cbn [utf16_dec_next]; [discriminate|destruct is_end; discriminate|].
  apply bytes_head in Hb. destruct Hb as [H0 Hb]. apply bytes_head in Hb. destruct Hb as [H1 Hb].
  pose proof (u16_bytes_lt big b0 b1 H0 H1) as Hx. pose proof (unit16_u16 big b0 b1 H0 H1) as Ex.
  set (x := u16_from_bytes big b0 b1) in *. clearbody x.
  destruct ((x <? 0xD800) || (0xDFFF <? x)) eqn:E1.
  - intros E. injection E as <- <-. split; [cbn; lia|]. exists x. split; [unfold scalar; lia|]. split; [|reflexivity].
    unfold utf16_char. btrue (x <? 0x10000). rewrite Ex. reflexivity.
  - destruct (N.leb_spec 0xDC00 x); [discriminate|].
    destruct r as [|b2 [|b3 r]]; [destruct is_end; discriminate|destruct is_end; discriminate|].
    apply bytes_head in Hb. destruct Hb as [H2 Hb]. apply bytes_head in Hb. destruct Hb as [H3 Hb].
    pose proof (u16_bytes_lt big b2 b3 H2 H3) as Hy. pose proof (unit16_u16 big b2 b3 H2 H3) as Ey.
    set (y := u16_from_bytes big b2 b3) in *. clearbody y.
    destruct ((0xDC00 <=? y) && (y <? 0xE000)) eqn:E2; [|discriminate].
    set (c := (x - 0xD800) * 1024 + (y - 0xDC00) + 0x10000).
    assert (Ec : c - 0x10000 = (x - 0xD800) * 1024 + (y - 0xDC00)) by (unfold c; lia).
    assert (Hs : scalar c) by (unfold c, scalar; lia).
    assert (Hge : 0x10000 <= c) by (unfold c; lia). clearbody c.
    intros E. injection E as <- <-. split; [cbn; lia|]. exists c. split; [exact Hs|]. split; [|reflexivity].
    unfold utf16_char. bfalse (c <? 0x10000). rewrite Ec.
    replace (((x - 0xD800) * 1024 + (y - 0xDC00)) / 1024) with (x - 0xD800) by lia.
    replace (((x - 0xD800) * 1024 + (y - 0xDC00)) mod 1024) with (y - 0xDC00) by lia.
    replace (0xD800 + (x - 0xD800)) with x by lia. replace (0xDC00 + (y - 0xDC00)) with y by lia.
    rewrite Ex, Ey. reflexivity.
Qed.

Lemma utf32_next_unit big bs k u is_end : bytes bs -> utf32_dec_next big is_end bs = DUnit k u ->
  (1 <= k <= length bs)%nat /\ exists c, scalar c /\ firstn k bs = utf32_char big c /\ u = [c].
Proof.
  intros Hb. destruct bs as [|b0 [|b1 [|b2 [|b3 r]]]]; cbn [utf32_dec_next];
    [discriminate|destruct is_end; discriminate|destruct is_end; discriminate|destruct is_end; discriminate|].
  apply bytes_head in Hb. destruct Hb as [H0 Hb]. apply bytes_head in Hb. destruct Hb as [H1 Hb].
  apply bytes_head in Hb. destruct Hb as [H2 Hb]. apply bytes_head in Hb. destruct Hb as [H3 Hb].
  destruct (is_char (u32_from_bytes big b0 b1 b2 b3)) eqn:E; [|discriminate].
  intros X. injection X as <- <-. split; [cbn; lia|].
  exists (u32_from_bytes big b0 b1 b2 b3). split; [apply is_char_scalar, E|]. split; [|reflexivity].
  apply is_char_scalar in E. unfold scalar, u32_from_bytes, u32_from_be_bytes, u32_from_le_bytes, utf32_char in *. cbn [firstn].
  destruct big.
  - assert (b0 = 0) by lia. subst b0. f_equal. f_equal; [lia|]. f_equal; [lia|]. f_equal. lia.
  - assert (b3 = 0) by lia. subst b3. f_equal; [lia|]. f_equal; [lia|]. f_equal. lia.
Qed.

Lemma dec_next_unit e bs k u is_end : bytes bs -> dec_next e is_end bs = DUnit k u ->
  (1 <= k <= length bs)%nat /\ DecUnit e (firstn k bs) u.
Proof.
  intros Hb. destruct e; cbn [DecUnit dec_next].
  - destruct (valid_up_to_step bs Hb) as [(c & r & Hc & ->)|Hv].
    + rewrite utf8_dec_next_char by assumption. intros E. injection E as <- <-.
      rewrite app_length. pose proof (utf8_char_pos c). split; [lia|]. exists c.
      rewrite firstn_app_exact. auto.
    + destruct bs as [|b bs]; cbn [utf8_dec_next]; [discriminate|]. rewrite Hv. cbn [Nat.eqb].
      destruct (looks_truncated _ _); [destruct is_end|]; discriminate.
  - intros H. destruct (utf16_next_unit _ _ _ _ _ Hb H) as (Hk & c & Hc). eauto.
  - intros H. destruct (utf16_next_unit _ _ _ _ _ Hb H) as (Hk & c & Hc). eauto.
  - intros H. destruct (utf32_next_unit _ _ _ _ _ Hb H) as (Hk & c & Hc). eauto.
  - intros H. destruct (utf32_next_unit _ _ _ _ _ Hb H) as (Hk & c & Hc). eauto.
  - destruct bs as [|b1 r]; cbn [big5_dec_next]; [discriminate|]. apply bytes_head in Hb. destruct Hb as [H1 Hb].
    destruct (N.leb_spec b1 127) as [L|L].
    { intros E. injection E as <- <-. split; [cbn; lia|]. left. exists b1. split; [lia|]. auto. }
    destruct ((b1 =? 0x80) || (b1 =? 0xFF)) eqn:E1; [discriminate|].
    destruct r as [|b2 r]; [destruct is_end; discriminate|]. apply bytes_head in Hb. destruct Hb as [H2 _].
    destruct ((b2 <? 0x40) || (0xFE <? b2) || ((0x7E <? b2) && (b2 <? 0xA1))) eqn:E2; [discriminate|].
    destruct (big5_ptr_code b1 b2) as [Ec Hlt]; [lia|lia|].
    destruct big5_facts as (_ & _ & Hidx & _ & Hin & Hseq & _).
    set (p := (b1 - 0x81) * 157 + _) in *. clearbody p.
    destruct (table_get big5_decode_table p) as [c|] eqn:Et.
    { intros E. injection E as <- <-. split; [cbn; lia|]. right. left. exists p, c. split; [apply Hidx, Et|]. split; [|reflexivity].
      rewrite Ec. reflexivity. }
    destruct (assoc big5_sequences p) as [cs|] eqn:Es; [|discriminate].
    intros E. injection E as <- <-. split; [cbn; lia|]. right. right. exists p. split; [apply assoc_In, Es|]. rewrite Ec. reflexivity.
  - destruct bs as [|b1 r]; cbn [sjis_dec_next]; [discriminate|]. apply bytes_head in Hb. destruct Hb as [H1 Hb].
    destruct (N.leb_spec b1 128) as [L|L].
    { intros E. injection E as <- <-. split; [cbn; lia|]. left. exists b1. split; [lia|]. auto. }
    destruct ((0xA1 <=? b1) && (b1 <=? 0xDF)) eqn:E0.
    { intros E. injection E as <- <-. split; [cbn; lia|]. right. left. exists b1. split; [lia|]. auto. }
    destruct ((0x9F <? b1) && (b1 <? 0xE0) || (0xFC <? b1)) eqn:E1; [discriminate|].
    destruct r as [|b2 r]; [destruct is_end; discriminate|]. apply bytes_head in Hb. destruct Hb as [H2 _].
    destruct ((b2 <? 0x40) || (b2 =? 0x7F) || (0xFC <? b2)) eqn:E2; [discriminate|].
    pose proof (sjis_ptr_code b1 b2 ltac:(lia) ltac:(lia)) as Ec.
    destruct sjis_facts as (_ & _ & Hidx & _ & Hin & _).
    set (p := (b1 - _) * 188 + _) in *. clearbody p.
    destruct ((8836 <=? p) && (p <=? 10715)) eqn:Ep.
    { intros E. injection E as <- <-. split; [cbn; lia|]. right. right. right. exists p. split; [lia|]. split; [|reflexivity].
      rewrite Ec. reflexivity. }
    destruct (table_get sjis_decode_table p) as [c|] eqn:Et; [|discriminate].
    intros E. injection E as <- <-. split; [cbn; lia|]. right. right. left. exists p, c. split; [apply Hidx, Et|]. split; [|reflexivity].
    rewrite Ec. reflexivity.
  - destruct bs as [|b r]; cbn [sb_dec_next]; [discriminate|].
    destruct (N.ltb_spec b 0x80) as [L|L].
    { intros E. injection E as <- <-. split; [cbn; lia|]. exists b, b. split; [apply charset_low; [exact L|reflexivity]|]. auto. }
    destruct (table_get _ _) as [c|] eqn:Et; [|discriminate].
    intros E. injection E as <- <-. split; [cbn; lia|]. exists b, c. split; [apply charset_high; [exact L|exact Et]|]. auto.
Qed.

(** shape of units *)

Lemma sequences_shape p u : In (p, u) big5_sequences -> text u /\ length u = 2%nat.
Proof.
  intros H. split; [eapply sequences_text, In_sequences, H|].
  unfold big5_sequences in H. cbn [In] in H. destruct H as [H|[H|[H|[H|[]]]]]; injection H as <- <-; reflexivity.
Qed.

Lemma unit16_bytes big x : x < 65536 -> bytes (unit16 big x).
Proof.
  intros H. destruct (u16_unit16 big x H) as (a & b & -> & Ha & Hb & _). constructor; [exact Ha|]. constructor; [exact Hb|constructor].
Qed.

Lemma unit16_len big x : length (unit16 big x) = 2%nat.
Proof. destruct big; reflexivity. Qed.

Lemma utf16_char_shape big c : scalar c -> bytes (utf16_char big c) /\ (1 <= length (utf16_char big c) <= 4)%nat.
Proof.
  unfold scalar. intros Hc. unfold utf16_char. destruct (N.ltb_spec c 0x10000).
  - rewrite unit16_len. split; [apply unit16_bytes; assumption|lia].
  - rewrite app_length, !unit16_len. split; [|cbn; lia].
    apply Forall_app. split; apply unit16_bytes; lia.
Qed.

Lemma utf32_char_shape big c : scalar c -> bytes (utf32_char big c) /\ (1 <= length (utf32_char big c) <= 4)%nat.
Proof.
  unfold scalar. intros Hc. unfold utf32_char.
  assert (H1 : c / 65536 < 256) by lia. assert (H2 : (c / 256) mod 256 < 256) by lia. assert (H3 : c mod 256 < 256) by lia.
  destruct big; (split; [repeat (constructor; [assumption || lia|]); constructor|cbn [length]; lia]).
Qed.

Lemma dec_unit_shape e w u : DecUnit e w u -> bytes w /\ (1 <= length w <= 4)%nat /\ text u /\ u <> [].
Proof.
  destruct e; cbn [DecUnit].
  - intros (c & Hc & -> & ->). split; [apply utf8_char_bytes, Hc|]. split; [apply utf8_char_pos|].
    split; [apply text_one, Hc|discriminate].
  - intros (c & Hc & -> & ->). destruct (utf16_char_shape true c Hc). split; [assumption|]. split; [assumption|].
    split; [apply text_one, Hc|discriminate].
  - intros (c & Hc & -> & ->). destruct (utf16_char_shape false c Hc). split; [assumption|]. split; [assumption|].
    split; [apply text_one, Hc|discriminate].
  - intros (c & Hc & -> & ->). destruct (utf32_char_shape true c Hc). split; [assumption|]. split; [assumption|].
    split; [apply text_one, Hc|discriminate].
  - intros (c & Hc & -> & ->). destruct (utf32_char_shape false c Hc). split; [assumption|]. split; [assumption|].
    split; [apply text_one, Hc|discriminate].
  - destruct big5_facts as (_ & Ht & Hidx & _ & Hin & Hseq & _). intros [(b & Hb & -> & ->)|[(p & c & Hp & -> & ->)|(p & Hp & ->)]].
    + split; [repeat constructor; lia|]. split; [cbn; lia|]. split; [apply text_one; unfold scalar; lia|discriminate].
    + destruct (Hin _ _ Hp) as (_ & Hlt & _). destruct (big5_code_ptr p Hlt) as (b1 & b2 & -> & H1 & H2 & _).
      split; [repeat constructor; lia|]. split; [cbn; lia|]. split; [|discriminate]. apply text_one.
      eapply table_get_scalar; [exact Ht|]. apply Hidx, Hp.
    + destruct (In_sequences _ _ Hp) as [Ha Hlt]. destruct (big5_code_ptr p Hlt) as (b1 & b2 & -> & H1 & H2 & _).
      destruct (sequences_shape _ _ Hp) as [Hu Hl].
      split; [repeat constructor; lia|]. split; [cbn; lia|]. split; [exact Hu|]. intros ->. discriminate.
  - destruct sjis_facts as (_ & Ht & Hidx & _ & Hin & _).
    intros [(b & Hb & -> & ->)|[(b & Hb & -> & ->)|[(p & c & Hp & -> & ->)|(p & Hp & -> & ->)]]].
    + split; [repeat constructor; lia|]. split; [cbn; lia|]. split; [apply text_one; unfold scalar; lia|discriminate].
    + split; [repeat constructor; lia|]. split; [cbn; lia|]. split; [apply text_one; unfold scalar; lia|discriminate].
    + destruct (Hin _ _ Hp) as (_ & Hlt & _). destruct (sjis_code_ptr p ltac:(lia)) as (b1 & b2 & -> & H1 & H2 & _).
      split; [repeat constructor; lia|]. split; [cbn; lia|]. split; [|discriminate]. apply text_one.
      eapply table_get_scalar; [exact Ht|]. apply Hidx, Hp.
    + destruct (sjis_code_ptr p ltac:(lia)) as (b1 & b2 & -> & H1 & H2 & _).
      split; [repeat constructor; lia|]. split; [cbn; lia|]. split; [|discriminate]. apply text_one. unfold scalar. lia.
  - intros (b & c & Hbc & -> & ->). destruct (charset_byte _ _ _ Hbc) as [Hb Hc].
    split; [repeat constructor; lia|]. split; [cbn; lia|]. split; [apply text_one, Hc|discriminate].
Qed.

(** ** Encoding units *)

Lemma charset_ascii_char m b c : c < 128 -> In (b, c) (charset m) <-> b = c.
Proof.
  intros Hc. destruct (N.lt_ge_cases b 128) as [L|L].
  - rewrite charset_low by exact L. split; congruence.
  - split; [|lia]. intros H. destruct (sb_facts m) as (_ & _ & _ & _ & _ & Hge). specialize (Hge b c L H). lia.
Qed.

Lemma map_grapheme_spec c d q : map_grapheme c d = Some q <-> exists p, In (p, [c; d]) big5_sequences /\ pair_bytes q = big5_code p.
Proof.
  unfold map_grapheme. split.
  - destruct ((c =? 0xCA) && (d =? 0x304)) eqn:E1.
    { intros X. injection X as <-. exists 1133. split; [|reflexivity]. left. f_equal. f_equal; [lia|]. f_equal. lia. }
    destruct ((c =? 0xCA) && (d =? 0x30C)) eqn:E2.
    { intros X. injection X as <-. exists 1135. split; [|reflexivity]. right. left. f_equal. f_equal; [lia|]. f_equal. lia. }
    destruct ((c =? 0xEA) && (d =? 0x304)) eqn:E3.
    { intros X. injection X as <-. exists 1164. split; [|reflexivity]. right. right. left. f_equal. f_equal; [lia|]. f_equal. lia. }
    destruct ((c =? 0xEA) && (d =? 0x30C)) eqn:E4; [|discriminate].
    { intros X. injection X as <-. exists 1166. split; [|reflexivity]. right. right. right. left. f_equal. f_equal; [lia|]. f_equal. lia. }
  - intros (p & H & E). unfold big5_sequences in H. cbn [In] in H.
    assert (P : forall x y : N * N, pair_bytes x = pair_bytes y -> x = y).
    { intros [] [] X. unfold pair_bytes in X. cbn in X. congruence. }
    destruct H as [H|[H|[H|[H|[]]]]]; injection H as <- <- <-; cbn [N.eqb Pos.eqb andb]; f_equal; apply P; symmetry; exact E.
Qed.

Lemma sequences_letters p c d : In (p, [c; d]) big5_sequences -> c = 0xCA \/ c = 0xEA.
Proof.
  unfold big5_sequences. cbn [In]. intros [H|[H|[H|[H|[]]]]]; injection H as <- <- <-; auto.
Qed.

Lemma sequences_pairs p u : In (p, u) big5_sequences -> exists c d, u = [c; d].
Proof.
  unfold big5_sequences. cbn [In]. intros [H|[H|[H|[H|[]]]]]; injection H as <- <-; eauto.
Qed.

Lemma prefix_one {A} (c : A) (l : list A) : prefix [c] l <-> exists r, l = c :: r.
Proof. unfold prefix. cbn. reflexivity. Qed.

(* the units other than Big5's are single chars *)
Lemma enc_unit_single e u w : e <> Big5WHATWG -> EncUnit e u w -> exists c, u = [c].
Proof.
  intros He. destruct e; cbn [EncUnit]; try congruence.
  1-5: intros (c & _ & -> & _); eauto.
  - intros [(c & _ & -> & _)|[(-> & _)|[(-> & _)|[(c & _ & -> & _)|[(c & _ & -> & _)|[(p & _ & -> & _)|(c & p & _ & -> & _)]]]]]]; eauto.
  - intros (b & c & _ & -> & _). eauto.
Qed.

Lemma enc_unit_shape e u w : EncUnit e u w -> text u /\ (1 <= length u <= 2)%nat /\ bytes w /\ (1 <= length w <= 4)%nat.
Proof.
  destruct e; cbn [EncUnit].
  - intros (c & Hc & -> & ->). destruct (dec_unit_shape Utf8 (utf8_char c) [c]) as (H1 & H2 & H3 & _); [exists c; auto|]. cbn [length]. auto with arith.
  - intros (c & Hc & -> & ->). destruct (dec_unit_shape Utf16BE (utf16_char true c) [c]) as (H1 & H2 & H3 & _); [exists c; auto|]. cbn [length]. auto with arith.
  - intros (c & Hc & -> & ->). destruct (dec_unit_shape Utf16LE (utf16_char false c) [c]) as (H1 & H2 & H3 & _); [exists c; auto|]. cbn [length]. auto with arith.
  - intros (c & Hc & -> & ->). destruct (dec_unit_shape Utf32BE (utf32_char true c) [c]) as (H1 & H2 & H3 & _); [exists c; auto|]. cbn [length]. auto with arith.
  - intros (c & Hc & -> & ->). destruct (dec_unit_shape Utf32LE (utf32_char false c) [c]) as (H1 & H2 & H3 & _); [exists c; auto|]. cbn [length]. auto with arith.
  - intros [(c & Hc & -> & ->)|[(c & p & [Hp _] & -> & ->)|(p & Hp & ->)]].
    + destruct (dec_unit_shape Big5WHATWG [c] [c]) as (H1 & H2 & H3 & _); [left; exists c; auto|]. cbn [length]. auto with arith.
    + destruct (dec_unit_shape Big5WHATWG (big5_code p) [c]) as (H1 & H2 & H3 & _); [right; left; exists p, c; auto|]. cbn [length]. auto with arith.
    + destruct (dec_unit_shape Big5WHATWG (big5_code p) u) as (H1 & H2 & H3 & _); [right; right; exists p; auto|].
      destruct (sequences_shape _ _ Hp) as [_ ->]. auto with arith.
  - intros [(c & Hc & -> & ->)|[(-> & ->)|[(-> & ->)|[(c & Hc & -> & ->)|[(c & Hc & -> & ->)|[(p & (Hp & _) & -> & ->)|(c & p & (Hp & _) & -> & ->)]]]]]].
    + destruct (dec_unit_shape ShiftJISWHATWG [c] [c]) as (H1 & H2 & H3 & _); [left; exists c; auto|]. cbn [length]. auto with arith.
    + split; [apply text_one; unfold scalar; lia|]. split; [cbn; lia|]. split; [repeat constructor; lia|cbn; lia].
    + split; [apply text_one; unfold scalar; lia|]. split; [cbn; lia|]. split; [repeat constructor; lia|cbn; lia].
    + split; [apply text_one; unfold scalar; lia|]. split; [cbn; lia|]. split; [repeat constructor; lia|cbn; lia].
    + split; [apply text_one; unfold scalar; lia|]. split; [cbn; lia|].
      destruct (sjis_code_ptr (c - 0xE000 + 8836) ltac:(lia)) as (b1 & b2 & -> & H1 & H2 & _). split; [repeat constructor; lia|cbn; lia].
    + destruct (dec_unit_shape ShiftJISWHATWG (sjis_code p) [0xFF0D]) as (H1 & H2 & _); [right; right; left; exists p, 0xFF0D; auto|].
      split; [apply text_one; unfold scalar; lia|]. split; [cbn; lia|auto].
    + destruct (dec_unit_shape ShiftJISWHATWG (sjis_code p) [c]) as (H1 & H2 & H3 & _); [right; right; left; exists p, c; auto|]. cbn [length]. auto with arith.
  - intros (b & c & H & -> & ->). destruct (dec_unit_shape (Single m) [b] [c]) as (H1 & H2 & H3 & _); [exists b, c; auto|]. cbn [length]. auto with arith.
Qed.

Lemma longest_single e u c r : e <> Big5WHATWG -> u = [c] -> longest e u r.
Proof. intros He -> u' w' Hu _. destruct (enc_unit_single e u' w' He Hu) as [d ->]. reflexivity. Qed.

Lemma special_cases c : sjis_special c = false ->
  (c <=? 128) = false /\ (c =? 0xA5) = false /\ (c =? 0x203E) = false /\ ((0xFF61 <=? c) && (c <=? 0xFF9F)) = false /\
  ((0xE000 <=? c) && (c <=? 0xE757)) = false /\ (c =? 0x2212) = false.
Proof. unfold sjis_special. lia. Qed.

Lemma enc_unit_next e u w r : EncUnit e u w -> longest e u (u ++ r) -> enc_next e true (u ++ r) = EUnit (length u) w.
Proof.
  intros Hu Hl. destruct e; cbn [EncUnit enc_next] in *.
  1-5: destruct Hu as (c & _ & -> & ->); reflexivity.
  - destruct big5_facts as (_ & Ht & _ & Henc & Hin & Hseq & Hca & Hea).
    destruct Hu as [(c & Hc & -> & ->)|[(c & p & Hp & -> & ->)|(p & Hp & ->)]].
    + cbn [app big5_enc_next length]. btrue (c <=? 127). reflexivity.
    + cbn [app big5_enc_next length]. destruct (Hin p c) as (Hge & Hlt & v & Hv); [apply Hp|].
      bfalse (c <=? 127). rewrite Hv. pose proof Hv as Hv'. apply Henc in Hv'. destruct Hv' as (p' & Hp' & _ & E).
      assert (p' = p).
      { destruct Hp as [Hp1 Hp2], Hp' as [Hp1' Hp2']. specialize (Hp2 _ Hp1'). specialize (Hp2' _ Hp1).
        clear -Hp2 Hp2'. destruct (in_dec N.eq_dec c big5_last); lia. }
      subst p'. rewrite E. destruct ((c =? 0xCA) || (c =? 0xEA)); [|reflexivity].
      destruct r as [|d r]; [reflexivity|]. destruct (map_grapheme c d) as [q|] eqn:Eg; [|reflexivity].
      exfalso. apply map_grapheme_spec in Eg. destruct Eg as (p2 & Hp2 & _).
      specialize (Hl [c; d] (big5_code p2)). cbn [length app] in Hl.
      assert (2 <= 1)%nat; [|lia]. apply Hl; [right; right; exists p2; auto|]. exists r. reflexivity.
    + destruct (sequences_pairs _ _ Hp) as (c & d & ->). cbn [app big5_enc_next length].
      assert (Hv : exists v, assoc big5_encode_table c = Some v).
      { destruct (sequences_letters _ _ _ Hp) as [->| ->]; assumption. }
      destruct Hv as [v Hv].
      assert (Hc : (c <=? 127) = false /\ ((c =? 0xCA) || (c =? 0xEA)) = true).
      { destruct (sequences_letters _ _ _ Hp) as [->| ->]; auto. }
      destruct Hc as [-> ->]. rewrite Hv.
      destruct (map_grapheme c d) as [q|] eqn:Eg.
      * apply map_grapheme_spec in Eg. destruct Eg as (p2 & Hp2 & ->). f_equal. f_equal.
        clear -Hp Hp2. unfold big5_sequences in *. cbn [In] in *.
        destruct Hp as [H|[H|[H|[H|[]]]]]; injection H as <- <- <-; destruct Hp2 as [H|[H|[H|[H|[]]]]]; congruence.
      * exfalso. assert (X : exists q, pair_bytes q = big5_code p) by (exists (hd 0 (big5_code p), nth 1 (big5_code p) 0); reflexivity).
        destruct X as [q Hq]. assert (map_grapheme c d = Some q) by (apply map_grapheme_spec; eauto). congruence.
  - destruct sjis_facts as (_ & Ht & _ & Henc & Hin & Hff).
    assert (Htab : forall c p, sjis_pointer c p -> exists v, assoc sjis_encode_table c = Some v /\ pair_bytes v = sjis_code p).
    { intros c p Hp. destruct (Hin p c) as (_ & _ & _ & v & Hv); [apply Hp|]. exists v. split; [exact Hv|].
      apply Henc in Hv. destruct Hv as (p' & Hp' & E). rewrite E. f_equal.
      destruct Hp as (Hp1 & He & Hp2), Hp' as (Hp1' & He' & Hp2'). specialize (Hp2 _ Hp1' He'). specialize (Hp2' _ Hp1 He). lia. }
    destruct Hu as [(c & Hc & -> & ->)|[(-> & ->)|[(-> & ->)|[(c & Hc & -> & ->)|[(c & Hc & -> & ->)|[(p & Hp & -> & ->)|(c & p & Hp & -> & ->)]]]]]];
      cbn [app sjis_enc_next chars_next length].
    + btrue (c <=? 128). reflexivity.
    + reflexivity.
    + reflexivity.
    + bfalse (c <=? 128). bfalse (c =? 0xA5). bfalse (c =? 0x203E). btrue ((0xFF61 <=? c) && (c <=? 0xFF9F)). reflexivity.
    + bfalse (c <=? 128). bfalse (c =? 0xA5). bfalse (c =? 0x203E). bfalse ((0xFF61 <=? c) && (c <=? 0xFF9F)).
      btrue ((0xE000 <=? c) && (c <=? 0xE757)). reflexivity.
    + destruct (Htab _ _ Hp) as (v & Hv & E). cbn [N.leb N.compare N.eqb Pos.eqb Pos.compare Pos.compare_cont andb]. rewrite Hv, E. reflexivity.
    + destruct (Htab _ _ Hp) as (v & Hv & E). destruct (Hin p c) as (Hs & _); [apply Hp|].
      destruct (special_cases c Hs) as (-> & -> & -> & -> & -> & ->). rewrite Hv, E. reflexivity.
  - destruct Hu as (b & c & Hbc & -> & ->). cbn [app sb_enc_next chars_next length].
    destruct (N.leb_spec c 127) as [L|L].
    + apply charset_ascii_char in Hbc; [|lia]. subst. reflexivity.
    + destruct (sb_facts m) as (_ & _ & _ & _ & Henc & _).
      assert (H : assoc (sb_encode_table m) c = Some b).
      { apply Henc. split; [|exact Hbc]. destruct (N.lt_ge_cases b 128) as [L'|L']; [|exact L'].
        apply charset_low in Hbc; [lia|exact L']. }
      rewrite H. reflexivity.
Qed.

Lemma firstn_1 {A} (c : A) r : firstn 1 (c :: r) = [c].
Proof. reflexivity. Qed.

Lemma enc_next_unit e is_end cs k w : text cs -> enc_next e is_end cs = EUnit k w ->
  (1 <= k <= length cs)%nat /\ EncUnit e (firstn k cs) w /\ longest e (firstn k cs) cs.
Proof.
  intros Hcs. destruct cs as [|c r]; [destruct e; discriminate|].
  assert (Hc : scalar c) by (inversion Hcs; assumption).
  assert (Hone : e <> Big5WHATWG -> EncUnit e [c] w -> k = 1%nat ->
     (1 <= k <= length (c :: r))%nat /\ EncUnit e (firstn k (c :: r)) w /\ longest e (firstn k (c :: r)) (c :: r)).
  { intros He Hu ->. split; [cbn; lia|]. split; [exact Hu|]. eapply longest_single; [exact He|reflexivity]. }
  destruct e; cbn [enc_next].
  1-5: intros E; injection E as <- <-; apply Hone; [discriminate|exists c; auto|reflexivity].
  - clear Hone. destruct big5_facts as (_ & Ht & _ & Henc & Hin & Hseq & Hca & Hea). cbn [big5_enc_next].
    assert (Hshort : (forall d r', r = d :: r' -> map_grapheme c d = None) -> longest Big5WHATWG [c] (c :: r)).
    { intros H u' w' Hu [s Hs]. destruct Hu as [(c' & _ & -> & _)|[(c' & p & _ & -> & _)|(p & Hp & ->)]]; [cbn; lia|cbn; lia|].
      destruct (sequences_pairs _ _ Hp) as (x & y & ->). cbn [app] in Hs. injection Hs as -> ->.
      specialize (H y s eq_refl). exfalso.
      assert (X : exists q, pair_bytes q = big5_code p) by (exists (hd 0 (big5_code p), nth 1 (big5_code p) 0); reflexivity).
      destruct X as [q Hq]. assert (map_grapheme x y = Some q) by (apply map_grapheme_spec; eauto). congruence. }
    assert (Hnog : (c =? 0xCA) || (c =? 0xEA) = false -> forall d r', r = d :: r' -> map_grapheme c d = None).
    { intros E d r' _. unfold map_grapheme. apply orb_false_elim in E. destruct E as [-> ->]. reflexivity. }
    destruct (N.leb_spec c 127) as [L|L].
    { intros E. injection E as <- <-. split; [cbn; lia|]. split; [left; exists c; split; [lia|auto]|]. apply Hshort, Hnog. lia. }
    destruct (assoc big5_encode_table c) as [v|] eqn:Ea; [|discriminate].
    assert (Hu1 : EncUnit Big5WHATWG [c] (pair_bytes v)).
    { right. left. apply Henc in Ea. destruct Ea as (p & Hp & _ & E). exists c, p. rewrite E. auto. }
    assert (Hone : (forall d r', r = d :: r' -> map_grapheme c d = None) -> EUnit 1 (pair_bytes v) = EUnit k w ->
      (1 <= k <= length (c :: r))%nat /\ EncUnit Big5WHATWG (firstn k (c :: r)) w /\ longest Big5WHATWG (firstn k (c :: r)) (c :: r)).
    { intros H E. injection E as <- <-. split; [cbn; lia|]. split; [exact Hu1|]. apply Hshort, H. }
    destruct ((c =? 0xCA) || (c =? 0xEA)) eqn:Eg; [|apply Hone, Hnog; reflexivity].
    destruct r as [|d r].
    { destruct is_end; [|discriminate]. apply Hone. discriminate. }
    destruct (map_grapheme c d) as [q|] eqn:Em.
    + intros E. injection E as <- <-. split; [cbn; lia|]. cbn [firstn]. apply map_grapheme_spec in Em. destruct Em as (p & Hp & E).
      split; [right; right; exists p; auto|]. intros u' w' Hu _. apply enc_unit_shape in Hu. cbn [length]. lia.
    + apply Hone. intros d' r' E. injection E as <- <-. exact Em.
  - destruct sjis_facts as (_ & Ht & _ & Henc & Hin & Hff). cbn [sjis_enc_next chars_next].
    destruct (N.leb_spec c 128).
    { intros E. injection E as <- <-. apply Hone; [discriminate| |reflexivity]. left. exists c. auto. }
    destruct (N.eqb_spec c 0xA5) as [->|].
    { intros E. injection E as <- <-. apply Hone; [discriminate| |reflexivity]. right. left. auto. }
    destruct (N.eqb_spec c 0x203E) as [->|].
    { intros E. injection E as <- <-. apply Hone; [discriminate| |reflexivity]. right. right. left. auto. }
    destruct ((0xFF61 <=? c) && (c <=? 0xFF9F)) eqn:E1.
    { intros E. injection E as <- <-. apply Hone; [discriminate| |reflexivity]. right. right. right. left. exists c. split; [lia|auto]. }
    destruct ((0xE000 <=? c) && (c <=? 0xE757)) eqn:E2.
    { intros E. injection E as <- <-. apply Hone; [discriminate| |reflexivity]. right. right. right. right. left. exists c. split; [lia|auto]. }
    destruct (assoc sjis_encode_table (if c =? 0x2212 then 0xFF0D else c)) as [v|] eqn:Ea; [|intros X; discriminate X].
    intros E. injection E as <- <-. apply Hone; [discriminate| |reflexivity].
    apply Henc in Ea. destruct Ea as (p & Hp & ->). destruct (N.eqb_spec c 0x2212) as [->|].
    + right. right. right. right. right. left. exists p. auto.
    + right. right. right. right. right. right. exists c, p. auto.
  - cbn [sb_enc_next chars_next]. destruct (N.leb_spec c 127) as [L|L].
    + intros E. injection E as <- <-. apply Hone; [discriminate| |reflexivity]. exists c, c. split; [|auto].
      apply charset_ascii_char; [lia|reflexivity].
    + destruct (assoc (sb_encode_table m) c) as [b|] eqn:Ea; [|discriminate]. intros E. injection E as <- <-.
      apply Hone; [discriminate| |reflexivity]. destruct (sb_facts m) as (_ & _ & _ & _ & Henc & _).
      apply Henc in Ea. exists b, c. tauto.
Qed.
