(* Decision functions of the decoders, and the proof that each Rust decoder is the greedy iteration of its own. *)
From Coq Require Import List NArith Arith Bool Lia ZArith.
From Verif Require Import Tac Encodings Spec Prelude RustCore Types ProofUtf8 Engine Search.
From Verif Require Import ModelUtf8 ModelUtf16Le ModelUtf16Be EndianUtf16 ModelUtf32Le ModelUtf32Be EndianUtf32 ModelSingleByte ModelBig5 ModelShiftJis.
Import ListNotations.
Local Open Scope N_scope.

Definition utf16_dec_next (big is_end : bool) (bs : list N) : dact :=
  match bs with
  | [] => DEnd
  | [_] => if is_end then DBad 1 else DHold
  | b0 :: b1 :: r =>
      let x := u16_from_bytes big b0 b1 in
      if (x <? 0xD800) || (0xDFFF <? x) then DUnit 2 [x]
      else if 0xDC00 <=? x then DBad 2
      else match r with
           | b2 :: b3 :: _ =>
               let y := u16_from_bytes big b2 b3 in
               if (0xDC00 <=? y) && (y <? 0xE000)
               then DUnit 4 [(x - 0xD800) * 1024 + (y - 0xDC00) + 0x10000]
               else DBad 2
           | _ => if is_end then DBad (length bs) else DHold
           end
  end.

Definition utf32_dec_next (big is_end : bool) (bs : list N) : dact :=
  match bs with
  | [] => DEnd
  | b0 :: b1 :: b2 :: b3 :: _ =>
      let c := u32_from_bytes big b0 b1 b2 b3 in
      if is_char c then DUnit 4 [c] else DBad 4
  | _ => if is_end then DBad (length bs) else DHold
  end.

(* table entry, U+FFFD meaning none *)
Definition table_get (t : list N) (p : N) : option N :=
  match nth_error t (N.to_nat p) with
  | Some c => if c =? 0xFFFD then None else Some c
  | None => None
  end.

Definition sb_dec_next (t : list N) (bs : list N) : dact :=
  match bs with
  | [] => DEnd
  | b :: _ =>
      if b <? 0x80 then DUnit 1 [b]
      else match table_get t (b - 0x80) with
           | Some c => DUnit 1 [c]
           | None => DBad 1
           end
  end.

Definition big5_dec_next (t : list N) (is_end : bool) (bs : list N) : dact :=
  match bs with
  | [] => DEnd
  | b1 :: r =>
      if b1 <=? 127 then DUnit 1 [b1]
      else if (b1 =? 0x80) || (b1 =? 0xFF) then DBad 1
      else match r with
           | [] => if is_end then DBad 1 else DHold
           | b2 :: _ =>
               let bad := DBad (if b2 <=? 127 then 1 else 2) in
               if (b2 <? 0x40) || (0xFE <? b2) || ((0x7E <? b2) && (b2 <? 0xA1)) then bad
               else
                 let p := (b1 - 0x81) * 157 + (b2 - (if b2 <? 0x7F then 0x40 else 0x62)) in
                 match table_get t p with
                 | Some c => DUnit 2 [c]
                 | None =>
                     match assoc big5_sequences p with
                     | Some cs => DUnit 2 cs
                     | None => bad
                     end
                 end
           end
  end.

Definition sjis_dec_next (t : list N) (is_end : bool) (bs : list N) : dact :=
  match bs with
  | [] => DEnd
  | b1 :: r =>
      if b1 <=? 128 then DUnit 1 [b1]
      else if (0xA1 <=? b1) && (b1 <=? 0xDF) then DUnit 1 [b1 - 0xA1 + 0xFF61]
      else if (0x9F <? b1) && (b1 <? 0xE0) || (0xFC <? b1) then DBad 1
      else match r with
           | [] => if is_end then DBad 1 else DHold
           | b2 :: _ =>
               let bad := DBad (if b2 <=? 127 then 1 else 2) in
               if (b2 <? 0x40) || (b2 =? 0x7F) || (0xFC <? b2) then bad
               else
                 let p := (b1 - (if b1 <? 0xA0 then 0x81 else 0xC1)) * 188 + (b2 - (if b2 <? 0x7F then 0x40 else 0x41)) in
                 if (8836 <=? p) && (p <=? 10715) then DUnit 2 [p - 8836 + 0xE000]
                 else match table_get t p with
                      | Some c => DUnit 2 [c]
                      | None => bad
                      end
           end
  end.

(** ** UTF-16, UTF-32 *)

Lemma chunks_fuel_enough n : (1 <= n)%nat -> forall f bs, (length bs <= f)%nat -> chunks_fuel f n bs = chunks n bs.
Proof.
  intros Hn. unfold chunks. assert (H : forall m f g bs, (length bs <= m)%nat -> (length bs <= f)%nat -> (length bs <= g)%nat ->
     chunks_fuel f n bs = chunks_fuel g n bs).
  { induction m as [|m IH]; intros f g bs Hm Hf Hg.
    - destruct bs; [|cbn in Hm; lia]. destruct f, g; reflexivity.
    - destruct bs as [|b bs]; [destruct f, g; reflexivity|].
      destruct f as [|f]; [cbn in Hf; lia|]. destruct g as [|g]; [cbn in Hg; lia|].
      cbn [chunks_fuel]. f_equal. apply IH; rewrite skipn_length; cbn [length] in *; lia. }
  intros f bs Hf. eapply H; [reflexivity|assumption|reflexivity].
Qed.

Lemma chunks_cons n b bs : (1 <= n)%nat -> chunks n (b :: bs) = firstn n (b :: bs) :: chunks n (skipn n (b :: bs)).
Proof.
  intros Hn. unfold chunks at 1. cbn [length chunks_fuel]. f_equal. apply chunks_fuel_enough; [assumption|].
  rewrite skipn_length. cbn [length]. lia.
Qed.

Lemma u16_bytes_lt big a b : a < 256 -> b < 256 -> u16_from_bytes big a b < 65536.
Proof. unfold u16_from_bytes, u16_from_be_bytes, u16_from_le_bytes. destruct big; lia. Qed.

Lemma text_one c : scalar c -> text [c].
Proof. intros H. constructor; [exact H|constructor]. Qed.

(* the copying tail, given the UTF-8 form of the decoded text *)
Lemma emit_char {T} (itr0 itr : list T) i wr out c k (body : dec_state T -> outcome (ctl (dec_state T) (decode_error * list N))) st :
  scalar c -> (length wr <= length out)%nat ->
  body st = copy_string (DecState itr0 i (length wr) (frame wr out)) itr (encode_utf8 c) k ->
  if (length wr + length (utf8 [c]) <=? length out)%nat
  then body st = Ret (Continue (DecState itr (i + k) (length (wr ++ utf8 [c])) (frame (wr ++ utf8 [c]) out)))
  else exists itr', body st = Ret (Break (DecState itr' i (length wr) (frame wr out))).
Proof.
  intros Hc Hwr ->. rewrite utf8_single, utf8_char_encode, copy_string_frame by assumption.
  destruct (_ <=? _)%nat; eauto.
Qed.

Lemma utf16_dec_body_ok big input is_end :
  dec_body_ok (chunks 2) (utf16_dec_next big is_end) 0 input (utf16_decode_body big input is_end).
Proof.
  intros pre rest wr out Hb Hin Hwr. cbv zeta.
  destruct rest as [|b0 rest]; [eexists; reflexivity|].
  rewrite chunks_cons by lia.
  destruct rest as [|b1 rest].
  { cbn [utf16_dec_next]. unfold utf16_decode_body. cbn [ds_itr ds_in ds_out ds_buf firstn length Nat.ltb Nat.leb].
    subst input. rewrite app_length. cbn [length].
    destruct is_end; cbn [negb].
    - destruct (Nat.leb_spec (length wr + 0) (length out)); [|lia]. reflexivity.
    - eexists. reflexivity. }
  inversion Hb as [|? ? Hb0 Hb']; subst. inversion Hb' as [|? ? Hb1 Hb'']; subst.
  change (firstn 2 (b0 :: b1 :: rest)) with [b0; b1]. change (skipn 2 (b0 :: b1 :: rest)) with rest.
  cbn [utf16_dec_next].
  pose proof (u16_bytes_lt big b0 b1 Hb0 Hb1) as Hx. set (x := u16_from_bytes big b0 b1) in *.
  set (st := DecState ([b0; b1] :: chunks 2 rest) (length pre) (length wr) (frame wr out)).
  assert (Hbad : forall n, utf16_decode_body big (pre ++ b0 :: b1 :: rest) is_end st =
       Ret (Return (invalid_data (length pre) (length pre + n) (length wr), frame wr out)) ->
     if (length wr + 0 <=? length out)%nat
     then utf16_decode_body big (pre ++ b0 :: b1 :: rest) is_end st = Ret (Return (invalid_data (length pre) (length pre + n) (length wr), frame wr out))
     else exists itr, utf16_decode_body big (pre ++ b0 :: b1 :: rest) is_end st = Ret (Break (DecState itr (length pre) (length wr) (frame wr out)))).
  { intros n H. destruct (Nat.leb_spec (length wr + 0) (length out)); [exact H|lia]. }
  destruct ((x <? 0xD800) || (0xDFFF <? x)) eqn:E1.
  { assert (Hs : scalar x) by (unfold scalar; lia).
    split; [cbn; lia|]. split; [apply text_one; assumption|].
    apply (emit_char ([b0; b1] :: chunks 2 rest) (chunks 2 rest)); [assumption|assumption|].
    unfold utf16_decode_body, st. cbn [ds_itr ds_in ds_out ds_buf length Nat.ltb Nat.leb idx nth_error bind]. fold x. rewrite E1.
    unfold from_u32_unchecked. rewrite is_char_true by assumption. cbn [bind].
    rewrite len_utf16_val by assumption. btrue (x <? 65536). reflexivity. }
  destruct (N.leb_spec 0xDC00 x) as [E2|E2].
  { apply Hbad. unfold utf16_decode_body, st. cbn [ds_itr ds_in ds_out ds_buf length Nat.ltb Nat.leb idx nth_error bind]. fold x. rewrite E1.
    rewrite mask_FC00 by assumption. btrue ((0xDC00 <=? x) && (x <? 0xE000)). reflexivity. }
  assert (Hlead : utf16_decode_body big (pre ++ b0 :: b1 :: rest) is_end st =
     if (length rest <=? 1)%nat then
       if negb is_end then Ret (Break (DecState (chunks 2 rest) (length pre) (length wr) (frame wr out)))
       else Ret (Return (invalid_data (length pre) (length pre + length (b0 :: b1 :: rest)) (length wr), frame wr out))
     else
      let* nxt := unwrap (match chunks 2 rest with [] => None | x :: r => Some (x, r) end) in
      let bytes_2 := fst nxt in
      let* b2 := idx bytes_2 0 in
      let* b3 := idx bytes_2 1 in
      let code_2 := u16_from_bytes big b2 b3 in
      if negb (N.land code_2 0xFC00 =? 0xDC00) then
        Ret (Return (invalid_data (length pre) (length pre + 2) (length wr), frame wr out))
      else
        let* hi := sub_chk x 0xD800 in
        let* lo := sub_chk code_2 0xDC00 in
        let* code := from_u32_unchecked (N.lor (as_u32 (N.shiftl hi 10)) lo + 0x10000) in
        copy_string st (snd nxt) (encode_utf8 code) (len_utf16 code * 2)).
  { unfold utf16_decode_body, st. cbn [ds_itr ds_in ds_out ds_buf length Nat.ltb Nat.leb idx nth_error bind]. fold x. rewrite E1.
    rewrite mask_FC00 by assumption. bfalse ((0xDC00 <=? x) && (x <? 0xE000)).
    rewrite app_length. cbn [length].
    replace (length pre + S (S (length rest)) <=? length pre + 3)%nat with (length rest <=? 1)%nat by lia. reflexivity. }
  destruct rest as [|b2 rest].
  { destruct is_end; [|rewrite Hlead; eexists; reflexivity]. apply Hbad. rewrite Hlead. reflexivity. }
  destruct rest as [|b3 rest].
  { destruct is_end; [|rewrite Hlead; eexists; reflexivity]. apply Hbad. rewrite Hlead. reflexivity. }
  inversion Hb'' as [|? ? Hb2 Hb3']; subst. inversion Hb3' as [|? ? Hb3 _]; subst.
  pose proof (u16_bytes_lt big b2 b3 Hb2 Hb3) as Hy. set (y := u16_from_bytes big b2 b3) in *.
  rewrite chunks_cons in Hlead by lia.
  change (firstn 2 (b2 :: b3 :: rest)) with [b2; b3] in Hlead. change (skipn 2 (b2 :: b3 :: rest)) with rest in Hlead.
  cbn [length Nat.leb unwrap bind fst snd idx nth_error] in Hlead. cbv zeta in Hlead. fold y in Hlead.
  rewrite mask_FC00 in Hlead by assumption.
  destruct ((0xDC00 <=? y) && (y <? 0xE000)) eqn:E3.
  2: { apply Hbad. rewrite Hlead. reflexivity. }
  set (c := (x - 0xD800) * 1024 + (y - 0xDC00) + 0x10000).
  assert (Hs : scalar c) by (unfold scalar, c; lia).
  split; [cbn; lia|]. split; [apply text_one; assumption|].
  apply (emit_char ([b0; b1] :: chunks 2 (b2 :: b3 :: rest)) (chunks 2 rest)); [assumption|assumption|].
  rewrite Hlead. cbn [negb]. unfold sub_chk. btrue (0xD800 <=? x). btrue (0xDC00 <=? y). cbn [bind].
  assert (Ec : N.lor (as_u32 (N.shiftl (x - 0xD800) 10)) (y - 0xDC00) + 0x10000 = c).
  { unfold as_u32. rewrite shiftl_10. rewrite N.mod_small by lia. unfold c. f_equal. apply (lor_add _ _ 10). change (2 ^ 10) with 1024. lia. }
  rewrite Ec. unfold from_u32_unchecked. rewrite is_char_true by assumption. cbn [bind].
  rewrite len_utf16_val by assumption. bfalse (c <? 65536). reflexivity.
Qed.

Lemma utf32_dec_body_ok big input is_end :
  dec_body_ok (chunks 4) (utf32_dec_next big is_end) 0 input (utf32_decode_body big input is_end).
Proof.
  intros pre rest wr out Hb Hin Hwr. cbv zeta.
  destruct rest as [|b0 rest]; [eexists; reflexivity|].
  rewrite chunks_cons by lia.
  set (input' := input) in *.
  assert (Hshort : (length (b0 :: rest) < 4)%nat ->
    utf32_decode_body big input' is_end (DecState (firstn 4 (b0 :: rest) :: chunks 4 (skipn 4 (b0 :: rest))) (length pre) (length wr) (frame wr out))
    = if negb is_end then Ret (Break (DecState (chunks 4 (skipn 4 (b0 :: rest))) (length pre) (length wr) (frame wr out)))
      else Ret (Return (invalid_data (length pre) (length pre + length (b0 :: rest)) (length wr), frame wr out))).
  { intros H. unfold utf32_decode_body. cbn [ds_itr ds_in ds_out ds_buf].
    rewrite firstn_length. destruct (Nat.ltb_spec (Nat.min 4 (length (b0 :: rest))) 4); [|lia].
    rewrite Hin, app_length. reflexivity. }
  destruct rest as [|b1 [|b2 [|b3 rest]]].
  1-3: cbn [utf32_dec_next]; rewrite Hshort by (cbn; lia); destruct is_end; cbn [negb]; [|eexists; reflexivity];
       destruct (Nat.leb_spec (length wr + 0) (length out)); [reflexivity|lia].
  clear Hshort.
  change (firstn 4 (b0 :: b1 :: b2 :: b3 :: rest)) with [b0; b1; b2; b3].
  change (skipn 4 (b0 :: b1 :: b2 :: b3 :: rest)) with rest.
  cbn [utf32_dec_next]. set (c := u32_from_bytes big b0 b1 b2 b3).
  destruct (is_char c) eqn:Ec.
  - assert (Hs : scalar c) by (apply is_char_scalar, Ec).
    split; [cbn; lia|]. split; [apply text_one; assumption|].
    apply (emit_char ([b0; b1; b2; b3] :: chunks 4 rest) (chunks 4 rest)); [assumption|assumption|].
    unfold utf32_decode_body. cbn [ds_itr ds_in ds_out ds_buf length Nat.ltb Nat.leb idx nth_error bind]. fold c.
    unfold from_u32. rewrite Ec. reflexivity.
  - destruct (Nat.leb_spec (length wr + 0) (length out)); [|lia].
    unfold utf32_decode_body. cbn [ds_itr ds_in ds_out ds_buf length Nat.ltb Nat.leb idx nth_error bind]. fold c.
    unfold from_u32. rewrite Ec. reflexivity.
Qed.

(** ** Table-driven decoders *)

Definition table_scalar (t : list N) : Prop := Forall scalar t.

Lemma nth_error_scalar t i c : table_scalar t -> nth_error t i = Some c -> scalar c.
Proof. intros Ht H. eapply Forall_forall; [exact Ht|]. eapply nth_error_In, H. Qed.

Lemma ascii_scalar b : b <= 128 -> scalar b.
Proof. unfold scalar. lia. Qed.

Lemma utf8_ascii b : b < 128 -> utf8 [b] = [b].
Proof. intros. rewrite utf8_single. unfold utf8_char. btrue (b <? 128). reflexivity. Qed.

Lemma sb_dec_body_ok t input : table_scalar t -> length t = 128%nat ->
  dec_body_ok (fun bs => bs) (sb_dec_next t) 0 input (ascii_ext_decode_body t).
Proof.
  intros Ht Hlen pre rest wr out Hb Hin Hwr. cbv zeta.
  destruct rest as [|b rest]; [eexists; reflexivity|]. inversion Hb as [|? ? Hb0 _]; subst.
  cbn [sb_dec_next]. destruct (N.ltb_spec b 0x80) as [H|H].
  - split; [cbn; lia|]. split; [apply text_one, ascii_scalar; lia|]. rewrite utf8_ascii by lia. cbn [length].
    unfold ascii_ext_decode_body. cbn [ds_itr ds_in ds_out ds_buf]. btrue (b <? 0x80). rewrite frame_length by lia.
    destruct (Nat.leb_spec (length out) (length wr)); destruct (Nat.leb_spec (length wr + 1) (length out)); try lia.
    + eexists. reflexivity.
    + rewrite upd_frame by (auto; lia). cbn [bind]. rewrite app_length. reflexivity.
  - assert (Hi : exists c, nth_error t (N.to_nat (b - 0x80)) = Some c).
    { destruct (nth_error t (N.to_nat (b - 0x80))) eqn:E; [eauto|]. apply nth_error_None in E. lia. }
    destruct Hi as [c Hc]. unfold table_get. rewrite Hc.
    destruct (c =? 0xFFFD) eqn:Ef.
    + destruct (Nat.leb_spec (length wr + 0) (length out)); [|lia].
      unfold ascii_ext_decode_body. cbn [ds_itr ds_in ds_out ds_buf]. bfalse (b <? 0x80).
      unfold sub_chk. btrue (0x80 <=? b). cbn [bind]. unfold idx. rewrite Hc. cbn [bind]. rewrite Ef. reflexivity.
    + assert (Hs : scalar c) by (eapply nth_error_scalar; eauto).
      split; [cbn; lia|]. split; [apply text_one; assumption|].
      apply (emit_char (b :: rest) rest); [assumption|assumption|].
      unfold ascii_ext_decode_body. cbn [ds_itr ds_in ds_out ds_buf]. bfalse (b <? 0x80).
      unfold sub_chk. btrue (0x80 <=? b). cbn [bind]. unfold idx. rewrite Hc. cbn [bind]. rewrite Ef. reflexivity.
Qed.

(* the guarded table access of the Big5 and Shift JIS decoders *)
Lemma guarded_get {A} (t : list N) p (k1 : outcome A) (k2 : N -> outcome A) :
  (let* undefined := (if N.of_nat (length t) <=? p then Ret true
                      else let* code := idx t (N.to_nat p) in Ret (code =? 0xFFFD)) in
   if undefined then k1 else let* code := idx t (N.to_nat p) in k2 code)
  = match table_get t p with Some c => k2 c | None => k1 end.
Proof.
  unfold table_get, idx. destruct (N.leb_spec (N.of_nat (length t)) p) as [H|H].
  - cbn [bind]. destruct (nth_error t (N.to_nat p)) eqn:E; [|reflexivity].
    assert (nth_error t (N.to_nat p) <> None) as X by congruence. apply nth_error_Some in X. lia.
  - destruct (nth_error t (N.to_nat p)) eqn:E; [|apply nth_error_None in E; lia].
    cbn [bind]. destruct (_ =? _); reflexivity.
Qed.

Lemma table_get_scalar t p c : table_scalar t -> table_get t p = Some c -> scalar c.
Proof.
  intros Ht. unfold table_get. destruct (nth_error t (N.to_nat p)) eqn:E; [|discriminate].
  destruct (_ =? _); [discriminate|]. intros [= <-]. eapply nth_error_scalar; eauto.
Qed.

Lemma grapheme_sequences p :
  big5_grapheme_literal p = match assoc big5_sequences p with Some cs => Some (utf8 cs) | None => None end.
Proof.
  unfold big5_grapheme_literal, big5_sequences, assoc.
  rewrite !(N.eqb_sym _ p).
  destruct (p =? 1133); [reflexivity|]. destruct (p =? 1135); [reflexivity|].
  destruct (p =? 1164); [reflexivity|]. destruct (p =? 1166); reflexivity.
Qed.

Lemma sequences_text p cs : assoc big5_sequences p = Some cs -> text cs.
Proof.
  intros H. apply assoc_In in H. unfold big5_sequences in H. cbn [In] in H.
  destruct H as [H|[H|[H|[H|[]]]]]; injection H as <- <-; repeat constructor; unfold scalar; lia.
Qed.

Lemma big5_dec_body_ok t is_end input : table_scalar t ->
  dec_body_ok (fun bs => bs) (big5_dec_next t is_end) 1 input (big5_decode_body t is_end).
Proof.
  intros Ht pre rest wr out Hb Hin Hwr. cbv zeta.
  destruct rest as [|b1 rest]; [eexists; reflexivity|]. inversion Hb as [|? ? Hb1 Hbr]; subst.
  cbn [big5_dec_next].
  set (st := DecState (b1 :: rest) (length pre) (length wr) (frame wr out)).
  assert (Hfull : (length out <= length wr)%nat -> exists itr, big5_decode_body t is_end st = Ret (Break (DecState itr (length pre) (length wr) (frame wr out)))).
  { intros. eexists. unfold big5_decode_body, st. cbn [ds_itr ds_in ds_out ds_buf]. rewrite frame_length by lia.
    destruct (Nat.leb_spec (length out) (length wr)); [reflexivity|lia]. }
  assert (Hbad : forall n, ((length wr + 1 <= length out)%nat -> big5_decode_body t is_end st =
       Ret (Return (invalid_data (length pre) (length pre + n) (length wr), frame wr out))) ->
     if (length wr + 1 <=? length out)%nat
     then big5_decode_body t is_end st = Ret (Return (invalid_data (length pre) (length pre + n) (length wr), frame wr out))
     else exists itr, big5_decode_body t is_end st = Ret (Break (DecState itr (length pre) (length wr) (frame wr out)))).
  { intros n H. destruct (Nat.leb_spec (length wr + 1) (length out)); [apply H; lia|apply Hfull; lia]. }
  assert (Hunf : (length wr + 1 <= length out)%nat -> big5_decode_body t is_end st =
      ltac:(let x := eval cbv beta iota zeta delta [big5_decode_body ds_itr ds_out ds_buf ds_in st] in (big5_decode_body t is_end st) in
            match x with if _ then _ else ?y => exact y end)).
  { intros. unfold big5_decode_body, st. cbn [ds_itr ds_in ds_out ds_buf]. rewrite frame_length by lia.
    destruct (Nat.leb_spec (length out) (length wr)); [lia|]. reflexivity. }
  destruct (N.leb_spec b1 127) as [H1|H1].
  { split; [cbn; lia|]. split; [apply text_one, ascii_scalar; lia|]. rewrite utf8_ascii by lia. cbn [length].
    destruct (Nat.leb_spec (length wr + 1) (length out)); [|apply Hfull; lia].
    rewrite Hunf by lia. rewrite upd_frame by (auto; lia). cbn [bind]. rewrite app_length. reflexivity. }
  destruct ((b1 =? 0x80) || (b1 =? 0xFF)) eqn:H2.
  { apply Hbad. intros. rewrite Hunf by lia. reflexivity. }
  destruct rest as [|b2 rest].
  { destruct is_end.
    - apply Hbad. intros. rewrite Hunf by lia. reflexivity.
    - destruct (Nat.le_gt_cases (length wr + 1) (length out)); [|apply Hfull; lia]. rewrite Hunf by lia. eexists. reflexivity. }
  inversion Hbr as [|? ? Hb2 _]; subst.
  destruct ((b2 <? 0x40) || (0xFE <? b2) || ((0x7E <? b2) && (b2 <? 0xA1))) eqn:H3.
  { apply Hbad. intros. rewrite Hunf by lia. reflexivity. }
  set (p := (b1 - 0x81) * 157 + (b2 - (if b2 <? 0x7F then 0x40 else 0x62))).
  assert (Hp : (length wr + 1 <= length out)%nat -> big5_decode_body t is_end st =
     match table_get t p with
     | Some c => copy_string st rest (encode_utf8 c) 2
     | None => match big5_grapheme_literal p with
               | Some s => copy_string st rest s 2
               | None => Ret (Return (invalid_data (length pre) (length pre + (if b2 <=? 127 then 1 else 2)) (length wr), frame wr out))
               end
     end).
  { intros. rewrite Hunf by lia. unfold sub_chk. btrue (129 <=? b1). cbn [bind].
    assert (Etr : (if b2 <? 127 then if 64 <=? b2 then Ret (b2 - 64) else Panic else if 98 <=? b2 then Ret (b2 - 98) else Panic)
              = Ret (b2 - (if b2 <? 0x7F then 0x40 else 0x62))).
    { destruct (N.ltb_spec b2 0x7F); [btrue (64 <=? b2)|btrue (98 <=? b2)]; reflexivity. }
    rewrite Etr. cbn [bind]. fold p. apply guarded_get. }
  clear Hunf. destruct (table_get t p) as [c|] eqn:Eg.
  { assert (Hs : scalar c) by (eapply table_get_scalar; eauto).
    split; [cbn; lia|]. split; [apply text_one; assumption|].
    destruct (Nat.le_gt_cases (length wr + 1) (length out)).
    - apply (emit_char (b1 :: b2 :: rest) rest); [assumption|assumption|]. apply Hp. lia.
    - pose proof (utf8_char_pos c). rewrite utf8_single.
      destruct (Nat.leb_spec (length wr + length (utf8_char c)) (length out)); [lia|]. apply Hfull. lia. }
  rewrite grapheme_sequences in Hp. destruct (assoc big5_sequences p) as [cs|] eqn:Es.
  { pose proof (sequences_text _ _ Es) as Hcs.
    split; [cbn; lia|]. split; [assumption|].
    destruct (Nat.le_gt_cases (length wr + 1) (length out)).
    - rewrite Hp by lia. unfold st. rewrite copy_string_frame by assumption.
      destruct (length wr + length (utf8 cs) <=? length out)%nat; [reflexivity|eexists; reflexivity].
    - assert (Hpos : (1 <= length (utf8 cs))%nat).
      { destruct cs as [|c cs]; [|rewrite utf8_cons, app_length; pose proof (utf8_char_pos c); lia].
        apply assoc_In in Es. unfold big5_sequences in Es. cbn [In] in Es. exfalso.
        repeat destruct Es as [Es|Es]; congruence || contradiction. }
      destruct (Nat.leb_spec (length wr + length (utf8 cs)) (length out)); [lia|]. apply Hfull. lia. }
  apply Hbad. intros. rewrite Hp by lia. reflexivity.
Qed.

Lemma sjis_dec_body_ok t is_end input : table_scalar t ->
  dec_body_ok (fun bs => bs) (sjis_dec_next t is_end) 1 input (sjis_decode_body t is_end).
Proof.
  intros Ht pre rest wr out Hb Hin Hwr. cbv zeta.
  destruct rest as [|b1 rest]; [eexists; reflexivity|]. inversion Hb as [|? ? Hb1 Hbr]; subst.
  cbn [sjis_dec_next].
  set (st := DecState (b1 :: rest) (length pre) (length wr) (frame wr out)).
  assert (Hfull : (length out <= length wr)%nat -> exists itr, sjis_decode_body t is_end st = Ret (Break (DecState itr (length pre) (length wr) (frame wr out)))).
  { intros. eexists. unfold sjis_decode_body, st. cbn [ds_itr ds_in ds_out ds_buf]. rewrite frame_length by lia.
    destruct (Nat.leb_spec (length out) (length wr)); [reflexivity|lia]. }
  assert (Hbad : forall n, ((length wr + 1 <= length out)%nat -> sjis_decode_body t is_end st =
       Ret (Return (invalid_data (length pre) (length pre + n) (length wr), frame wr out))) ->
     if (length wr + 1 <=? length out)%nat
     then sjis_decode_body t is_end st = Ret (Return (invalid_data (length pre) (length pre + n) (length wr), frame wr out))
     else exists itr, sjis_decode_body t is_end st = Ret (Break (DecState itr (length pre) (length wr) (frame wr out)))).
  { intros n H. destruct (Nat.leb_spec (length wr + 1) (length out)); [apply H; lia|apply Hfull; lia]. }
  assert (Hunf : (length wr + 1 <= length out)%nat -> sjis_decode_body t is_end st =
      ltac:(let x := eval cbv beta iota zeta delta [sjis_decode_body ds_itr ds_out ds_buf ds_in st] in (sjis_decode_body t is_end st) in
            match x with if _ then _ else ?y => exact y end)).
  { intros. unfold sjis_decode_body, st. cbn [ds_itr ds_in ds_out ds_buf]. rewrite frame_length by lia.
    destruct (Nat.leb_spec (length out) (length wr)); [lia|]. reflexivity. }
  assert (Hemit : forall c k itr, scalar c ->
     ((length wr + 1 <= length out)%nat -> sjis_decode_body t is_end st = copy_string st itr (encode_utf8 c) k) ->
     if (length wr + length (utf8 [c]) <=? length out)%nat
     then sjis_decode_body t is_end st = Ret (Continue (DecState itr (length pre + k) (length (wr ++ utf8 [c])) (frame (wr ++ utf8 [c]) out)))
     else exists itr', sjis_decode_body t is_end st = Ret (Break (DecState itr' (length pre) (length wr) (frame wr out)))).
  { intros c k itr Hs H. destruct (Nat.le_gt_cases (length wr + 1) (length out)).
    - apply (emit_char (b1 :: rest) itr); [assumption|assumption|]. apply H. assumption.
    - pose proof (utf8_char_pos c). rewrite utf8_single.
      destruct (Nat.leb_spec (length wr + length (utf8_char c)) (length out)); [lia|]. apply Hfull. lia. }
  destruct (N.leb_spec b1 128) as [H1|H1].
  { split; [cbn; lia|]. split; [apply text_one, ascii_scalar; lia|].
    destruct (N.eq_dec b1 128) as [->|H1'].
    - change (utf8 [128]) with [0xC2; 0x80]. cbn [length].
      destruct (Nat.leb_spec (length wr + 1) (length out)) as [L|L].
      2: { destruct (Nat.leb_spec (length wr + 2) (length out)); [lia|apply Hfull; lia]. }
      rewrite Hunf by lia. cbn [N.leb N.compare Pos.compare Pos.compare_cont N.eqb Pos.eqb]. rewrite frame_length by lia.
      destruct (Nat.leb_spec (length out) (length wr + 1)); destruct (Nat.leb_spec (length wr + 2) (length out)); try lia.
      + eexists. reflexivity.
      + rewrite upd_frame by (auto; lia). cbn [bind]. rewrite upd_frame by (rewrite ?app_length; cbn [length]; lia). cbn [bind].
        rewrite <- app_assoc, app_length. reflexivity.
    - rewrite utf8_ascii by lia. cbn [length].
      destruct (Nat.leb_spec (length wr + 1) (length out)); [|apply Hfull; lia].
      rewrite Hunf by lia. btrue (b1 <=? 127). rewrite upd_frame by (auto; lia). cbn [bind]. rewrite app_length. reflexivity. }
  assert (Hunf' : (length wr + 1 <= length out)%nat -> sjis_decode_body t is_end st =
      ltac:(let x := eval cbv beta iota zeta delta [sjis_decode_body ds_itr ds_out ds_buf ds_in st] in (sjis_decode_body t is_end st) in
            match x with if _ then _ else if _ then _ else if _ then _ else ?y => exact y end)).
  { intros. rewrite Hunf by lia. bfalse (b1 <=? 127). bfalse (b1 =? 128). reflexivity. }
  clear Hunf. rename Hunf' into Hunf.
  destruct ((0xA1 <=? b1) && (b1 <=? 0xDF)) eqn:H2.
  { assert (Hs : scalar (b1 - 0xA1 + 0xFF61)) by (unfold scalar; lia).
    split; [cbn; lia|]. split; [apply text_one; assumption|]. apply Hemit; [assumption|]. intros.
    rewrite Hunf by lia. unfold sub_chk. btrue (0xA1 <=? b1 + 0xFF61). cbn [bind].
    replace (b1 + 0xFF61 - 0xA1) with (b1 - 0xA1 + 0xFF61) by lia.
    unfold from_u32. rewrite is_char_true by assumption. reflexivity. }
  destruct ((0x9F <? b1) && (b1 <? 0xE0) || (0xFC <? b1)) eqn:H3.
  { apply Hbad. intros. rewrite Hunf by lia. reflexivity. }
  destruct rest as [|b2 rest].
  { destruct is_end.
    - apply Hbad. intros. rewrite Hunf by lia. reflexivity.
    - destruct (Nat.le_gt_cases (length wr + 1) (length out)); [|apply Hfull; lia]. rewrite Hunf by lia. eexists. reflexivity. }
  inversion Hbr as [|? ? Hb2 _]; subst.
  destruct ((b2 <? 0x40) || (b2 =? 0x7F) || (0xFC <? b2)) eqn:H4.
  { apply Hbad. intros. rewrite Hunf by lia. reflexivity. }
  set (p := (b1 - (if b1 <? 0xA0 then 0x81 else 0xC1)) * 188 + (b2 - (if b2 <? 0x7F then 0x40 else 0x41))).
  assert (Hp : (length wr + 1 <= length out)%nat -> sjis_decode_body t is_end st =
     if (8836 <=? p) && (p <=? 10715) then
       let* u := sub_chk (p + 0xE000) 8836 in
       let* code := unwrap (from_u32 u) in
       copy_string st rest (encode_utf8 code) 2
     else
     match table_get t p with
     | Some c => copy_string st rest (encode_utf8 c) 2
     | None => Ret (Return (invalid_data (length pre) (length pre + (if b2 <=? 127 then 1 else 2)) (length wr), frame wr out))
     end).
  { intros. rewrite Hunf by lia.
    assert (Ep : sub_chk ((b1 - (if b1 <? 0xA0 then 0x81 else 0xC1)) * 188 + b2) (if b2 <? 0x7F then 0x40 else 0x41) = Ret p).
    { unfold sub_chk, p. set (l := (b1 - (if b1 <? 160 then 129 else 193)) * 188). destruct (N.ltb_spec b2 0x7F).
      - btrue (64 <=? l + b2). f_equal. lia.
      - btrue (65 <=? l + b2). f_equal. lia. }
    assert (El : sub_chk b1 (if b1 <? 160 then 129 else 193) = Ret (b1 - (if b1 <? 160 then 129 else 193))).
    { unfold sub_chk. destruct (N.ltb_spec b1 160); [btrue (129 <=? b1)|btrue (193 <=? b1)]; reflexivity. }
    rewrite El. cbn [bind]. rewrite Ep. cbn [bind]. destruct ((8836 <=? p) && (p <=? 10715)); [reflexivity|]. apply guarded_get. }
  clear Hunf. destruct ((8836 <=? p) && (p <=? 10715)) eqn:Ee.
  { assert (Hs : scalar (p - 8836 + 0xE000)) by (unfold scalar; lia).
    split; [cbn; lia|]. split; [apply text_one; assumption|]. apply Hemit; [assumption|]. intros.
    rewrite Hp by lia. unfold sub_chk. btrue (8836 <=? p + 0xE000). cbn [bind].
    replace (p + 0xE000 - 8836) with (p - 8836 + 0xE000) by lia.
    unfold from_u32. rewrite is_char_true by assumption. reflexivity. }
  destruct (table_get t p) as [c|] eqn:Eg.
  { assert (Hs : scalar c) by (eapply table_get_scalar; eauto).
    split; [cbn; lia|]. split; [apply text_one; assumption|]. apply Hemit; assumption. }
  apply Hbad. intros. rewrite Hp by lia. reflexivity.
Qed.
