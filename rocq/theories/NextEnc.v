(* Decision functions of the encoders, and the proof that each Rust encoder is the greedy iteration of its own. *)
From Coq Require Import List NArith Arith Bool Lia ZArith.
From Verif Require Import Tac Encodings Spec Prelude RustCore Types ProofUtf8 Engine Search.
From Verif Require Import ModelUtf8 ModelUtf16Le ModelUtf16Be EndianUtf16 ModelUtf32Le ModelUtf32Be EndianUtf32 ModelSingleByte ModelBig5 ModelShiftJis.
Import ListNotations.
Local Open Scope N_scope.

Definition chars_next (f : N -> eact) (cs : list N) : eact :=
  match cs with [] => EEnd | c :: _ => f c end.

Definition utf_enc_next (w : N -> list N) : list N -> eact := chars_next (fun c => EUnit 1 (w c)).

Definition sb_enc_next (t : list (N * N)) : list N -> eact :=
  chars_next (fun c =>
    if c <=? 127 then EUnit 1 [c]
    else match assoc t c with Some b => EUnit 1 [b] | None => EBad c end).

Definition pair_bytes (p : N * N) : list N := [fst p; snd p].

Definition big5_enc_next (t : list (N * (N * N))) (is_end : bool) (cs : list N) : eact :=
  match cs with
  | [] => EEnd
  | c :: r =>
      if c <=? 127 then EUnit 1 [c]
      else match assoc t c with
           | None => EBad c
           | Some p =>
               if (c =? 0xCA) || (c =? 0xEA) then
                 match r with
                 | [] => if is_end then EUnit 1 (pair_bytes p) else EHold
                 | c2 :: _ =>
                     match map_grapheme c c2 with
                     | Some q => EUnit 2 (pair_bytes q)
                     | None => EUnit 1 (pair_bytes p)
                     end
                 end
               else EUnit 1 (pair_bytes p)
           end
  end.

Definition sjis_enc_next (t : list (N * (N * N))) : list N -> eact :=
  chars_next (fun c =>
    if c <=? 128 then EUnit 1 [c]
    else if c =? 0xA5 then EUnit 1 [0x5C]
    else if c =? 0x203E then EUnit 1 [0x7E]
    else if (0xFF61 <=? c) && (c <=? 0xFF9F) then EUnit 1 [c - 0xFF61 + 0xA1]
    else if (0xE000 <=? c) && (c <=? 0xE757) then EUnit 1 (sjis_code (c - 0xE000 + 8836))
    else match assoc t (if c =? 0x2212 then 0xFF0D else c) with
         | Some p => EUnit 1 (pair_bytes p)
         | None => EBad c
         end).

(* one char consumed *)
Lemma unit1_continue pre c rest wr w out (body : enc_state -> outcome (ctl enc_state (encode_error * list N))) st :
  body st = Ret (Continue (EncState (offsets (length (utf8 pre) + length (utf8_char c)) rest)
                                    (length (utf8 pre) + 1) (length wr + length w) (frame (wr ++ w) out))) ->
  body st = Ret (Continue (EncState (offsets (length (utf8 (pre ++ firstn 1 (c :: rest)))) (skipn 1 (c :: rest)))
                                    (length (utf8 (pre ++ firstn (1 - 1) (c :: rest))) + 1)
                                    (length (wr ++ w)) (frame (wr ++ w) out))).
Proof.
  intros ->. cbn [firstn skipn Nat.sub]. rewrite app_nil_r, utf8_app, utf8_single, !app_length. reflexivity.
Qed.

(* successive single-byte writes *)
Lemma put2 wr out a b : (length wr + 2 <= length out)%nat ->
  (let* buf := upd (frame wr out) (length wr) a in upd buf (length wr + 1) b)
  = Ret (frame (wr ++ [a; b]) out).
Proof.
  intros. rewrite upd_frame by (auto; lia). cbn [bind].
  rewrite upd_frame by (rewrite ?app_length; cbn [length]; lia). rewrite <- app_assoc. reflexivity.
Qed.

Lemma bind_assoc {A B C} (m : outcome A) (f : A -> outcome B) (g : B -> outcome C) :
  bind (bind m f) g = bind m (fun x => bind (f x) g).
Proof. destruct m; reflexivity. Qed.

(* [nlen] normalises lengths of appended literals *)
Ltac upds :=
  repeat (rewrite upd_frame by (rewrite ?app_length; cbn [length]; lia); cbn [bind]).

Ltac finish_unit1 :=
  rewrite <- ?app_assoc; cbn [app length]; reflexivity.

Lemma utf16_body_ok big : enc_body_ok (utf_enc_next (utf16_char big)) 0 (utf16_encode_body big).
Proof.
  intros pre rest wr out input_i Ht Hwr. cbv zeta.
  destruct rest as [|c rest]; cbn [utf_enc_next chars_next].
  { exists []. reflexivity. }
  split; [cbn; lia|].
  apply Forall_app in Ht. destruct Ht as [_ Ht]. inversion Ht as [|? ? Hc Hrest]; subst. unfold scalar in Hc.
  unfold utf16_char. destruct (N.ltb_spec c 0x10000).
  - assert (L : length (unit16 big c) = 2%nat) by (destruct big; reflexivity). rewrite L.
    assert (E : u16_to_bytes big (as_u16 c) = unit16 big c).
    { unfold u16_to_bytes, u16_to_be_bytes, u16_to_le_bytes, unit16, as_u16. destruct big; cbn [rev app]; repeat (f_equal; try lia). }
    destruct (Nat.leb_spec (length wr + 2) (length out)).
    + apply unit1_continue. unfold utf16_encode_body, offsets; fold offsets. cbn [es_itr es_out es_buf es_in].
      btrue (c <=? 0xFFFF). rewrite frame_length by lia.
      destruct (Nat.ltb_spec (length wr + 1) (length out)); [|lia]. rewrite E.
      unfold unit16. destruct big; cbn [idx nth_error bind]; upds; finish_unit1.
    + eexists. unfold utf16_encode_body, offsets; fold offsets. cbn [es_itr es_out es_buf es_in].
      btrue (c <=? 0xFFFF). rewrite frame_length by lia.
      destruct (Nat.ltb_spec (length wr + 1) (length out)); [lia|]. reflexivity.
  - set (d := c - 0x10000).
    assert (E1 : u16_to_bytes big (N.lor 0xD800 (as_u16 (N.shiftr d 10))) = unit16 big (0xD800 + d / 1024)).
    { rewrite shiftr_10. unfold as_u16. rewrite N.lor_comm, (lor_const 0xD800 54 10) by (try reflexivity; change (2^10) with 1024; lia).
      unfold u16_to_bytes, u16_to_be_bytes, u16_to_le_bytes, unit16. destruct big; cbn [rev app]; repeat (f_equal; try lia). }
    assert (E2 : u16_to_bytes big (N.lor 0xDC00 (N.land (as_u16 d) 0x3FF)) = unit16 big (0xDC00 + d mod 1024)).
    { rewrite land_3FF. unfold as_u16. rewrite N.lor_comm, (lor_const 0xDC00 55 10) by (try reflexivity; change (2^10) with 1024; lia).
      unfold u16_to_bytes, u16_to_be_bytes, u16_to_le_bytes, unit16. destruct big; cbn [rev app]; repeat (f_equal; try lia). }
    assert (L : length (unit16 big (0xD800 + d / 1024) ++ unit16 big (0xDC00 + d mod 1024)) = 4%nat) by (destruct big; reflexivity). rewrite L.
    destruct (Nat.leb_spec (length wr + 4) (length out)).
    + apply unit1_continue. unfold utf16_encode_body, offsets; fold offsets. cbn [es_itr es_out es_buf es_in].
      bfalse (c <=? 0xFFFF). rewrite frame_length by lia.
      destruct (Nat.ltb_spec (length wr + 3) (length out)); [|lia].
      unfold sub_chk. btrue (0x10000 <=? c). cbn [bind]. fold d. rewrite E1, E2.
      unfold unit16. destruct big; cbn [idx nth_error bind app]; upds; finish_unit1.
    + eexists. unfold utf16_encode_body, offsets; fold offsets. cbn [es_itr es_out es_buf es_in].
      bfalse (c <=? 0xFFFF). rewrite frame_length by lia.
      destruct (Nat.ltb_spec (length wr + 3) (length out)); [lia|]. reflexivity.
Qed.

Lemma utf32_body_ok big : enc_body_ok (utf_enc_next (utf32_char big)) 0 (utf32_encode_body big).
Proof.
  intros pre rest wr out input_i Ht Hwr. cbv zeta.
  destruct rest as [|c rest]; cbn [utf_enc_next chars_next].
  { exists []. reflexivity. }
  split; [cbn; lia|].
  apply Forall_app in Ht. destruct Ht as [_ Ht]. inversion Ht as [|? ? Hc Hrest]; subst. unfold scalar in Hc.
  assert (L : length (utf32_char big c) = 4%nat) by (destruct big; reflexivity). rewrite L.
  assert (E : u32_to_bytes big c = utf32_char big c).
  { unfold u32_to_bytes, u32_to_be_bytes, u32_to_le_bytes, utf32_char. destruct big; cbn [rev app]; repeat (f_equal; try lia). }
  destruct (Nat.leb_spec (length wr + 4) (length out)).
  + apply unit1_continue. unfold utf32_encode_body, offsets; fold offsets. cbn [es_itr es_out es_buf es_in].
    rewrite frame_length by lia.
    destruct (Nat.ltb_spec (length wr + 3) (length out)); [|lia]. rewrite E.
    unfold utf32_char. destruct big; cbn [idx nth_error bind]; upds; finish_unit1.
  + eexists. unfold utf32_encode_body, offsets; fold offsets. cbn [es_itr es_out es_buf es_in].
    rewrite frame_length by lia.
    destruct (Nat.ltb_spec (length wr + 3) (length out)); [lia|]. reflexivity.
Qed.

Lemma sb_body_ok t : increasing t -> enc_body_ok (sb_enc_next t) 1 (ascii_ext_encode_body t).
Proof.
  intros Hinc pre rest wr out input_i Ht Hwr. cbv zeta.
  destruct rest as [|c rest]; cbn [sb_enc_next chars_next].
  { exists []. reflexivity. }
  pose proof (search_fetch t c Hinc) as Hs.
  assert (Hfull : (length out <= length wr)%nat -> exists itr, ascii_ext_encode_body t
            (EncState (offsets (length (utf8 pre)) (c :: rest)) input_i (length wr) (frame wr out)) =
            Ret (Break (EncState itr input_i (length wr) (frame wr out)))).
  { intros. eexists. unfold ascii_ext_encode_body, offsets; fold offsets. cbn [es_itr es_out es_buf es_in].
    rewrite frame_length by lia. destruct (Nat.leb_spec (length out) (length wr)); [reflexivity|lia]. }
  destruct (N.leb_spec c 127) as [Hc|Hc].
  - split; [cbn; lia|]. cbn [length]. destruct (Nat.leb_spec (length wr + 1) (length out)); [|apply Hfull; lia].
    apply unit1_continue. unfold ascii_ext_encode_body, offsets; fold offsets. cbn [es_itr es_out es_buf es_in].
    rewrite frame_length by lia. destruct (Nat.leb_spec (length out) (length wr)); [lia|].
    btrue (c <=? 127). replace (as_u8 c) with c by (unfold as_u8; lia). upds. reflexivity.
  - destruct (assoc t c) as [b|].
    + split; [cbn; lia|]. cbn [length]. destruct (Nat.leb_spec (length wr + 1) (length out)); [|apply Hfull; lia].
      apply unit1_continue. unfold ascii_ext_encode_body, offsets; fold offsets. cbn [es_itr es_out es_buf es_in].
      rewrite frame_length by lia. destruct (Nat.leb_spec (length out) (length wr)); [lia|].
      bfalse (c <=? 127). destruct Hs as (i & Hs & Hi). rewrite Hs. cbn [bind]. rewrite Hi. cbn [bind snd]. upds. reflexivity.
    + split; [eauto|]. destruct (Nat.leb_spec (length wr + 1) (length out)); [|apply Hfull; lia].
      unfold ascii_ext_encode_body, offsets; fold offsets. cbn [es_itr es_out es_buf es_in].
      rewrite frame_length by lia. destruct (Nat.leb_spec (length out) (length wr)); [lia|].
      bfalse (c <=? 127). rewrite Hs. cbn [bind]. rewrite utf8_char_len. reflexivity.
Qed.

Lemma big5_body_ok t is_end : increasing t -> enc_body_ok (big5_enc_next t is_end) 1 (big5_encode_body t is_end).
Proof.
  intros Hinc pre rest wr out input_i Ht Hwr. cbv zeta.
  destruct rest as [|c rest]; cbn [big5_enc_next].
  { exists []. reflexivity. }
  pose proof (search_fetch t c Hinc) as Hs.
  set (st := EncState (offsets (length (utf8 pre)) (c :: rest)) input_i (length wr) (frame wr out)).
  assert (Hfull : (length out <= length wr)%nat -> exists itr, big5_encode_body t is_end st =
            Ret (Break (EncState itr input_i (length wr) (frame wr out)))).
  { intros. eexists. unfold st, big5_encode_body, offsets; fold offsets. cbn [es_itr es_out es_buf es_in].
    rewrite frame_length by lia. destruct (Nat.leb_spec (length out) (length wr)); [reflexivity|lia]. }
  destruct (N.leb_spec c 127) as [Hc|Hc].
  { split; [cbn; lia|]. cbn [length]. destruct (Nat.leb_spec (length wr + 1) (length out)); [|apply Hfull; lia].
    apply unit1_continue. unfold st, big5_encode_body, offsets; fold offsets. cbn [es_itr es_out es_buf es_in].
    rewrite frame_length by lia. destruct (Nat.leb_spec (length out) (length wr)); [lia|].
    btrue (c <=? 127). replace (as_u8 c) with c by (unfold as_u8; lia). upds. reflexivity. }
  destruct (assoc t c) as [p|].
  2: { split; [eauto|]. destruct (Nat.leb_spec (length wr + 1) (length out)); [|apply Hfull; lia].
    unfold st, big5_encode_body, offsets; fold offsets. cbn [es_itr es_out es_buf es_in].
    rewrite frame_length by lia. destruct (Nat.leb_spec (length out) (length wr)); [lia|].
    bfalse (c <=? 127). rewrite Hs. cbn [bind]. rewrite utf8_char_len. reflexivity. }
  destruct Hs as (i & Hs & Hi).
  (* no room for two bytes *)
  assert (Hfull2 : (length out <= length wr + 1)%nat -> exists itr, big5_encode_body t is_end st =
            Ret (Break (EncState itr input_i (length wr) (frame wr out)))).
  { intros. destruct (Nat.le_gt_cases (length out) (length wr)); [apply Hfull; lia|].
    eexists. unfold st, big5_encode_body, offsets; fold offsets. cbn [es_itr es_out es_buf es_in].
    rewrite frame_length by lia. destruct (Nat.leb_spec (length out) (length wr)); [lia|].
    bfalse (c <=? 127). rewrite Hs. cbn [bind].
    destruct (Nat.ltb_spec (length wr + 1) (length out)); [lia|]. reflexivity. }
  (* with room, up to the case distinction on graphemes *)
  assert (Hroom : (length wr + 2 <= length out)%nat -> big5_encode_body t is_end st =
     let common_case := Ret (Continue (EncState (offsets (length (utf8 pre) + length (utf8_char c)) rest)
                                    (length (utf8 pre) + 1) (length wr + 2) (frame (wr ++ pair_bytes p) out))) in
     if (c =? 0xCA) || (c =? 0xEA) then
       match offsets (length (utf8 pre) + length (utf8_char c)) rest with
       | (offset2, c2) :: itr2 =>
           match map_grapheme c c2 with
           | Some q => Ret (Continue (EncState itr2 (offset2 + 1) (length wr + 2) (frame (wr ++ pair_bytes q) out)))
           | None => common_case
           end
       | [] => if negb is_end
               then Ret (Break (EncState (offsets (length (utf8 pre) + length (utf8_char c)) rest) input_i (length wr) (frame wr out)))
               else common_case
       end
     else common_case).
  { intros. cbv zeta. unfold st, big5_encode_body, offsets; fold offsets. cbn [es_itr es_out es_buf es_in].
    rewrite frame_length by lia. destruct (Nat.leb_spec (length out) (length wr)); [lia|].
    bfalse (c <=? 127). rewrite Hs. cbn [bind].
    destruct (Nat.ltb_spec (length wr + 1) (length out)); [|lia].
    rewrite Hi. cbn [bind snd].
    assert (P : forall q : N * N, (let* buf := upd (frame wr out) (length wr) (fst q) in upd buf (length wr + 1) (snd q))
         = Ret (frame (wr ++ pair_bytes q) out)) by (intros q; apply put2; lia).
    assert (Hcont : forall q itr j, (let* buf := upd (frame wr out) (length wr) (fst q) in
       let* buf0 := upd buf (length wr + 1) (snd q) in Ret (Continue (R := encode_error * list N) (EncState itr j (length wr + 2) buf0)))
       = Ret (Continue (EncState itr j (length wr + 2) (frame (wr ++ pair_bytes q) out)))).
    { intros q itr j. rewrite <- bind_assoc, P. reflexivity. }
    rewrite !Hcont.
    destruct ((c =? 0xCA) || (c =? 0xEA)); [|reflexivity].
    destruct (offsets _ rest) as [|[o2 c2] itr2]; [reflexivity|].
    destruct (map_grapheme c c2); [apply Hcont|reflexivity]. }
  assert (Hunit1 : (if (length wr + length (pair_bytes p) <=? length out)%nat
          then big5_encode_body t is_end st = Ret (Continue (EncState (offsets (length (utf8 pre) + length (utf8_char c)) rest)
                                    (length (utf8 pre) + 1) (length wr + length (pair_bytes p)) (frame (wr ++ pair_bytes p) out)))
          else exists itr, big5_encode_body t is_end st = Ret (Break (EncState itr input_i (length wr) (frame wr out)))) ->
     (1 <= 1 <= length (c :: rest))%nat /\
     (if (length wr + length (pair_bytes p) <=? length out)%nat
      then big5_encode_body t is_end st =
         Ret (Continue (EncState (offsets (length (utf8 (pre ++ firstn 1 (c :: rest)))) (skipn 1 (c :: rest)))
                                    (length (utf8 (pre ++ firstn (1 - 1) (c :: rest))) + 1)
                                    (length (wr ++ pair_bytes p)) (frame (wr ++ pair_bytes p) out)))
      else exists itr, big5_encode_body t is_end st = Ret (Break (EncState itr input_i (length wr) (frame wr out))))).
  { intros H. split; [cbn; lia|]. destruct (_ <=? _)%nat; [apply unit1_continue|]; exact H. }
  change (length (pair_bytes p)) with 2%nat in Hunit1.
  destruct ((c =? 0xCA) || (c =? 0xEA)) eqn:Eg.
  - destruct rest as [|c2 rest].
    + destruct is_end.
      * apply Hunit1. destruct (Nat.leb_spec (length wr + 2) (length out)); [rewrite Hroom by lia; reflexivity|apply Hfull2; lia].
      * destruct (Nat.le_gt_cases (length wr + 2) (length out)); [|apply Hfull2; lia].
        eexists. rewrite Hroom by lia. cbn [offsets negb]. reflexivity.
    + destruct (map_grapheme c c2) as [q|] eqn:Em.
      * split; [cbn; lia|]. change (length (pair_bytes q)) with 2%nat.
        destruct (Nat.leb_spec (length wr + 2) (length out)); [|apply Hfull2; lia].
        rewrite Hroom by lia. cbv zeta. unfold offsets; fold offsets. rewrite Em.
        cbn [firstn skipn Nat.sub]. rewrite !utf8_app, !app_length, !utf8_single.
        change (utf8 [c; c2]) with (utf8_char c ++ utf8_char c2 ++ []). rewrite app_nil_r, app_length.
        change (length (pair_bytes q)) with 2%nat. rewrite !Nat.add_assoc. reflexivity.
      * apply Hunit1. destruct (Nat.leb_spec (length wr + 2) (length out)); [|apply Hfull2; lia].
        rewrite Hroom by lia. cbv zeta. unfold offsets; fold offsets. rewrite Em. reflexivity.
  - apply Hunit1. destruct (Nat.leb_spec (length wr + 2) (length out)); [rewrite Hroom by lia; reflexivity|apply Hfull2; lia].
Qed.

Lemma sjis_eudc_ok c : 0xE000 <= c -> c <= 0xE757 ->
  exists p, sjis_eudc_bytes c = Ret p /\ pair_bytes p = sjis_code (c - 0xE000 + 8836).
Proof.
  intros H1 H2. unfold sjis_eudc_bytes, sub_chk. btrue (0xE000 <=? c). cbn [bind].
  eexists. split; [reflexivity|]. unfold pair_bytes, sjis_code, as_u8. cbn [fst snd].
  set (p := c - 57344 + 8836).
  destruct (N.ltb_spec (p / 188) 31); destruct (N.ltb_spec (p mod 188) 63); repeat (f_equal; try lia).
Qed.

Lemma sjis_body_ok t : increasing t -> enc_body_ok (sjis_enc_next t) 2 (sjis_encode_body t).
Proof.
  intros Hinc pre rest wr out input_i Ht Hwr. cbv zeta.
  destruct rest as [|c rest]; cbn [sjis_enc_next chars_next].
  { exists []. reflexivity. }
  pose proof (search_fetch t (if c =? 0x2212 then 0xFF0D else c) Hinc) as Hs.
  set (st := EncState (offsets (length (utf8 pre)) (c :: rest)) input_i (length wr) (frame wr out)).
  assert (Hfull : (length out <= length wr)%nat -> exists itr, sjis_encode_body t st =
            Ret (Break (EncState itr input_i (length wr) (frame wr out)))).
  { intros. eexists. unfold st, sjis_encode_body, offsets; fold offsets. cbn [es_itr es_out es_buf es_in].
    rewrite frame_length by lia. destruct (Nat.leb_spec (length out) (length wr)); [reflexivity|lia]. }
  assert (Hput1 : forall b, ((length wr + 1 <= length out)%nat -> sjis_encode_body t st =
       (let* buf := upd (frame wr out) (length wr) b in
        Ret (Continue (EncState (offsets (length (utf8 pre) + length (utf8_char c)) rest) (length (utf8 pre) + 1) (length wr + 1) buf)))) ->
     (1 <= 1 <= length (c :: rest))%nat /\
     (if (length wr + length [b] <=? length out)%nat
      then sjis_encode_body t st =
         Ret (Continue (EncState (offsets (length (utf8 (pre ++ firstn 1 (c :: rest)))) (skipn 1 (c :: rest)))
                                    (length (utf8 (pre ++ firstn (1 - 1) (c :: rest))) + 1)
                                    (length (wr ++ [b])) (frame (wr ++ [b]) out)))
      else exists itr, sjis_encode_body t st = Ret (Break (EncState itr input_i (length wr) (frame wr out))))).
  { intros b H. split; [cbn; lia|]. cbn [length].
    destruct (Nat.leb_spec (length wr + 1) (length out)); [|apply Hfull; lia].
    apply unit1_continue. rewrite H by lia. upds. reflexivity. }
  assert (Hunf : (length wr + 1 <= length out)%nat -> sjis_encode_body t st =
      ltac:(let x := eval cbv beta iota zeta delta [sjis_encode_body es_itr es_out es_buf es_in offsets st] in (sjis_encode_body t st) in
            match x with if _ then _ else ?y => exact y end)).
  { intros. unfold st, sjis_encode_body, offsets; fold offsets. cbn [es_itr es_out es_buf es_in].
    rewrite frame_length by lia. destruct (Nat.leb_spec (length out) (length wr)); [lia|]. reflexivity. }
  fold offsets in Hunf.
  destruct (N.leb_spec c 128) as [Hc|Hc].
  { apply Hput1. intros. rewrite Hunf by lia. replace (as_u8 c) with c by (unfold as_u8; lia). reflexivity. }
  destruct (N.eqb_spec c 0xA5) as [->|H1].
  { apply Hput1. intros. rewrite Hunf by lia. reflexivity. }
  destruct (N.eqb_spec c 0x203E) as [->|H2].
  { apply Hput1. intros. rewrite Hunf by lia. reflexivity. }
  destruct ((0xFF61 <=? c) && (c <=? 0xFF9F)) eqn:H3.
  { apply Hput1. intros. rewrite Hunf by lia. unfold sub_chk. btrue (0xFF61 <=? c). cbn [bind].
    replace (as_u8 (c - 0xFF61 + 0xA1)) with (c - 0xFF61 + 0xA1) by (unfold as_u8; lia). reflexivity. }
  assert (Hfull2 : (length out <= length wr + 1)%nat -> exists itr, sjis_encode_body t st =
            Ret (Break (EncState itr input_i (length wr) (frame wr out)))).
  { intros. destruct (Nat.le_gt_cases (length out) (length wr)); [apply Hfull; lia|].
    rewrite Hunf by lia. rewrite frame_length by lia.
    destruct (Nat.ltb_spec (length wr + 1) (length out)); [lia|]. eexists. reflexivity. }
  assert (Hput2 : forall p, ((length wr + 2 <= length out)%nat -> sjis_encode_body t st =
       (let* buf := upd (frame wr out) (length wr) (fst p) in
        let* buf := upd buf (length wr + 1) (snd p) in
        Ret (Continue (EncState (offsets (length (utf8 pre) + length (utf8_char c)) rest) (length (utf8 pre) + 1) (length wr + 2) buf)))) ->
     (1 <= 1 <= length (c :: rest))%nat /\
     (if (length wr + length (pair_bytes p) <=? length out)%nat
      then sjis_encode_body t st =
         Ret (Continue (EncState (offsets (length (utf8 (pre ++ firstn 1 (c :: rest)))) (skipn 1 (c :: rest)))
                                    (length (utf8 (pre ++ firstn (1 - 1) (c :: rest))) + 1)
                                    (length (wr ++ pair_bytes p)) (frame (wr ++ pair_bytes p) out)))
      else exists itr, sjis_encode_body t st = Ret (Break (EncState itr input_i (length wr) (frame wr out))))).
  { intros p H. split; [cbn; lia|]. cbn [length pair_bytes].
    destruct (Nat.leb_spec (length wr + 2) (length out)); [|apply Hfull2; lia].
    apply unit1_continue. rewrite H by lia. upds. finish_unit1. }
  destruct ((0xE000 <=? c) && (c <=? 0xE757)) eqn:H4.
  { destruct (sjis_eudc_ok c) as (p & Hp & Ep); [lia|lia|]. rewrite <- Ep. apply Hput2. intros.
    rewrite Hunf by lia. rewrite frame_length by lia. destruct (Nat.ltb_spec (length wr + 1) (length out)); [|lia].
    rewrite Hp. reflexivity. }
  assert (Hchar : is_char (if c =? 0x2212 then 0xFF0D else c) = true).
  { apply Forall_app in Ht. destruct Ht as [_ Ht]. inversion Ht as [|? ? Hsc ?]; subst. apply is_char_true.
    destruct (N.eqb_spec c 0x2212); [|assumption]. unfold scalar. lia. }
  destruct (assoc t (if c =? 0x2212 then 0xFF0D else c)) as [p|].
  - destruct Hs as (i & Hs & Hi). apply Hput2. intros.
    rewrite Hunf by lia. rewrite frame_length by lia. destruct (Nat.ltb_spec (length wr + 1) (length out)); [|lia].
    unfold from_u32. rewrite Hchar. cbn [unwrap bind]. rewrite Hs. cbn [bind]. rewrite Hi. reflexivity.
  - split; [eauto|]. destruct (Nat.leb_spec (length wr + 2) (length out)); [|apply Hfull2; lia].
    rewrite Hunf by lia. rewrite frame_length by lia. destruct (Nat.ltb_spec (length wr + 1) (length out)); [|lia].
    unfold from_u32. rewrite Hchar. cbn [unwrap bind]. rewrite Hs. cbn [bind]. rewrite utf8_char_len. reflexivity.
Qed.
