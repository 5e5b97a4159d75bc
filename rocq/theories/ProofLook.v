(* Lemmas for C63: a call looks only a bounded number of units ahead. *)
From Coq Require Import List NArith Arith Bool Lia ZArith.
From Verif Require Import Tac Encodings Spec SpecErrors SpecLook RefBig5 RefSjis Prelude RustCore Types ProofUtf8 Engine Search NextEnc NextDec NextUtf8 ModelBig5.
From Verif Require Import Tables Units Decide Greedy ModelApi ProofApi Session ProofSession ProofMore.
Import ListNotations.
Local Open Scope nat_scope.

(** ** Decoding *)

(* bytes that decide what is at the head *)
Definition dec_window (e : encoding) : nat :=
  match e with Big5WHATWG | ShiftJISWHATWG => 2 | Single _ => 1 | _ => 4 end.

(* most input bytes per output byte *)
Definition dec_density (e : encoding) : nat :=
  match e with Utf16BE | Utf16LE => 2 | Utf32BE | Utf32LE => 4 | _ => 1 end.

Lemma decode_lookahead_split e n k : decode_lookahead e n <= k ->
  dec_density e * n <= k /\ forall m, m <= n -> n < m + decode_room e \/ dec_density e * m + dec_window e <= k.
Proof.
  intros H. split; [|intros m Hm]; destruct e; cbn [decode_lookahead dec_density dec_window decode_room] in *; lia.
Qed.

Lemma split4 (p : list N) : 4 <= length p -> exists a b c d q, p = a :: b :: c :: d :: q.
Proof. destruct p as [|a [|b [|c [|d q]]]]; cbn; try lia. intros _. exists a, b, c, d, q. reflexivity. Qed.
Lemma split2 (p : list N) : 2 <= length p -> exists a b q, p = a :: b :: q.
Proof. destruct p as [|a [|b q]]; cbn; try lia. intros _. exists a, b, q. reflexivity. Qed.
Lemma split1 (p : list N) : 1 <= length p -> exists a q, p = a :: q.
Proof. destruct p as [|a q]; cbn; try lia. intros _. exists a, q. reflexivity. Qed.

(* the same decision, except for the extent of invalid data *)
Definition same_act (a b : dact) : Prop :=
  match a, b with
  | DBad _, DBad _ => True
  | _, _ => a = b
  end.

Lemma same_act_refl a : same_act a a.
Proof. destruct a; cbn; auto. Qed.

Lemma truncated_4 b n : (4 <= n) -> looks_truncated b n = false.
Proof.
  intros H. unfold looks_truncated. replace (n <? 2) with false by (symmetry; apply Nat.ltb_ge; lia).
  replace (n <? 3) with false by (symmetry; apply Nat.ltb_ge; lia). replace (n <? 4) with false by (symmetry; apply Nat.ltb_ge; lia).
  rewrite !andb_false_r. reflexivity.
Qed.

Lemma utf8_char_width_le b : utf8_char_width b <= 4.
Proof. unfold utf8_char_width. repeat bcase; lia. Qed.

Lemma valid_zero_4 a b c d s s' :
  (utf8_valid_up_to (a :: b :: c :: d :: s) =? 0) = (utf8_valid_up_to (a :: b :: c :: d :: s') =? 0).
Proof.
  cbn [utf8_valid_up_to]. destruct (utf8_char_width a) as [|[|[|[|[|w]]]]]; try reflexivity.
  - destruct (is_cont b); reflexivity.
  - destruct (_ && is_cont c); reflexivity.
  - destruct (_ && is_cont c && is_cont d); reflexivity.
Qed.

Lemma utf8_window ie ie' p s s' : 4 <= length p -> same_act (utf8_dec_next ie (p ++ s)) (utf8_dec_next ie' (p ++ s')).
Proof.
  intros H. destruct (split4 p H) as (a & b & c & d & q & ->). cbn [app]. unfold utf8_dec_next.
  rewrite (valid_zero_4 a b c d (q ++ s) (q ++ s')). rewrite !truncated_4 by (cbn [length]; lia).
  destruct (_ =? 0); [exact I|]. cbn [same_act]. pose proof (utf8_char_width_le a) as W.
  destruct (utf8_char_width a) as [|[|[|[|[|w]]]]]; try reflexivity. lia.
Qed.

Lemma dec_next_window_exact e ie ie' p s s' : e <> Utf8 -> dec_window e <= length p -> dec_next e ie (p ++ s) = dec_next e ie' (p ++ s').
Proof.
  intros He H. destruct e as [| | | | | | |m]; cbn [dec_next dec_window] in *; [congruence|..].
  1-4: destruct (split4 p H) as (a & b & c & d & q & ->); reflexivity.
  1-2: destruct (split2 p H) as (a & b & q & ->); reflexivity.
  destruct (split1 p H) as (a & q & ->); reflexivity.
Qed.

Lemma dec_next_window e ie ie' p s s' : dec_window e <= length p -> same_act (dec_next e ie (p ++ s)) (dec_next e ie' (p ++ s')).
Proof.
  intros H. destruct e; [apply utf8_window, H|..];
    (rewrite (dec_next_window_exact _ ie ie' p s s') by (try discriminate; exact H); apply same_act_refl).
Qed.

Lemma DecUnit_density e w u : DecUnit e w u -> length w <= dec_density e * length (utf8 u).
Proof.
  assert (P : forall c, 1 <= length (utf8 [c])) by (intros c; rewrite utf8_single; apply utf8_char_pos).
  assert (H2 : forall c, (0x80 <= c)%N -> 2 <= length (utf8 [c])) by (intros; rewrite utf8_single; apply utf8_char_ge2; assumption).
  assert (H16 : forall big c, length (utf16_char big c) <= 2 * length (utf8 [c])).
  { intros big c. rewrite utf8_single. unfold utf16_char. destruct (N.ltb_spec c 0x10000).
    - rewrite unit16_two. pose proof (utf8_char_pos c). lia.
    - rewrite app_length, !unit16_two, utf8_char_len4 by assumption. lia. }
  assert (H32 : forall big c, length (utf32_char big c) <= 4 * length (utf8 [c])).
  { intros big c. specialize (P c). destruct big; cbn [utf32_char length]; lia. }
  destruct e; cbn [DecUnit dec_density].
  - intros (c & Hc & -> & ->). rewrite utf8_single. lia.
  - intros (c & Hc & -> & ->). apply H16.
  - intros (c & Hc & -> & ->). apply H16.
  - intros (c & Hc & -> & ->). apply H32.
  - intros (c & Hc & -> & ->). apply H32.
  - intros [(b & Hb & -> & ->)|[(p & c & Hp & -> & ->)|(p & Hp & ->)]].
    + specialize (P b). cbn [length] in *. lia.
    + rewrite big5_code_len. apply big5_high in Hp. specialize (H2 c Hp). lia.
    + rewrite big5_code_len. cbn in Hp. destruct Hp as [H|[H|[H|[H|[]]]]]; injection H as <- <-; cbn; lia.
  - intros [(b & Hb & -> & ->)|[(b & Hb & -> & ->)|[(p & c & Hp & -> & ->)|(p & Hp & -> & ->)]]].
    + specialize (P b). cbn [length] in *. lia.
    + match goal with |- _ <= 1 * length (utf8 [?c]) => specialize (P c) end. cbn [length]. lia.
    + rewrite sjis_code_len. apply jis_high in Hp. specialize (H2 c ltac:(lia)). lia.
    + rewrite sjis_code_len. match goal with |- _ <= 1 * length (utf8 [?c]) => specialize (H2 c ltac:(lia)) end. lia.
  - intros (b & c & _ & -> & ->). specialize (P c). cbn [length] in *. lia.
Qed.

Lemma Decoded_density e bs cs : Decoded e bs cs -> length bs <= dec_density e * length (utf8 cs).
Proof.
  induction 1 as [|w u bs cs Hu HD IH]; [cbn; lia|]. apply DecUnit_density in Hu. rewrite utf8_app, !app_length. lia.
Qed.

Lemma app_split {A} (p s a b : list A) : p ++ s = a ++ b -> length a <= length p -> exists q, p = a ++ q /\ b = q ++ s.
Proof.
  revert p. induction a as [|x a IH]; intros p E H.
  - exists p. auto.
  - destruct p as [|y p]; [cbn in H; lia|]. cbn in E. apply cons_inj in E. destruct E as [-> E].
    cbn in H. destruct (IH p E) as (q & -> & ->); [lia|]. exists q. auto.
Qed.

(* what a decoder that has room for [room] more bytes does next *)
Inductive stop := SMore | SOk | SErr (n : nat).

Definition dec_stop (e : encoding) (room : nat) (a : dact) : stop :=
  match a with
  | DBad n => if decode_room e <=? room then SErr n else SOk
  | DUnit _ u => if length (utf8 u) <=? room then SMore else SOk
  | _ => SOk
  end.

Lemma decode_stop e ie bs pre cs rest out : bytes bs -> dsteps (dec_next e ie) bs pre cs rest -> length (utf8 cs) <= length out ->
  dec_stop e (length out - length (utf8 cs)) (dec_next e ie rest) <> SMore ->
  decode_to_str e bs out ie =
  Ret (match dec_stop e (length out - length (utf8 cs)) (dec_next e ie rest) with
       | SErr n => Err (DecodeError InvalidData (length pre, length pre + n) (length (utf8 cs)))
       | _ => Ok (utf8 cs, length pre)
       end, frame (utf8 cs) out).
Proof.
  intros Hb Hs Ho H. rewrite (decode_from_steps e ie bs pre cs rest out Hb Hs Ho).
  - destruct (dec_next e ie rest) as [| |n|k u]; cbn [dec_stop] in *; auto.
    + clear H. replace (decode_room e <=? length out - length (utf8 cs)) with (length (utf8 cs) + decode_room e <=? length out); [destruct (_ <=? _); reflexivity|].
      apply eq_true_iff_eq. rewrite !Nat.leb_le. lia.
    + destruct (_ <=? _); [congruence|reflexivity].
  - destruct (dec_next e ie rest) as [| |n|k u]; cbn [dec_stop] in *; auto.
    destruct (Nat.leb_spec (length (utf8 u)) (length out - length (utf8 cs))); [congruence|lia].
Qed.

(* two inputs with a common start that is long enough *)
Lemma decode_look e ie ie' p s s' out : bytes (p ++ s) -> bytes (p ++ s') -> decode_lookahead e (length out) <= length p ->
  exists r r' buf, decode_to_str e (p ++ s) out ie = Ret (r, buf) /\ decode_to_str e (p ++ s') out ie' = Ret (r', buf) /\
  same_but_error_end r r' /\ (e <> Utf8 -> r = r').
Proof.
  intros Hb Hb' Hl. apply decode_lookahead_split in Hl. destruct Hl as [Hl Hm].
  destruct (decode_total e ie (p ++ s) out Hb) as (r & buf & H).
  destruct (decode_cases _ _ _ _ _ _ Hb H) as (pre & cs & rest & E & Hs & Ho & -> & Hc).
  pose proof (dsteps_Decoded _ _ _ _ _ _ Hb Hs) as D. pose proof (Decoded_density _ _ _ D) as Hd.
  assert (Hdo : dec_density e * length (utf8 cs) <= dec_density e * length out) by (apply Nat.mul_le_mono_l, Ho).
  destruct (app_split p s pre rest E) as (q & -> & ->); [lia|]. rewrite app_length in *. rewrite <- !app_assoc in *.
  pose proof (Decoded_dsteps e ie' pre cs (q ++ s') D) as Hs'.
  assert (Hne : dec_stop e (length out - length (utf8 cs)) (dec_next e ie (q ++ s)) <> SMore).
  { destruct (dec_next e ie (q ++ s)) as [| |n|k u]; cbn [dec_stop]; try discriminate.
    - destruct (_ <=? _); discriminate.
    - destruct Hc as [(_ & Hx)|(? & Hx & _)]; [|discriminate Hx].
      destruct (Nat.leb_spec (length (utf8 u)) (length out - length (utf8 cs))); [lia|discriminate]. }
  assert (Hrest : bytes (q ++ s')) by (apply Forall_app in Hb'; apply Hb').
  assert (V : match dec_stop e (length out - length (utf8 cs)) (dec_next e ie (q ++ s)), dec_stop e (length out - length (utf8 cs)) (dec_next e ie' (q ++ s')) with
              | SErr n, SErr n' => e <> Utf8 -> n = n' | a, b => a = b end).
  { destruct (Hm _ Ho) as [Hfull|Hwin].
    - assert (X : forall ie rest, bytes rest -> dec_stop e (length out - length (utf8 cs)) (dec_next e ie rest) = SOk).
      { clear -Hfull Ho. intros ie rest Hb. destruct (dec_next e ie rest) as [| |n|k u] eqn:En; cbn [dec_stop]; try reflexivity.
        - destruct (Nat.leb_spec (decode_room e) (length out - length (utf8 cs))); [lia|reflexivity].
        - assert (1 <= length (utf8 u)).
          { destruct (dec_next_unit e rest k u ie Hb En) as (_ & Hu). destruct (dec_unit_shape _ _ _ Hu) as (_ & Hw & _).
            pose proof (DecUnit_density _ _ _ Hu). destruct (length (utf8 u)); lia. }
          assert (decode_room e <= 1) by (destruct e; cbn; lia).
          destruct (Nat.leb_spec (length (utf8 u)) (length out - length (utf8 cs))); [lia|reflexivity]. }
      rewrite !X; [reflexivity|exact Hrest|apply Forall_app in Hb; apply Hb].
    - assert (Hq : dec_window e <= length q) by lia.
      pose proof (dec_next_window e ie ie' q s s' Hq) as W. pose proof (fun He => dec_next_window_exact e ie ie' q s s' He Hq) as X.
      destruct (dec_next e ie (q ++ s)) as [| |n|k u], (dec_next e ie' (q ++ s')) as [| |n'|k' u']; cbn [same_act] in W; try discriminate W; cbn [dec_stop].
      + reflexivity.
      + reflexivity.
      + destruct (_ <=? _); [|reflexivity]. intros He. specialize (X He). injection X as <-. reflexivity.
      + injection W as <- <-. destruct (_ <=? _); reflexivity. }
  rewrite (decode_stop e ie _ _ _ _ out Hb Hs Ho Hne) in H |- *.
  assert (Hne' : dec_stop e (length out - length (utf8 cs)) (dec_next e ie' (q ++ s')) <> SMore).
  { intros Y. rewrite Y in V. destruct (dec_stop _ _ (dec_next e ie (q ++ s))); [congruence|discriminate|discriminate]. }
  rewrite (decode_stop e ie' _ _ _ _ out Hb' Hs' Ho Hne').
  eexists _, _, _. split; [reflexivity|]. split; [reflexivity|].
  destruct (dec_stop _ _ (dec_next e ie (q ++ s))) as [| |n], (dec_stop _ _ (dec_next e ie' (q ++ s'))) as [| |n']; try discriminate V; try (split; [cbn; auto|auto]; fail).
  split; [cbn; auto|]. intros He. rewrite (V He). reflexivity.
Qed.

(** ** Encoding *)

(* fewest output bytes per character *)
Definition enc_density (e : encoding) : nat :=
  match e with Utf16BE | Utf16LE => 2 | Utf32BE | Utf32LE => 4 | _ => 1 end.

Lemma encode_lookahead_split e n k : encode_lookahead e n <= k -> n < enc_density e * (k + 1).
Proof.
  assert (D2 : n < 2 * (n / 2 + 1)) by (pose proof (Nat.div_mod n 2 ltac:(lia)); pose proof (Nat.mod_upper_bound n 2 ltac:(lia)); lia).
  assert (D4 : n < 4 * (n / 4 + 1)) by (pose proof (Nat.div_mod n 4 ltac:(lia)); pose proof (Nat.mod_upper_bound n 4 ltac:(lia)); lia).
  intros H. destruct e; cbn [encode_lookahead enc_density] in *; lia.
Qed.

Lemma enc_next_density e ie cs k w : enc_next e ie cs = EUnit k w -> enc_density e * k <= length w /\ 1 <= k.
Proof.
  destruct cs as [|c r]; [destruct e; discriminate|]. destruct e; cbn [enc_next enc_density utf_enc_next chars_next].
  - intros H. injection H as <- <-. pose proof (utf8_char_pos c). lia.
  - intros H. injection H as <- <-. unfold utf16_char. destruct (_ <? _)%N; [|rewrite app_length]; rewrite ?unit16_two; lia.
  - intros H. injection H as <- <-. unfold utf16_char. destruct (_ <? _)%N; [|rewrite app_length]; rewrite ?unit16_two; lia.
  - intros H. injection H as <- <-. cbn. lia.
  - intros H. injection H as <- <-. cbn. lia.
  - cbn [big5_enc_next]. destruct (_ <=? _)%N; [intros H; injection H as <- <-; cbn; lia|].
    destruct (assoc _ _) as [v|]; [|discriminate]. destruct (_ || _); [|intros H; injection H as <- <-; cbn; lia].
    destruct r as [|d r]; [destruct ie; [|discriminate]; intros H; injection H as <- <-; cbn; lia|].
    destruct (map_grapheme c d); intros H; injection H as <- <-; cbn; lia.
  - cbn [sjis_enc_next chars_next]. repeat match goal with |- (if ?b then EUnit _ _ else _) = _ -> _ => destruct b; [intros H; injection H as <- <-; cbn; lia|] end.
    destruct (assoc _ _) as [v|]; [|discriminate]. intros H; injection H as <- <-; cbn; lia.
  - cbn [sb_enc_next chars_next]. destruct (_ <=? _)%N; [intros H; injection H as <- <-; cbn; lia|].
    destruct (assoc _ _) as [v|]; [|discriminate]. intros H; injection H as <- <-; cbn; lia.
Qed.

(* what an encoder that has room for [room] more bytes does next *)
Definition enc_stop (e : encoding) (room : nat) (a : eact) : stop :=
  match a with
  | EBad c => if encode_room e <=? room then SErr (N.to_nat c) else SOk
  | EUnit _ w => if length w <=? room then SMore else SOk
  | _ => SOk
  end.

(* with room for few bytes, few characters matter *)
Lemma enc_next_window e ie ie' room p s s' : room < enc_density e * (length p + 1) ->
  (exists k w, length w <= room /\ enc_next e ie (p ++ s) = EUnit k w /\ enc_next e ie' (p ++ s') = EUnit k w) \/
  (enc_stop e room (enc_next e ie (p ++ s)) = enc_stop e room (enc_next e ie' (p ++ s')) /\ enc_stop e room (enc_next e ie (p ++ s)) <> SMore).
Proof.
  intros H.
  assert (Same : enc_next e ie (p ++ s) = enc_next e ie' (p ++ s') ->
    (exists k w, length w <= room /\ enc_next e ie (p ++ s) = EUnit k w /\ enc_next e ie' (p ++ s') = EUnit k w) \/
    (enc_stop e room (enc_next e ie (p ++ s)) = enc_stop e room (enc_next e ie' (p ++ s')) /\ enc_stop e room (enc_next e ie (p ++ s)) <> SMore)).
  { intros E. rewrite <- E. destruct (enc_next e ie (p ++ s)) as [| |c|k w]; cbn [enc_stop].
    - right. split; [reflexivity|discriminate].
    - right. split; [reflexivity|discriminate].
    - right. split; [reflexivity|destruct (_ <=? _); discriminate].
    - destruct (Nat.leb_spec (length w) room); [left; exists k, w; auto|right; split; [reflexivity|discriminate]]. }
  destruct p as [|a q].
  - right. cbn [app].
    assert (X : forall ie cs, enc_stop e room (enc_next e ie cs) = SOk).
    { clear Same. intros ie0 cs. destruct (enc_next e ie0 cs) as [| |c|k w] eqn:En; cbn [enc_stop]; try reflexivity.
      - destruct e; cbn [enc_density encode_room length] in *.
        1-5: destruct cs as [|x cs]; discriminate En.
        all: destruct (Nat.leb_spec 1 room) as [L|L]; try lia; destruct (Nat.leb_spec 2 room); try lia; reflexivity.
      - apply enc_next_density in En. cbn [length] in H. assert (enc_density e <= enc_density e * k) by nia.
        destruct (Nat.leb_spec (length w) room); [lia|reflexivity]. }
    rewrite !X. split; [reflexivity|discriminate].
  - destruct e as [| | | | | | |m]; try (apply Same; reflexivity). destruct q as [|b q]; [|apply Same; reflexivity].
    cbn [enc_density length] in H. assert (Hr : room <= 1) by lia. clear H. cbn [app enc_next big5_enc_next] in *.
    destruct (a <=? 127)%N; [apply Same; reflexivity|]. destruct (assoc _ a) as [v|]; [|apply Same; reflexivity].
    destruct (_ || _); [|apply Same; reflexivity]. right.
    assert (X : forall (ie : bool) l, enc_stop Big5WHATWG room
      match l with
      | [] => if ie then EUnit 1 (pair_bytes v) else EHold
      | c2 :: _ => match map_grapheme a c2 with Some q => EUnit 2 (pair_bytes q) | None => EUnit 1 (pair_bytes v) end
      end = SOk).
    { intros i l. assert (P : forall v0 k, enc_stop Big5WHATWG room (EUnit k (pair_bytes v0)) = SOk).
      { intros v0 k. cbn [enc_stop pair_bytes length]. destruct (Nat.leb_spec 2 room); [lia|reflexivity]. }
      destruct l as [|c2 l]; [destruct i; [apply P|reflexivity]|]. destruct (map_grapheme a c2); apply P. }
    rewrite !X. split; [reflexivity|discriminate].
Qed.

Lemma encode_stop e ie cs pre bs rest out : text cs -> esteps (enc_next e ie) cs pre bs rest -> length bs <= length out ->
  enc_stop e (length out - length bs) (enc_next e ie rest) <> SMore ->
  encode_from_str e (utf8 cs) out ie =
  Ret (match enc_stop e (length out - length bs) (enc_next e ie rest) with
       | SErr c => Err (EncodeError (N.of_nat c) (length (utf8 pre), length (utf8 pre) + length (utf8_char (N.of_nat c))) (length bs))
       | _ => Ok (bs, length (utf8 pre))
       end, frame bs out).
Proof.
  intros Hb Hs Ho H. rewrite (encode_from_steps e ie cs pre bs rest out Hb Hs Ho).
  - destruct (enc_next e ie rest) as [| |c|k u]; cbn [enc_stop] in *; auto.
    + clear H. replace (encode_room e <=? length out - length bs) with (length bs + encode_room e <=? length out).
      * destruct (_ <=? _); [rewrite N2Nat.id|]; reflexivity.
      * apply eq_true_iff_eq. rewrite !Nat.leb_le. lia.
    + destruct (_ <=? _); [congruence|reflexivity].
  - destruct (enc_next e ie rest) as [| |c|k u]; cbn [enc_stop] in *; auto.
    destruct (Nat.leb_spec (length u) (length out - length bs)); [congruence|lia].
Qed.

Lemma esteps_look e ie ie' cs pre bs rest : esteps (enc_next e ie) cs pre bs rest ->
  forall room p s s', cs = p ++ s -> length bs <= room -> room < enc_density e * (length p + 1) ->
  exists q, p = pre ++ q /\ rest = q ++ s /\ room - length bs < enc_density e * (length q + 1) /\ esteps (enc_next e ie') (p ++ s') pre bs (q ++ s').
Proof.
  induction 1 as [cs|cs k w pre bs rest En Hs IH]; intros room p s s' -> Hl Hr.
  - exists p. cbn [length app]. rewrite Nat.sub_0_r. repeat split; [exact Hr|constructor].
  - rewrite app_length in Hl. destruct (enc_next_density _ _ _ _ _ En) as [Hd Hk1].
    assert (Hk : k <= length p) by (assert (enc_density e * k < enc_density e * (length p + 1)) by lia; nia).
    rewrite skipn_app_le in IH by exact Hk.
    destruct (IH (room - length w) (skipn k p) s s' eq_refl) as (q & Ep & -> & Hq & Hs'); [lia|rewrite skipn_length; nia|].
    rewrite firstn_app_le by exact Hk. exists q. rewrite <- app_assoc, <- Ep, firstn_skipn.
    split; [reflexivity|]. split; [reflexivity|]. split; [rewrite app_length; replace (room - (length w + length bs)) with (room - length w - length bs) by lia; exact Hq|].
    rewrite <- (firstn_app_le k p s') by exact Hk. eapply esteps_unit.
    + destruct (enc_next_window e ie ie' room p s s' Hr) as [(k' & w' & _ & E & E')|[_ E]].
      * rewrite En in E. injection E as <- <-. exact E'.
      * rewrite En in E. cbn [enc_stop] in E. destruct (Nat.leb_spec (length w) room); [congruence|lia].
    + rewrite skipn_app_le by exact Hk. exact Hs'.
Qed.

Lemma encode_look e ie ie' p s s' out : text (p ++ s) -> text (p ++ s') -> encode_lookahead e (length out) <= length p ->
  encode_from_str e (utf8 (p ++ s)) out ie = encode_from_str e (utf8 (p ++ s')) out ie'.
Proof.
  intros Ht Ht' Hl. apply encode_lookahead_split in Hl.
  destruct (encode_total e ie (p ++ s) out Ht) as (r & buf & H).
  destruct (encode_cases _ _ _ _ _ _ Ht H) as (pre & bs & rest & E & Hs & Ho & -> & Hc).
  destruct (esteps_look e ie ie' _ _ _ _ Hs (length out) p s s' eq_refl Ho Hl) as (q & -> & -> & Hq & Hs').
  destruct (enc_next_window e ie ie' _ q s s' Hq) as [(k & w & Hw & En & _)|[Es Hne]].
  - rewrite En in Hc. destruct Hc as [(_ & Hx)|(? & ? & _ & Hx & _)]; [lia|discriminate Hx].
  - rewrite (encode_stop e ie _ _ _ _ out Ht Hs Ho Hne). rewrite Es in Hne |- *.
    rewrite (encode_stop e ie' _ _ _ _ out Ht' Hs' Ho Hne). reflexivity.
Qed.

(** ** The end of a UTF-8 error *)

Lemma run_len_repeat n s : run_len (repeat 0x80%N n ++ s) = n + run_len s.
Proof. induction n as [|n IH]; [reflexivity|]. cbn [repeat app run_len]. change (extends_error 0x80%N) with true. cbn iota. rewrite IH. lia. Qed.

Lemma utf8_long_error n s out : bytes s -> 1 <= length out ->
  decode_to_str Utf8 (0xFF%N :: repeat 0x80%N n ++ s) out true = Ret (Err (DecodeError InvalidData (0, 1 + n + run_len s) 0), out).
Proof.
  intros Hs Ho.
  assert (Hb : bytes (0xFF%N :: repeat 0x80%N n ++ s)).
  { apply Forall_cons; [reflexivity|]. apply Forall_app. split; [|exact Hs]. apply Forall_forall. intros x Hx. apply repeat_spec in Hx. subst x. reflexivity. }
  pose proof (decode_from_steps Utf8 true _ [] [] _ out Hb (dsteps_nil _ _) ltac:(cbn; lia)) as H.
  assert (E : dec_next Utf8 true (0xFF%N :: repeat 0x80%N n ++ s) = DBad (1 + (n + run_len s))).
  { cbn [dec_next utf8_dec_next]. rewrite <- (run_len_repeat n s). reflexivity. }
  rewrite E in H. rewrite (H I). cbn [utf8 flat_map length decode_room].
  destruct (Nat.leb_spec (0 + 1) (length out)); [|lia]. rewrite frame_nil. f_equal.
Qed.
