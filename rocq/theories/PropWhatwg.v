(* Comparison with the WHATWG Encoding Standard. *)
From Coq Require Import List NArith Arith Bool Lia.
From Verif Require Import Encodings Spec SpecErrors SpecWhatwg RefBig5 RefSjis Prelude RustCore Types ModelApi Session PropCalls PropRound.
From Verif Require Import Tac Engine Search NextDec Tables Units Decide Greedy ProofUtf8 ProofApi ProofSession ProofMore ProofRound ProofWhatwg.
Import ListNotations.
Local Open Scope nat_scope.

(** * C25: error recovery *)

(* whatever buffers the client uses, the emitted text is the one the standard's decoder produces *)
Theorem C25_recovery_is_replacement_decoding : forall e bs s, e <> Utf8 -> bytes bs ->
  Recovered e bs s -> s = utf8 (replacement_decode e bs).
Proof. intros e bs s He Hb H. exact (recovered_whatwg e He bs s H Hb). Qed.

(* and it gets to the end, needing at most one call per input byte if every buffer has room for one character *)
Theorem C25_recovery_terminates : forall e bs outs, bytes bs ->
  Forall (fun out => 4 <= length out) outs -> length bs <= length outs ->
  snd (recover_loop e bs outs) = [] /\ Recovered e bs (fst (recover_loop e bs outs)).
Proof. intros e bs outs Hb Ho Hl. exact (recover_loop_done e outs bs Hb Ho Hl). Qed.

Theorem C25_recovery_loop : forall e bs outs, e <> Utf8 -> bytes bs ->
  Forall (fun out => 4 <= length out) outs -> length bs <= length outs ->
  recover_loop e bs outs = (utf8 (replacement_decode e bs), []).
Proof.
  intros e bs outs He Hb Ho Hl. destruct (recover_loop_done e outs bs Hb Ho Hl) as [E R].
  apply (recovered_whatwg e He) in R; [|exact Hb]. destruct (recover_loop e bs outs) as [em r]. cbn [fst snd] in *. congruence.
Qed.

(* a stray trail byte, a good pair, a lead byte with an ASCII byte, a truncated pair *)
Example C25_example : recover_loop Big5WHATWG [0xFF; 0xA4; 0x51; 0x81; 0x41; 0xA4]%N (repeat (repeat 0%N 4) 6)
  = (utf8 [0xFFFD; 0x5341; 0xFFFD; 0x41; 0xFFFD]%N, []).
Proof. vm_compute. reflexivity. Qed.

(* an unpaired lead surrogate followed by another character, and one at the very end with an odd byte *)
Example C25_example_utf16 : replacement_decode Utf16LE [0x3D; 0xD8; 0x41; 0; 0x3D; 0xD8; 0]%N = [0xFFFD; 0x41; 0xFFFD]%N /\
  recover_loop Utf16LE [0x3D; 0xD8; 0x41; 0; 0x3D; 0xD8; 0]%N (repeat (repeat 0%N 4) 7) = (utf8 [0xFFFD; 0x41; 0xFFFD]%N, []).
Proof. split; vm_compute; reflexivity. Qed.

(** * C34: the Shift JIS encoder *)

(* whole strings, whatever the value of is_end *)
Theorem C34_shift_jis_encodes_as_whatwg : forall is_end cs bs out, text cs -> length bs <= length out ->
  (exists buf, encode_from_str ShiftJISWHATWG (utf8 cs) out is_end = Ret (Ok (bs, length (utf8 cs)), buf)) <->
  exists ws, Forall2 (fun c w => whatwg_sjis_encode c w \/ sjis_encode_eudc c w) cs ws /\ bs = concat ws.
Proof.
  intros ie cs bs out Ht Hl. rewrite <- sjis_Encoded_chars. split.
  - intros (buf & H). exact (encode_whole _ _ _ _ _ _ Ht H).
  - intros HE. eexists. apply encode_enough_flag; [discriminate|exact HE|exact Hl].
Qed.

(* a character without code is an error *)
Theorem C34_shift_jis_rejects_the_rest : forall is_end pre ws c post out, text (c :: post) ->
  Forall2 (fun c w => whatwg_sjis_encode c w \/ sjis_encode_eudc c w) pre ws ->
  (forall w, ~ whatwg_sjis_encode c w) -> ~ (0xE000 <= c <= 0xE757)%N -> length (concat ws) + 2 <= length out ->
  exists buf, encode_from_str ShiftJISWHATWG (utf8 (pre ++ c :: post)) out is_end =
    Ret (Err (EncodeError c (length (utf8 pre), length (utf8 pre) + length (utf8_char c)) (length (concat ws))), buf).
Proof.
  intros ie pre ws c post out Ht Hpre Hno Heudc Hl. eexists. apply encode_char_error; [discriminate| |exact Ht| |exact Hl].
  - apply sjis_Encoded_chars. eauto.
  - intros w Hu. apply sjis_EncUnit_whatwg in Hu. destruct Hu as (d & E & Hd). apply cons_inj in E. destruct E as [-> _].
    destruct Hd as [Hd|[Hd _]]; [exact (Hno w Hd)|exact (Heudc Hd)].
Qed.

(* the additional characters have no code in the standard's encoder, and their codes decode to them *)
Theorem C34_eudc_is_additional : forall c w out, sjis_encode_eudc c w -> 3 <= length out ->
  (forall w', ~ whatwg_sjis_encode c w') /\
  exists buf, decode_to_str ShiftJISWHATWG w out true = Ret (Ok (utf8 [c], length w), buf).
Proof.
  intros c w out [Hc ->] Ho. split.
  - intros w'. unfold whatwg_sjis_encode. bfalse (c <=? 0x80)%N. bfalse (c =? 0xA5)%N. bfalse (c =? 0x203E)%N.
    replace (within 0xFF61 c 0xFF9F) with false by (unfold within; lia). bfalse (c =? 0x2212)%N.
    intros (p & (Hp & _) & _). destruct sjis_facts as (_ & _ & _ & _ & F & _). destruct (F p c Hp) as (Hs & _).
    unfold sjis_special in Hs. lia.
  - eexists. apply decode_enough.
    + rewrite <- (app_nil_r (sjis_code _)). apply (Decoded_unit ShiftJISWHATWG _ [c] [] []); [|constructor].
      do 3 right. exists (c - 0xE000 + 8836)%N. split; [lia|]. split; [reflexivity|]. f_equal. lia.
    + replace (length (utf8 [c])) with 3; [exact Ho|]. unfold utf8, utf8_char. cbn [flat_map]. rewrite app_nil_r.
      bfalse (c <? 0x80)%N. bfalse (c <? 0x800)%N. btrue (c <? 0x10000)%N. reflexivity.
Qed.

Example C34_example : exists buf buf', encode_from_str ShiftJISWHATWG (utf8 [0x41; 0x2212; 0xE000; 0xFF76]%N) buf8 false
    = Ret (Ok ([0x41; 0x81; 0x7C; 0xF0; 0x40; 0xB6]%N, 10), buf) /\
  encode_from_str ShiftJISWHATWG (utf8 [0x41; 0xE758]%N) buf8 true = Ret (Err (EncodeError 0xE758%N (1, 4) 1), buf').
Proof. do 2 eexists. split; vm_compute; reflexivity. Qed.

(* [whatwg_sjis_encode] is inhabited by pairs from the index too *)
Example C34_example_pointer : whatwg_sjis_encode 0x4E9C%N [0x88; 0x9F]%N.
Proof.
  assert (H : EncUnit ShiftJISWHATWG [0x4E9C]%N [0x88; 0x9F]%N).
  { destruct (enc_next_unit ShiftJISWHATWG true [0x4E9C]%N 1 [0x88; 0x9F]%N) as (_ & H & _);
      [apply text_one; left; reflexivity|vm_compute; reflexivity|exact H]. }
  apply sjis_EncUnit_whatwg in H. destruct H as (c & E & [H|[H _]]); apply cons_inj in E; destruct E as [<- _]; [exact H|lia].
Qed.

(** * C33, C46: the Big5 encoder *)

Definition big5_deviant (c : N) : Prop := In c (map fst big5_deviations).

(* the claim holds for strings without the characters listed in [big5_deviations] *)
Theorem C33_big5_encodes_as_whatwg_partial : forall cs ws out, Forall2 whatwg_big5_encode cs ws ->
  Forall (fun c => ~ big5_deviant c) cs -> length (concat ws) <= length out ->
  exists buf, encode_from_str Big5WHATWG (utf8 cs) out true = Ret (Ok (concat ws, length (utf8 cs)), buf).
Proof. intros cs ws out Hw Hd Hl. eexists. apply encode_enough; [apply whatwg_big5_Encoded; assumption|exact Hl]. Qed.

Lemma deviation_encoding c k p out : In (c, (k, p)) big5_deviations -> 2 <= length out -> (0x80 <= c)%N /\
  whatwg_big5_encode c (big5_code p) /\
  encode_from_str Big5WHATWG (utf8 [c]) out true = Ret (Ok (big5_code k, length (utf8 [c])), frame (big5_code k) out) /\
  big5_code k <> big5_code p.
Proof.
  intros Hd Ho. destruct (deviation_true c k p Hd) as (Hk & Hp & Lk & Lp & Lp').
  destruct (big5_chosen c k Hk) as (v & _ & _ & Hk2 & Hc). split; [exact Hc|]. split; [|split].
  - right. assert (c <> 0x7F + 0)%N by lia. split; [lia|]. eauto.
  - apply encode_enough; [|rewrite big5_code_len; exact Ho]. apply big5_one, big5_one_unit. eauto.
  - intros E. apply big5_code_inj in E; [lia|assumption|assumption].
Qed.

(* the claim as stated is false *)
Theorem C33_big5_encodes_as_whatwg_refuted : exists c w w' buf, scalar c /\ whatwg_big5_encode c w /\
  encode_from_str Big5WHATWG (utf8 [c]) buf2 true = Ret (Ok (w', length (utf8 [c])), buf) /\ w' <> w.
Proof.
  destruct (deviation_encoding 0x8005%N 2148%N 6543%N buf2) as (_ & H1 & H2 & H3).
  - assert (E : assoc big5_deviations 0x8005%N = Some (2148, 6543)%N) by (vm_compute; reflexivity). apply assoc_In, E.
  - cbn; lia.
  - exists 0x8005%N. do 3 eexists. split; [left; reflexivity|]. split; [exact H1|]. split; [exact H2|exact H3].
Qed.

Example C33_example_bytes : big5_code 6543%N = [0xAA; 0xCC]%N /\ (exists buf, encode_from_str Big5WHATWG (utf8 [0x8005]%N) buf8 true = Ret (Ok ([0x8E; 0xCD]%N, 3), buf)).
Proof. split; [vm_compute; reflexivity|eexists; vm_compute; reflexivity]. Qed.

(* exactly the listed characters deviate *)
Theorem C46_big5_deviations_exact : forall c out, scalar c -> 2 <= length out ->
  (big5_deviant c <->
   exists w w' buf, whatwg_big5_encode c w /\
     encode_from_str Big5WHATWG (utf8 [c]) out true = Ret (Ok (w', length (utf8 [c])), buf) /\ w' <> w).
Proof.
  intros c out Hc Ho. split.
  - intros H. unfold big5_deviant in H. apply in_map_iff in H. destruct H as ((c' & k & p) & E & H). cbn [fst] in E. subst c'.
    destruct (deviation_encoding c k p out H Ho) as (_ & H1 & H2 & H3). do 3 eexists. split; [exact H1|]. split; [exact H2|exact H3].
  - intros (w & w' & buf & Hw & He & Hne). unfold big5_deviant. destruct (in_dec N.eq_dec c (map fst big5_deviations)) as [Hin|Hnot]; [exact Hin|].
    exfalso. apply Hne. apply (whatwg_big5_unit c w Hw) in Hnot. apply big5_one in Hnot.
    assert (Ht : text [c]) by (apply text_one, Hc). apply (encode_whole _ _ _ _ _ _ Ht) in He. exact (Encoded_det _ _ _ _ He Hnot).
Qed.

(* what both encoders do with the listed characters, and how many there are *)
Theorem C46_big5_deviations_bytes : forall c k p out, In (c, (k, p)) big5_deviations -> 2 <= length out ->
  whatwg_big5_encode c (big5_code p) /\
  exists buf, encode_from_str Big5WHATWG (utf8 [c]) out true = Ret (Ok (big5_code k, length (utf8 [c])), buf).
Proof. intros c k p out H Ho. destruct (deviation_encoding c k p out H Ho) as (_ & H1 & H2 & _). eauto. Qed.

Example C46_example : length big5_deviations = 57 /\ In (0x8D77, (2354, 7410))%N big5_deviations.
Proof.
  split; [vm_compute; reflexivity|]. apply assoc_In. vm_compute. reflexivity.
Qed.

(* a character the standard cannot encode is encoded exactly if it occurs in the index at all, always below pointer 5024 *)
Theorem C46_big5_additional_characters : forall c out, scalar c -> 2 <= length out -> (forall w, ~ whatwg_big5_encode c w) ->
  match encode_from_str Big5WHATWG (utf8 [c]) out true with
  | Ret (Ok (w, n), _) => n = length (utf8 [c]) /\ exists p, (p < 5024)%N /\ In (p, c) big5_index /\ w = big5_code p
  | Ret (Err er, _) => er = EncodeError c (0, length (utf8 [c])) 0 /\ forall p, ~ In (p, c) big5_index
  | _ => False
  end.
Proof.
  intros c out Hc Ho Hno. assert (Ht : text [c]) by (apply text_one, Hc).
  destruct (encode_total Big5WHATWG true [c] out Ht) as (r & buf & H). rewrite H.
  destruct (encode_cases _ _ _ _ _ _ Ht H) as (pre & bs & rest & E0 & Hs & Hl & -> & Hr).
  destruct pre as [|d pre].
  - cbn [app] in E0. subst rest. assert (bs = []) as -> by exact (Encoded_det _ _ _ _ (esteps_Encoded_pre _ _ _ _ _ Ht Hs) (Encoded_nil _)).
    destruct Hr as [(-> & Hr)|(d & rest' & E & En & Hx & ->)].
    + exfalso. destruct (enc_next Big5WHATWG true [c]) as [| |d|k w] eqn:En.
      * pose proof (enc_next_facts Big5WHATWG true [c]) as F. rewrite En in F. discriminate F.
      * pose proof (enc_next_facts Big5WHATWG true [c]) as F. rewrite En in F. destruct F. discriminate.
      * cbn in Hr. lia.
      * destruct (enc_next_unit _ _ _ _ _ Ht En) as (Hk & Hu & _). cbn [length] in Hk. replace k with 1 in Hu by lia.
        apply big5_one_unit in Hu. cbn [length] in Hr. destruct Hu as [(_ & ->)|(p & _ & ->)]; [cbn in Hr; lia|rewrite big5_code_len in Hr; lia].
    + apply cons_inj in E. destruct E as [<- <-].
      split; [unfold utf8; cbn [flat_map]; rewrite (app_nil_r (utf8_char c)); reflexivity|].
      intros p Hp. destruct (big5_has_pointer c p Hp) as (q & Hq).
      apply (enc_next_bad _ _ _ _ Ht En [c] (big5_code q)); [apply big5_one_unit; eauto|exists []; reflexivity].
  - assert (pre = [] /\ rest = []) as [-> ->].
    { apply cons_inj in E0. destruct E0 as [_ E0]. symmetry in E0. apply app_eq_nil in E0. exact E0. }
    apply cons_inj in E0. destruct E0 as [<- _].
    destruct Hr as [(-> & _)|(d & rest' & E & _)]; [|discriminate E]. split; [reflexivity|].
    apply (esteps_Encoded_pre _ _ _ _ _ Ht) in Hs. apply big5_one_inv, big5_one_unit in Hs.
    destruct Hs as [(Hc8 & ->)|(p & Hp & ->)].
    + exfalso. apply (Hno [c]). left. split; [lia|reflexivity].
    + exists p. split; [|split; [apply Hp|reflexivity]]. destruct (N.lt_ge_cases p 5024) as [L|L]; [exact L|]. exfalso.
      destruct (big5_chosen c p Hp) as (_ & _ & _ & _ & Hc8).
      destruct (N.eq_dec c 0x7F); [lia|]. apply (Hno (big5_code p)). right. split; [lia|]. exists p. split; [|reflexivity].
      destruct Hp as [Hin M]. split; [exact Hin|]. split; [exact L|]. intros q Hq _. exact (M q Hq).
Qed.

Example C46_example_additional : exists buf, encode_from_str Big5WHATWG (utf8 [0x43F0]%N) buf8 true = Ret (Ok ([0x87; 0x40]%N, 3), buf).
Proof. eexists. vm_compute. reflexivity. Qed.

(** * C35: decoding of byte pairs *)

Lemma decode_at e ie pre cs rest out : Decoded e pre cs -> bytes rest -> length (utf8 cs) <= length out ->
  match dec_next e ie rest with
  | DBad n => length (utf8 cs) + 1 <= length out ->
      decode_to_str e (pre ++ rest) out ie =
      Ret (Err (DecodeError InvalidData (length pre, length pre + n) (length (utf8 cs))), frame (utf8 cs) out)
  | DUnit k u => length (utf8 cs) + length (utf8 u) <= length out ->
      exists r buf, decode_to_str e (pre ++ rest) out ie = Ret (r, buf) /\
        firstn (length (utf8 (cs ++ u))) buf = utf8 (cs ++ u) /\
        length pre + k <= match r with Ok (_, n) => n | Err er => fst (de_range er) end
  | _ => True
  end.
Proof.
  intros HD Hb Hl. destruct (Decoded_text _ _ _ HD) as [_ Hbp].
  assert (Hbb : bytes (pre ++ rest)) by (apply Forall_app; auto).
  pose proof (Decoded_dsteps e ie pre cs rest HD) as Hs. destruct (dec_next e ie rest) as [| |n|k u] eqn:En; [exact I|exact I| |].
  - intros Hroom. apply (decode_err_from_steps e ie _ pre cs rest n out Hbb Hs En). destruct e; cbn [decode_room]; lia.
  - intros Hroom. destruct (decode_total e ie (pre ++ rest) out Hbb) as (r & buf & H). exists r, buf. split; [exact H|].
    destruct (decode_cases _ _ _ _ _ _ Hbb H) as (p & c & rest' & E0 & Hs' & Hl' & -> & Hc).
    assert (Hs2 : dsteps (dec_next e ie) (pre ++ rest) (pre ++ firstn k rest) (cs ++ u) (skipn k rest)).
    { eapply dsteps_app; [exact Hs|]. rewrite <- (app_nil_r (firstn k rest)), <- (app_nil_r u).
      econstructor; [exact En|constructor]. }
    assert (X : exists q d, p = (pre ++ firstn k rest) ++ q /\ c = (cs ++ u) ++ d).
    { destruct (dsteps_linear _ _ _ _ _ _ _ _ Hs2 Hs') as [(q & d & _ & -> & ->)|(q & d & Hq & Ep & Ed)]; [eauto|].
      inversion Hq as [|? k' u' q' d' ? En' Hq' Ek Eu Er].
      - exists [], []. rewrite !app_nil_r in *. subst. rewrite !app_nil_r in *. split; congruence.
      - exfalso. rewrite En' in Hc. destruct Hc as [(_ & Hc)|(? & ? & _)]; [|discriminate].
        subst d. apply (f_equal (fun l => length (utf8 l))) in Ed. rewrite !utf8_app, !app_length in Ed. lia. }
    destruct X as (q & d & -> & ->).
    destruct (dec_next_unit e rest k u ie Hb En) as (Hk & _).
    split.
    + rewrite (utf8_app (cs ++ u) d). unfold frame. rewrite <- app_assoc. apply firstn_len_app.
    + assert (L : length ((pre ++ firstn k rest) ++ q) = length pre + k + length q) by (rewrite !app_length, firstn_length; lia).
      destruct Hc as [(-> & _)|(m & _ & _ & ->)]; cbn [de_range fst]; lia.
Qed.

(* In any position of any byte string: behind valid data pre (meaning cs), a lead byte b1 and any byte b2.
   [big5_pair] looks the pair up in the standard's index; without an entry the pair is an error, which spans both bytes
   unless the second one is ASCII.  The buffer only needs room for what is described. *)
Theorem C35_big5_pairs_follow_the_index : forall is_end pre cs b1 b2 post out, Decoded Big5WHATWG pre cs ->
  (0x81 <= b1 <= 0xFE)%N -> bytes (b2 :: post) ->
  match big5_pair b1 b2 with
  | Some u => length (utf8 (cs ++ u)) <= length out ->
      exists r buf, decode_to_str Big5WHATWG (pre ++ b1 :: b2 :: post) out is_end = Ret (r, buf) /\
        firstn (length (utf8 (cs ++ u))) buf = utf8 (cs ++ u) /\
        length pre + 2 <= match r with Ok (_, n) => n | Err er => fst (de_range er) end
  | None => length (utf8 cs) + 1 <= length out ->
      exists buf, decode_to_str Big5WHATWG (pre ++ b1 :: b2 :: post) out is_end =
        Ret (Err (DecodeError InvalidData (length pre, length pre + if (b2 <? 0x80)%N then 1 else 2) (length (utf8 cs))), buf)
  end.
Proof.
  intros ie pre cs b1 b2 post out HD Hb1 Hb. pose proof (decode_at Big5WHATWG ie pre cs (b1 :: b2 :: post) out HD) as X.
  assert (Hbb : bytes (b1 :: b2 :: post)) by (constructor; [lia|exact Hb]). specialize (X Hbb).
  rewrite (big5_pair_next ie b1 b2 post Hb1) in X by exact (Forall_inv Hb). destruct (big5_pair b1 b2) as [u|].
  - rewrite utf8_app, app_length. intros Hl. rewrite <- app_length, <- utf8_app. apply X; lia.
  - intros Hl. eexists. rewrite X by lia. replace (b2 <=? 127)%N with (b2 <? 0x80)%N by lia. reflexivity.
Qed.

(* the same for Shift JIS; [sjis_pair] includes the private use range *)
Theorem C35_shift_jis_pairs_follow_the_index : forall is_end pre cs b1 b2 post out, Decoded ShiftJISWHATWG pre cs ->
  (0x81 <= b1 <= 0x9F \/ 0xE0 <= b1 <= 0xFC)%N -> bytes (b2 :: post) ->
  match sjis_pair b1 b2 with
  | Some c => length (utf8 (cs ++ [c])) <= length out ->
      exists r buf, decode_to_str ShiftJISWHATWG (pre ++ b1 :: b2 :: post) out is_end = Ret (r, buf) /\
        firstn (length (utf8 (cs ++ [c]))) buf = utf8 (cs ++ [c]) /\
        length pre + 2 <= match r with Ok (_, n) => n | Err er => fst (de_range er) end
  | None => length (utf8 cs) + 1 <= length out ->
      exists buf, decode_to_str ShiftJISWHATWG (pre ++ b1 :: b2 :: post) out is_end =
        Ret (Err (DecodeError InvalidData (length pre, length pre + if (b2 <? 0x80)%N then 1 else 2) (length (utf8 cs))), buf)
  end.
Proof.
  intros ie pre cs b1 b2 post out HD Hb1 Hb. pose proof (decode_at ShiftJISWHATWG ie pre cs (b1 :: b2 :: post) out HD) as X.
  assert (Hbb : bytes (b1 :: b2 :: post)) by (constructor; [lia|exact Hb]). specialize (X Hbb).
  rewrite (sjis_pair_next ie b1 b2 post Hb1) in X by exact (Forall_inv Hb). destruct (sjis_pair b1 b2) as [c|].
  - rewrite utf8_app, app_length. intros Hl. rewrite <- app_length, <- utf8_app. apply X; lia.
  - intros Hl. eexists. rewrite X by lia. replace (b2 <=? 127)%N with (b2 <? 0x80)%N by lia. reflexivity.
Qed.

Example C35_example : big5_pair 0x88 0x62 = Some [0xCA; 0x304]%N /\ big5_pair 0xA4 0x51 = Some [0x5341]%N /\ big5_pair 0x81 0x41 = None /\
  sjis_pair 0xF0 0x40 = Some 0xE000%N /\ sjis_pair 0x88 0x9F = Some 0x4E9C%N /\ sjis_pair 0x85 0x40 = None.
Proof. split; [|split; [|split; [|split; [|split]]]]; vm_compute; reflexivity. Qed.

Example C35_example_calls : exists buf buf', decode_to_str Big5WHATWG [0x41; 0x88; 0x62; 0x42]%N buf8 false = Ret (Ok (utf8 [0x41; 0xCA; 0x304; 0x42]%N, 4), buf) /\
  decode_to_str ShiftJISWHATWG [0xB1; 0x85; 0x40; 0x42]%N buf8 false = Ret (Err (DecodeError InvalidData (1, 2) 3), buf').
Proof. do 2 eexists. split; vm_compute; reflexivity. Qed.

Definition whatwg_theorems :=
  (C25_recovery_is_replacement_decoding, C25_recovery_terminates, C25_recovery_loop,
   C34_shift_jis_encodes_as_whatwg, C34_shift_jis_rejects_the_rest, C34_eudc_is_additional,
   C33_big5_encodes_as_whatwg_partial, C33_big5_encodes_as_whatwg_refuted,
   C46_big5_deviations_exact, C46_big5_deviations_bytes, C46_big5_additional_characters,
   C35_big5_pairs_follow_the_index, C35_shift_jis_pairs_follow_the_index).
Print Assumptions whatwg_theorems.
