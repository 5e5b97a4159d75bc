(* Round trips, injectivity, ASCII, sizes. *)
From Coq Require Import List NArith Arith Bool Lia.
From Verif Require Import Encodings Spec SpecErrors Prelude RustCore Types ModelApi ProofApi ProofMore ProofRound PropCalls.
From Verif Require Import Tac Greedy NextDec Units ProofUtf8 Decide.
Import ListNotations.
Local Open Scope nat_scope.

(* a call that consumed everything *)
Lemma encode_whole e ie cs out s buf : text cs -> encode_from_str e (utf8 cs) out ie = Ret (Ok (s, length (utf8 cs)), buf) -> Encoded e cs s.
Proof.
  intros Ht H. destruct (encode_ok_exact _ _ _ _ _ _ _ Ht H) as (a & b & E & En & HE & _).
  rewrite E, utf8_app, app_length in En. assert (b = []) by (apply utf8_length_nil; lia). subst b. rewrite app_nil_r in E. subst. exact HE.
Qed.

Lemma decode_whole e ie bs out s buf : bytes bs -> decode_to_str e bs out ie = Ret (Ok (s, length bs), buf) ->
  exists cs, Decoded e bs cs /\ s = utf8 cs.
Proof.
  intros Hb H. destruct (decode_ok_exact _ _ _ _ _ _ _ Hb H) as (_ & cs & HD & ->). rewrite firstn_all in HD. eauto.
Qed.

Lemma Decoded_inv e bs cs : Decoded e bs cs ->
  (bs = [] /\ cs = []) \/ exists w u bs' cs', bs = w ++ bs' /\ cs = u ++ cs' /\ DecUnit e w u /\ Decoded e bs' cs'.
Proof. destruct 1; [auto|]. right. eauto 9. Qed.

Lemma Encoded_inv e cs bs : Encoded e cs bs ->
  (bs = [] /\ cs = []) \/ exists u w cs' bs', cs = u ++ cs' /\ bs = w ++ bs' /\ EncUnit e u w /\ Encoded e cs' bs'.
Proof. destruct 1; [auto|]. right. eauto 9. Qed.

(** * C16, C17: the UTF encodings *)

Theorem C16_utf_round_trip_from_text : forall e is_end cs out s buf, is_utf e -> text cs ->
  encode_from_str e (utf8 cs) out is_end = Ret (Ok (s, length (utf8 cs)), buf) ->
  forall is_end' out', length (utf8 cs) <= length out' ->
    exists buf', decode_to_str e s out' is_end' = Ret (Ok (utf8 cs, length s), buf').
Proof.
  intros e ie cs out s buf He Ht H ie' out' Hl. eexists. apply decode_enough; [|exact Hl].
  apply Encoded_Decoded; [apply utf_not_sjis, He|]. eapply encode_whole; eassumption.
Qed.

Example C16_example : exists buf buf', encode_from_str Utf16BE (utf8 [0x41; 0x1F600]%N) buf8 true = Ret (Ok ([0; 0x41; 0xD8; 0x3D; 0xDE; 0]%N, 5), buf) /\
  decode_to_str Utf16BE [0; 0x41; 0xD8; 0x3D; 0xDE; 0]%N buf8 true = Ret (Ok (utf8 [0x41; 0x1F600]%N, 6), buf').
Proof. do 2 eexists. split; vm_compute; reflexivity. Qed.

Theorem C17_utf_round_trip_from_bytes : forall e is_end bs out s buf, is_utf e -> bytes bs ->
  decode_to_str e bs out is_end = Ret (Ok (s, length bs), buf) ->
  forall is_end' out', length bs <= length out' ->
    exists buf', encode_from_str e s out' is_end' = Ret (Ok (bs, length s), buf').
Proof.
  intros e ie bs out s buf He Hb H ie' out' Hl. destruct (decode_whole _ _ _ _ _ _ Hb H) as (cs & HD & ->).
  rewrite (utf_enc_flag e _ _ He). eexists. apply encode_enough; [|exact Hl]. apply Decoded_Encoded_utf; assumption.
Qed.

Example C17_example : exists buf buf', decode_to_str Utf32LE [0; 0xF6; 1; 0]%N buf8 true = Ret (Ok (utf8 [0x1F600]%N, 4), buf) /\
  encode_from_str Utf32LE (utf8 [0x1F600]%N) buf8 true = Ret (Ok ([0; 0xF6; 1; 0]%N, 4), buf').
Proof. do 2 eexists. split; vm_compute; reflexivity. Qed.

(** * C18: single-byte encodings *)

(* [charset m] is the list of pairs of the mapping file *)
Theorem C18_byte_decodes_as_listed : forall m is_end b c out, (b < 256)%N -> 3 <= length out ->
  (exists buf, decode_to_str (Single m) [b] out is_end = Ret (Ok (utf8 [c], 1), buf)) /\ scalar c <-> In (b, c) (charset m).
Proof.
  intros m ie b c out Hb Hl. assert (Hbs : bytes [b]) by (repeat constructor; exact Hb). split.
  - intros [(buf & H) Hc]. destruct (decode_whole _ _ [b] _ _ _ Hbs H) as (cs & HD & E).
    apply utf8_inj in E; [|apply text_one, Hc|eapply Decoded_text, HD]. subst cs.
    destruct (Decoded_inv _ _ _ HD) as [[X _]|(w & u & bs' & cs' & E1 & E2 & (b' & c' & Hin & -> & ->) & _)]; [discriminate X|]. apply cons_inj in E1. destruct E1 as [-> _]. apply cons_inj in E2. destruct E2 as [-> _]. exact Hin.
  - intros H. split; [|eapply charset_byte, H].
    assert (HD : Decoded (Single m) [b] [c]) by (apply (Decoded_unit (Single m) [b] [c] [] []); [exists b, c; auto|constructor]).
    eexists. apply (decode_enough (Single m) ie [b] [c]); [exact HD|]. apply Decoded_size in HD. cbn [length] in *. lia.
Qed.

Theorem C18_char_encodes_as_listed : forall m is_end b c out, scalar c -> 1 <= length out ->
  (exists buf, encode_from_str (Single m) (utf8 [c]) out is_end = Ret (Ok ([b], length (utf8 [c])), buf)) <-> In (b, c) (charset m).
Proof.
  intros m ie b c out Hc Hl. assert (Ht : text [c]) by (apply text_one, Hc). split.
  - intros (buf & H). apply encode_whole in H; [|exact Ht].
    destruct (Encoded_inv _ _ _ H) as [[X _]|(u & w & cs' & bs' & E1 & E2 & (b' & c' & Hin & -> & ->) & _)]; [discriminate X|]. apply cons_inj in E1. destruct E1 as [-> _]. apply cons_inj in E2. destruct E2 as [-> _]. exact Hin.
  - intros H. assert (HE : Encoded (Single m) [c] [b]).
    { apply (Encoded_unit (Single m) [c] [b] [] []); [exists b, c; auto|eapply longest_single; [discriminate|reflexivity]|constructor]. }
    assert (E : encode_from_str (Single m) (utf8 [c]) out ie = encode_from_str (Single m) (utf8 [c]) out true) by reflexivity.
    rewrite E. eexists. apply encode_enough; [exact HE|]. cbn. lia.
Qed.

Theorem C18_round_trip_from_text : forall m is_end cs out s buf, text cs ->
  encode_from_str (Single m) (utf8 cs) out is_end = Ret (Ok (s, length (utf8 cs)), buf) ->
  length s = length cs /\
  forall is_end' out', length (utf8 cs) <= length out' ->
    exists buf', decode_to_str (Single m) s out' is_end' = Ret (Ok (utf8 cs, length s), buf').
Proof.
  intros m ie cs out s buf Ht H. apply encode_whole in H; [|exact Ht]. split.
  - clear Ht. induction H as [|u w cs bs (b & c & _ & -> & ->) Hl HE IH]; [reflexivity|]. rewrite !app_length, IH. reflexivity.
  - intros ie' out' Hl. eexists. apply decode_enough; [|exact Hl]. apply Encoded_Decoded; [discriminate|exact H].
Qed.

Theorem C18_round_trip_from_bytes : forall m is_end bs out s buf, bytes bs ->
  decode_to_str (Single m) bs out is_end = Ret (Ok (s, length bs), buf) ->
  forall is_end' out', length bs <= length out' ->
    exists buf', encode_from_str (Single m) s out' is_end' = Ret (Ok (bs, length s), buf').
Proof.
  intros m ie bs out s buf Hb H ie' out' Hl. destruct (decode_whole _ _ _ _ _ _ Hb H) as (cs & HD & ->).
  assert (E : encode_from_str (Single m) (utf8 cs) out' ie' = encode_from_str (Single m) (utf8 cs) out' true) by reflexivity.
  rewrite E. eexists. apply encode_enough; [|exact Hl]. apply Decoded_Encoded_single, HD.
Qed.

Example C18_example : In (0x80, 0x20AC)%N (charset windows_1252) /\ (forall c, ~ In (0x81, c)%N (charset windows_1252)) /\
  (exists buf, decode_to_str (Single windows_1252) [0x80; 0x41]%N buf8 true = Ret (Ok (utf8 [0x20AC; 0x41]%N, 2), buf)) /\
  (exists buf, encode_from_str (Single windows_1252) (utf8 [0x20AC; 0x41]%N) buf8 true = Ret (Ok ([0x80; 0x41]%N, 4), buf)) /\
  (exists buf, decode_to_str (Single windows_1252) [0x81]%N buf8 true = Ret (Err (DecodeError InvalidData (0, 1) 0), buf)).
Proof.
  split; [apply (C18_byte_decodes_as_listed windows_1252 true _ _ buf8); [lia|cbn; lia|split; [eexists; vm_compute; reflexivity|unfold scalar; lia]]|].
  split; [|split; [|split]; eexists; vm_compute; reflexivity].
  intros c H. apply (C18_byte_decodes_as_listed windows_1252 true _ _ buf8) in H; [|lia|cbn; lia]. destruct H as [(buf & H) _]. vm_compute in H. discriminate H.
Qed.

(** * C19: Big5 *)

Theorem C19_big5_lossless : forall is_end cs out s buf, text cs ->
  encode_from_str Big5WHATWG (utf8 cs) out is_end = Ret (Ok (s, length (utf8 cs)), buf) ->
  forall is_end' out', length (utf8 cs) <= length out' ->
    exists buf', decode_to_str Big5WHATWG s out' is_end' = Ret (Ok (utf8 cs, length s), buf').
Proof.
  intros ie cs out s buf Ht H ie' out' Hl. eexists. apply decode_enough; [|exact Hl].
  apply Encoded_Decoded; [discriminate|]. eapply encode_whole; eassumption.
Qed.

Example C19_example : exists buf buf', encode_from_str Big5WHATWG (utf8 [0xCA; 0x304; 0x5341]%N) buf8 true = Ret (Ok ([0x88; 0x62; 0xA4; 0x51]%N, 7), buf) /\
  decode_to_str Big5WHATWG [0x88; 0x62; 0xA4; 0x51]%N buf8 true = Ret (Ok (utf8 [0xCA; 0x304; 0x5341]%N, 4), buf').
Proof. do 2 eexists. split; vm_compute; reflexivity. Qed.

(** * C20: Shift JIS *)

(* the exact effect of encoding and decoding; [sjis_fold] maps U+00A5, U+203E, U+2212 to U+005C, U+007E, U+FF0D *)
Theorem C45_shift_jis_round_trip_exact : forall is_end cs out s buf, text cs ->
  encode_from_str ShiftJISWHATWG (utf8 cs) out is_end = Ret (Ok (s, length (utf8 cs)), buf) ->
  forall is_end' out', length (utf8 (map sjis_fold cs)) <= length out' ->
    exists buf', decode_to_str ShiftJISWHATWG s out' is_end' = Ret (Ok (utf8 (map sjis_fold cs), length s), buf').
Proof.
  intros ie cs out s buf Ht H ie' out' Hl. eexists. apply decode_enough; [|exact Hl].
  apply sjis_Encoded_Decoded. eapply encode_whole; eassumption.
Qed.

(* lossless on text without these three characters *)
Theorem C20_shift_jis_lossless_partial : forall is_end cs out s buf, text cs ->
  ~ In 0xA5%N cs -> ~ In 0x203E%N cs -> ~ In 0x2212%N cs ->
  encode_from_str ShiftJISWHATWG (utf8 cs) out is_end = Ret (Ok (s, length (utf8 cs)), buf) ->
  forall is_end' out', length (utf8 cs) <= length out' ->
    exists buf', decode_to_str ShiftJISWHATWG s out' is_end' = Ret (Ok (utf8 cs, length s), buf').
Proof.
  intros ie cs out s buf Ht H1 H2 H3 H ie' out' Hl.
  assert (E : map sjis_fold cs = cs).
  { clear -H1 H2 H3. induction cs as [|c cs IH]; [reflexivity|]. cbn [map In] in *.
    rewrite IH by tauto. rewrite sjis_fold_id; [reflexivity| | |]; intros ->; tauto. }
  pose proof (C45_shift_jis_round_trip_exact ie cs out s buf Ht H ie' out') as X. rewrite E in X. apply X, Hl.
Qed.

Theorem C20_shift_jis_lossless_refuted : exists cs out s buf out' s' buf', text cs /\
  encode_from_str ShiftJISWHATWG (utf8 cs) out true = Ret (Ok (s, length (utf8 cs)), buf) /\
  decode_to_str ShiftJISWHATWG s out' true = Ret (Ok (s', length s), buf') /\ s' <> utf8 cs.
Proof.
  exists [0xA5%N], buf8, [0x5C%N]. eexists. exists buf8, [0x5C%N]. eexists.
  split; [repeat constructor; unfold scalar; lia|]. split; [vm_compute; reflexivity|]. split; [vm_compute; reflexivity|]. vm_compute. discriminate.
Qed.

Example C45_example : exists buf buf', encode_from_str ShiftJISWHATWG (utf8 [0x4E9C; 0x2212]%N) buf8 true = Ret (Ok ([0x88; 0x9F; 0x81; 0x7C]%N, 6), buf) /\
  decode_to_str ShiftJISWHATWG [0x88; 0x9F; 0x81; 0x7C]%N buf8 true = Ret (Ok (utf8 [0x4E9C; 0xFF0D]%N, 4), buf').
Proof. do 2 eexists. split; vm_compute; reflexivity. Qed.

(** * C21: decoded text is stable *)

Theorem C21_decoded_text_is_stable : forall e is_end bs out s buf, e = Big5WHATWG \/ e = ShiftJISWHATWG -> bytes bs ->
  decode_to_str e bs out is_end = Ret (Ok (s, length bs), buf) ->
  exists bs', length bs' <= length s /\
    (forall out', length bs' <= length out' -> exists buf', encode_from_str e s out' true = Ret (Ok (bs', length s), buf')) /\
    (forall is_end' out', length s <= length out' -> exists buf', decode_to_str e bs' out' is_end' = Ret (Ok (s, length bs'), buf')).
Proof.
  intros e ie bs out s buf He Hb H. destruct (decode_whole _ _ _ _ _ _ Hb H) as (cs & HD & ->).
  assert (X : exists bs', Encoded e cs bs' /\ Decoded e bs' cs) by (destruct He as [->| ->]; [eapply big5_stable|eapply sjis_stable]; exact HD).
  destruct X as (bs' & HE & HD'). exists bs'. split; [|split].
  - apply Encoded_factor in HE. destruct He as [->| ->]; cbn [encode_factor] in HE; lia.
  - intros out' Hl. eexists. apply encode_enough; assumption.
  - intros ie' out' Hl. eexists. apply decode_enough; assumption.
Qed.

(* different bytes: the pair A2 CC also stands for U+5341 *)
Example C21_example : exists buf buf' buf'', decode_to_str Big5WHATWG [0xA2; 0xCC]%N buf8 true = Ret (Ok (utf8 [0x5341]%N, 2), buf) /\
  encode_from_str Big5WHATWG (utf8 [0x5341]%N) buf8 true = Ret (Ok ([0xA4; 0x51]%N, 3), buf') /\
  decode_to_str Big5WHATWG [0xA4; 0x51]%N buf8 true = Ret (Ok (utf8 [0x5341]%N, 2), buf'').
Proof. do 3 eexists. split; [|split]; vm_compute; reflexivity. Qed.

(** * C26: UTF-8 error ranges *)

(* no character starts inside the reported range, unless the data ends within a code sequence *)
Theorem C26_utf8_error_covers_no_valid_text_partial : forall is_end bs out er buf, bytes bs ->
  decode_to_str Utf8 bs out is_end = Ret (Err er, buf) ->
  let (a, b) := de_range er in
  (is_end = false \/ forall x, nth_error bs a = Some x -> announced x <= length bs - a) ->
  forall i, a <= i < b -> Undecodable Utf8 (skipn i bs).
Proof.
  intros ie bs out er buf Hb H. pose proof (decode_err_exact Utf8 ie bs out er buf Hb H) as X. destruct (de_range er) as [a b].
  destruct X as (Hab & _ & Hun & (HL & HE1 & HE2) & Hinc & _). intros Hcond i Hi.
  assert (HI : ~ Incomplete Utf8 (skipn a bs)).
  { destruct Hcond as [->|Hc]; [apply Hinc; reflexivity|]. intros (x & r & E & Hlt).
    specialize (Hc x). rewrite (nth_skipn bs a a), Nat.sub_diag, E in Hc by lia. specialize (Hc eq_refl).
    rewrite skipn_length in Hlt. lia. }
  destruct (Nat.eq_dec i a) as [->|Hne]; [exact Hun|].
  destruct (HE2 HI) as [Hin _]. intros w u (c & Hc & -> & ->) [r Hr].
  destruct (utf8_char_head c Hc) as (y & t & Ey & Hy & _). rewrite Ey in Hr.
  assert (Hn : nth_error bs i = Some y) by (rewrite (nth_skipn bs i i), Nat.sub_diag, Hr by lia; reflexivity).
  assert (Hns : not_a_start y).
  { apply (Hin (i - a) y); [lia|]. rewrite <- nth_skipn by lia. exact Hn. }
  assert (Hyb : (y < 0xF8)%N).
  { clear -Ey Hc. unfold utf8_char in Ey. unfold scalar in Hc.
    destruct (N.ltb_spec c 0x80); [injection Ey as <- _; lia|]. destruct (N.ltb_spec c 0x800); [apply cons_inj in Ey; destruct Ey as [<- _]; assert (c / 64 < 32)%N by (apply N.div_lt_upper_bound; lia); lia|].
    destruct (N.ltb_spec c 0x10000); [apply cons_inj in Ey; destruct Ey as [<- _]; assert (c / 4096 < 16)%N by (apply N.div_lt_upper_bound; lia); lia|].
    apply cons_inj in Ey. destruct Ey as [<- _]. assert (c / 262144 < 8)%N by (apply N.div_lt_upper_bound; lia). lia. }
  unfold not_a_start in Hns. lia.
Qed.

(* skipping the reported range can lose a valid character *)
Theorem C26_utf8_error_covers_no_valid_text_refuted : exists bs out er buf i w u,
  bytes bs /\ decode_to_str Utf8 bs out true = Ret (Err er, buf) /\ fst (de_range er) <= i < snd (de_range er) /\
  DecUnit Utf8 w u /\ prefix w (skipn i bs).
Proof.
  exists [0xE3; 0x41]%N, buf8, (DecodeError InvalidData (0, 2) 0), buf8, 1, [0x41%N], [0x41%N].
  split; [repeat constructor; lia|]. split; [vm_compute; reflexivity|]. split; [cbn; lia|].
  split; [exists 0x41%N; repeat split; left; lia|]. exists []. reflexivity.
Qed.

(** * C27: ASCII *)

(* [ascii_compatible]: utf8, big5, shift_jis and the single-byte encodings *)
Theorem C27_ascii_transparent : forall e is_end cs out, ascii_compatible e -> Forall (fun c => (c < 0x80)%N) cs -> length cs <= length out ->
  (exists buf, encode_from_str e cs out true = Ret (Ok (cs, length cs), buf)) /\
  (exists buf, decode_to_str e cs out is_end = Ret (Ok (cs, length cs), buf)).
Proof.
  intros e ie cs out He Hc Hl. pose proof (ProofRound.utf8_ascii cs Hc) as E. split.
  - pose proof (encode_enough e cs out cs (ascii_Encoded e cs He Hc) Hl) as X. rewrite E in X. eauto.
  - pose proof (decode_enough e ie cs cs out (ascii_Decoded e cs He Hc)) as X. rewrite E in X. specialize (X Hl). eauto.
Qed.

Example C27_example : exists buf, decode_to_str (Single iso_8859_6) [0x00; 0x41; 0x7F]%N buf8 true = Ret (Ok ([0x00; 0x41; 0x7F]%N, 3), buf).
Proof. eexists. vm_compute. reflexivity. Qed.

(** * C28: Latin-1 *)

Theorem C28_latin1_decode : forall is_end bs out, bytes bs -> 2 * length bs <= length out ->
  exists buf, decode_to_str (Single iso_8859_1) bs out is_end = Ret (Ok (utf8 bs, length bs), buf).
Proof.
  intros ie bs out Hb Hl. eexists. apply decode_enough; [apply latin1_Decoded, Hb|].
  assert (length (utf8 bs) <= 2 * length bs); [|lia]. clear Hl. induction Hb as [|b bs Hx Hb IH]; [cbn; lia|].
  rewrite utf8_cons, app_length. cbn [length]. assert (length (utf8_char b) <= 2); [|lia].
  unfold utf8_char. destruct (b <? 0x80)%N; [cbn; lia|]. assert (E : (b <? 0x800)%N = true) by (apply N.ltb_lt; lia). rewrite E. cbn. lia.
Qed.

Theorem C28_latin1_encode : forall cs out, text cs -> 4 * length cs + 2 <= length out ->
  (Forall (fun c => (c < 256)%N) cs <-> exists buf, encode_from_str (Single iso_8859_1) (utf8 cs) out true = Ret (Ok (cs, length (utf8 cs)), buf)) /\
  (Exists (fun c => (256 <= c)%N) cs <-> exists er buf, encode_from_str (Single iso_8859_1) (utf8 cs) out true = Ret (Err er, buf)).
Proof.
  intros cs out Ht Hl.
  assert (Hlen : forall s, Encoded (Single iso_8859_1) cs s -> length s <= length out).
  { intros s HE. apply Encoded_size in HE. lia. }
  split; split.
  - intros H. eexists. apply encode_enough; [apply latin1_Encoded; auto|lia].
  - intros (buf & H). apply encode_whole in H; [|exact Ht]. apply latin1_Encoded in H. apply H.
  - intros H. apply encode_err_iff; [exact Ht|exact Hl|]. intros (s & HE). apply latin1_Encoded in HE. destruct HE as [_ HE].
    clear -H HE. rewrite Exists_exists in H. rewrite Forall_forall in HE. destruct H as (c & Hc & Hge). specialize (HE c Hc). lia.
  - intros H. apply encode_err_iff in H; [|exact Ht|exact Hl].
    destruct (Exists_dec (fun c => (256 <= c)%N) cs) as [|Hn]; [intros c; destruct (N.leb_spec0 256 c); [left|right]; assumption|assumption|].
    exfalso. apply H. exists cs. apply latin1_Encoded. split; [reflexivity|]. apply Forall_forall. intros c Hc.
    destruct (N.lt_ge_cases c 256); [assumption|]. exfalso. apply Hn. apply Exists_exists. eauto.
Qed.

Example C28_example : exists buf, decode_to_str (Single iso_8859_1) [0x41; 0x80; 0xFF]%N buf8 false = Ret (Ok (utf8 [0x41; 0x80; 0xFF]%N, 3), buf).
Proof. eexists. vm_compute. reflexivity. Qed.

(** * C37: errors never swallow ASCII *)

Theorem C37_error_ranges_contain_no_ascii : forall e is_end bs out er buf i x,
  e = Big5WHATWG \/ e = ShiftJISWHATWG \/ (exists m, e = Single m) -> bytes bs ->
  decode_to_str e bs out is_end = Ret (Err er, buf) ->
  fst (de_range er) <= i < snd (de_range er) -> nth_error bs i = Some x -> (0x80 <= x)%N.
Proof.
  intros e ie bs out er buf i x He Hb H Hi Hx. pose proof (decode_err_exact e ie bs out er buf Hb H) as X.
  destruct (de_range er) as [a b]. cbn [fst snd] in Hi. destruct X as (Hab & _ & Hun & (HL & HE) & _).
  rewrite (nth_skipn bs a i) in Hx by lia.
  assert (Ha : ascii_compatible e) by (destruct He as [->|[->|[m ->]]]; exact I).
  destruct (skipn a bs) as [|b1 r] eqn:Es; [destruct (i - a); discriminate Hx|].
  pose proof (undecodable_not_ascii e b1 r Ha Hun) as H1.
  destruct (i - a) as [|j] eqn:Ej; [injection Hx as <-; exact H1|].
  assert (Hn : 2 <= b - a) by lia.
  destruct He as [->|[->|[m ->]]]; [| |lia].
  - destruct HE as [(En & y1 & y2 & r' & E & _ & Hy)|(En & _)]; [|lia]. apply cons_inj in E. destruct E as [_ ->].
    assert (j = 0) by lia. subst j. injection Hx as <-. exact Hy.
  - destruct HE as [(En & y1 & y2 & r' & E & _ & Hy)|(En & _)]; [|lia]. apply cons_inj in E. destruct E as [_ ->].
    assert (j = 0) by lia. subst j. injection Hx as <-. exact Hy.
Qed.

Example C37_example : exists buf, decode_to_str Big5WHATWG [0xA4; 0x3C; 0x62; 0x3E]%N buf8 true = Ret (Err (DecodeError InvalidData (0, 1) 0), buf).
Proof. eexists. vm_compute. reflexivity. Qed.

(** * C40: injectivity *)

Theorem C40_encoding_is_injective : forall e ie ie' cs cs' out out' s buf buf', e <> ShiftJISWHATWG -> text cs -> text cs' ->
  encode_from_str e (utf8 cs) out ie = Ret (Ok (s, length (utf8 cs)), buf) ->
  encode_from_str e (utf8 cs') out' ie' = Ret (Ok (s, length (utf8 cs')), buf') -> cs = cs'.
Proof.
  intros e ie ie' cs cs' out out' s buf buf' He Ht Ht' H H'. eapply Encoded_injective; [exact He| |]; eapply encode_whole; eassumption.
Qed.

(* not so for Shift JIS *)
Theorem C40_shift_jis_injective_refuted : exists cs cs' s buf buf', text cs /\ text cs' /\ cs <> cs' /\
  encode_from_str ShiftJISWHATWG (utf8 cs) buf8 true = Ret (Ok (s, length (utf8 cs)), buf) /\
  encode_from_str ShiftJISWHATWG (utf8 cs') buf8 true = Ret (Ok (s, length (utf8 cs')), buf').
Proof.
  exists [0x203E%N], [0x7E%N], [0x7E%N]. do 2 eexists. split; [repeat constructor; unfold scalar; lia|]. split; [repeat constructor; unfold scalar; lia|].
  split; [discriminate|]. split; vm_compute; reflexivity.
Qed.

Example C40_example : exists buf buf', encode_from_str Big5WHATWG (utf8 [0xCA; 0x304]%N) buf8 true = Ret (Ok ([0x88; 0x62]%N, 4), buf) /\
  encode_from_str Big5WHATWG (utf8 [0xCA]%N) buf8 true = Ret (Ok ([0x88; 0x66]%N, 2), buf').
Proof. do 2 eexists. split; vm_compute; reflexivity. Qed.

(** * C41: UTF-8 copies *)

Theorem C41_utf8_encode_copies : forall is_end cs out s n buf, text cs ->
  encode_from_str Utf8 (utf8 cs) out is_end = Ret (Ok (s, n), buf) ->
  s = firstn n (utf8 cs) /\ n = length s /\
  (n = length (utf8 cs) \/ exists pre c post, cs = pre ++ c :: post /\ n = length (utf8 pre) /\ length out < length (utf8 (pre ++ [c]))).
Proof. exact utf8_encode_copy. Qed.

Theorem C41_utf8_decode_copies : forall is_end bs out r buf, bytes bs -> decode_to_str Utf8 bs out is_end = Ret (r, buf) ->
  let n := match r with Ok (_, n) => n | Err er => fst (de_range er) end in
  let s := match r with Ok (s, _) => s | Err er => firstn (de_written er) buf end in
  n <= length bs /\ n <= length out /\ s = firstn n bs /\ well_formed_utf8 s /\
  forall m, m <= length bs -> m <= length out -> well_formed_utf8 (firstn m bs) -> m <= n.
Proof. exact utf8_decode_copy. Qed.

Example C41_example : exists buf, decode_to_str Utf8 [0x41; 0xE4; 0xB8; 0x80]%N (firstn 3 buf8) true = Ret (Ok ([0x41]%N, 1), buf).
Proof. eexists. vm_compute. reflexivity. Qed.

(** * C43: sizes *)

(* [encode_factor e] is 1 for utf8, single-byte, Big5 and Shift JIS, 2 for UTF-16, 4 for UTF-32 *)
Theorem C43_encode_buffer_enough : forall e cs out, text cs -> (exists s, Encoded e cs s) ->
  encode_factor e * length (utf8 cs) <= length out ->
  exists s buf, encode_from_str e (utf8 cs) out true = Ret (Ok (s, length (utf8 cs)), buf).
Proof.
  intros e cs out Ht [s HE] Hl. exists s. eexists. apply encode_enough; [exact HE|]. apply Encoded_factor in HE. lia.
Qed.

(* [decode_factor2 e] is twice the factor: 2 for UTF-8 and UTF-32, 3 for UTF-16, 4 for Big5, 6 for Shift JIS and single-byte *)
Theorem C43_decode_buffer_enough : forall e is_end bs cs out, Decoded e bs cs -> decode_factor2 e * length bs <= 2 * length out ->
  exists buf, decode_to_str e bs out is_end = Ret (Ok (utf8 cs, length bs), buf).
Proof.
  intros e ie bs cs out HD Hl. eexists. apply decode_enough; [exact HD|]. apply Decoded_factor in HD. lia.
Qed.

(* the factors cannot be lowered *)
Theorem C43_factors_are_tight : forall e,
  (exists cs s, cs <> [] /\ Encoded e cs s /\ length s = encode_factor e * length (utf8 cs)) /\
  ((forall m, e = Single m -> m = windows_1252) ->
   exists bs cs, bs <> [] /\ Decoded e bs cs /\ 2 * length (utf8 cs) = decode_factor2 e * length bs).
Proof.
  intros e. split.
  - assert (U : exists w, EncUnit e [0x41%N] w /\ length w = encode_factor e).
    { destruct e; cbn [EncUnit encode_factor];
        [exists [0x41]%N|exists [0; 0x41]%N|exists [0x41; 0]%N|exists [0; 0; 0; 0x41]%N|exists [0x41; 0; 0; 0]%N| | |]; try (split; [exists 0x41%N; repeat split; left; lia|reflexivity]).
      - exists [0x41%N]. split; [left; exists 0x41%N; repeat split; lia|reflexivity].
      - exists [0x41%N]. split; [left; exists 0x41%N; repeat split; lia|reflexivity].
      - exists [0x41%N]. split; [exists 0x41%N, 0x41%N; repeat split; apply charset_low; lia|reflexivity]. }
    destruct U as (w & Hu & Hlen). exists [0x41%N], (w ++ []). split; [discriminate|].
    split; [|rewrite app_nil_r, Hlen; cbn; lia].
    apply (Encoded_unit e [0x41%N] w [] []); [exact Hu| |constructor].
    intros u' w' Hu' [r E]. destruct (enc_unit_shape _ _ _ Hu') as (_ & L & _). destruct u' as [|x [|y u']]; cbn in *; try lia. discriminate E.
  - intros Hm. assert (U : exists w u, DecUnit e w u /\ 2 * length (utf8 u) = decode_factor2 e * length w).
    { destruct e as [| | | | | | |m].
      - exists [0x41%N], [0x41%N]. split; [exists 0x41%N; repeat split; left; lia|reflexivity].
      - exists [0x4E; 0]%N, [0x4E00%N]. split; [exists 0x4E00%N; repeat split; left; lia|reflexivity].
      - exists [0; 0x4E]%N, [0x4E00%N]. split; [exists 0x4E00%N; repeat split; left; lia|reflexivity].
      - exists [0; 1; 0xF6; 0]%N, [0x1F600%N]. split; [exists 0x1F600%N; repeat split; right; lia|reflexivity].
      - exists [0; 0xF6; 1; 0]%N, [0x1F600%N]. split; [exists 0x1F600%N; repeat split; right; lia|reflexivity].
      - exists [0x88; 0x62]%N, [0xCA; 0x304]%N. split; [right; right; exists 1133%N; split; [cbn; auto|reflexivity]|reflexivity].
      - exists [0xB1]%N, [0xFF71%N]. split; [right; left; exists 0xB1%N; repeat split; lia|reflexivity].
      - rewrite (Hm m eq_refl). exists [0x80%N], [0x20AC%N]. split; [|reflexivity].
        exists 0x80%N, 0x20AC%N. split; [apply C18_example|auto]. }
    destruct U as (w & u & Hu & Hlen). exists (w ++ []), (u ++ []). rewrite !app_nil_r.
    split; [destruct (dec_unit_shape _ _ _ Hu) as (_ & L & _); destruct w; [cbn in L; lia|discriminate]|].
    split; [|exact Hlen]. rewrite <- (app_nil_r w), <- (app_nil_r u). constructor; [exact Hu|constructor].
Qed.

Example C43_example : exists buf, encode_from_str Utf16LE (utf8 [0x41; 0x42]%N) (firstn 4 buf8) true = Ret (Ok ([0x41; 0; 0x42; 0]%N, 2), buf).
Proof. eexists. vm_compute. reflexivity. Qed.

Definition round_theorems := (C16_utf_round_trip_from_text, C17_utf_round_trip_from_bytes,
  C18_byte_decodes_as_listed, C18_char_encodes_as_listed, C18_round_trip_from_text, C18_round_trip_from_bytes,
  C19_big5_lossless, C45_shift_jis_round_trip_exact, C20_shift_jis_lossless_partial, C20_shift_jis_lossless_refuted,
  C21_decoded_text_is_stable, C26_utf8_error_covers_no_valid_text_partial, C26_utf8_error_covers_no_valid_text_refuted,
  C27_ascii_transparent, C28_latin1_decode, C28_latin1_encode, C37_error_ranges_contain_no_ascii,
  C40_encoding_is_injective, C40_shift_jis_injective_refuted, C41_utf8_encode_copies, C41_utf8_decode_copies,
  C43_encode_buffer_enough, C43_decode_buffer_enough, C43_factors_are_tight).
Print Assumptions round_theorems.
