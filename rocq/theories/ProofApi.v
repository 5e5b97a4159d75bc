(* Properties of single calls. *)
From Coq Require Import List NArith Arith Bool Lia ZArith.
From Verif Require Import Tac Encodings Spec SpecErrors Prelude RustCore Types ProofUtf8 Engine NextEnc NextDec NextUtf8 Units Decide Greedy ModelApi.
Import ListNotations.
Local Open Scope nat_scope.

(** ** The outcome lemmas by cases *)

Lemma encode_cases e ie cs out r buf : text cs -> encode_from_str e (utf8 cs) out ie = Ret (r, buf) ->
  exists pre bs rest, cs = pre ++ rest /\ esteps (enc_next e ie) cs pre bs rest /\ length bs <= length out /\ buf = frame bs out /\
  ((r = Ok (bs, length (utf8 pre)) /\
    match enc_next e ie rest with
    | EEnd | EHold => True
    | EBad c => length out < length bs + encode_room e
    | EUnit k w => length out < length bs + length w
    end) \/
   (exists c rest', rest = c :: rest' /\ enc_next e ie rest = EBad c /\ length bs + encode_room e <= length out /\
      r = Err (EncodeError c (length (utf8 pre), length (utf8 pre) + length (utf8_char c)) (length bs)))).
Proof.
  intros Ht H. destruct (encode_outcome e ie cs out Ht) as (pre & bs & rest & Ecs & Hs & Hl & Hm). rewrite H in Hm.
  exists pre, bs, rest. split; [exact Ecs|]. split; [exact Hs|]. split; [exact Hl|].
  destruct (enc_next e ie rest) as [| |c|k w] eqn:En.
  - injection Hm as -> ->. auto.
  - injection Hm as -> ->. auto.
  - destruct Hm as [(rest' & ->) Hm]. injection Hm as -> ->. split; [reflexivity|].
    destruct (Nat.leb_spec (length bs + encode_room e) (length out)).
    + right. exists c, rest'. auto.
    + left. auto.
  - destruct Hm as [Hr Hm]. injection Hm as -> ->. auto.
Qed.

Lemma decode_cases e ie bs out r buf : bytes bs -> decode_to_str e bs out ie = Ret (r, buf) ->
  exists pre cs rest, bs = pre ++ rest /\ dsteps (dec_next e ie) bs pre cs rest /\ length (utf8 cs) <= length out /\ buf = frame (utf8 cs) out /\
  ((r = Ok (utf8 cs, length pre) /\
    match dec_next e ie rest with
    | DEnd | DHold => True
    | DBad n => length out < length (utf8 cs) + decode_room e
    | DUnit k u => length out < length (utf8 cs) + length (utf8 u)
    end) \/
   (exists n, dec_next e ie rest = DBad n /\ length (utf8 cs) + decode_room e <= length out /\
      r = Err (DecodeError InvalidData (length pre, length pre + n) (length (utf8 cs))))).
Proof.
  intros Ht H. destruct (decode_outcome e ie bs out Ht) as (pre & cs & rest & Ebs & Hs & Hl & Hm). rewrite H in Hm.
  exists pre, cs, rest. split; [exact Ebs|]. split; [exact Hs|]. split; [exact Hl|].
  destruct (dec_next e ie rest) as [| |n|k w] eqn:En.
  - injection Hm as -> ->. auto.
  - injection Hm as -> ->. auto.
  - injection Hm as -> ->. split; [reflexivity|].
    destruct (Nat.leb_spec (length (utf8 cs) + decode_room e) (length out)); eauto.
  - destruct Hm as [Hr Hm]. injection Hm as -> ->. auto.
Qed.

Lemma encode_total e ie cs out : text cs -> exists r buf, encode_from_str e (utf8 cs) out ie = Ret (r, buf).
Proof.
  intros Ht. destruct (encode_outcome e ie cs out Ht) as (pre & bs & rest & Ecs & Hs & Hl & Hm).
  destruct (enc_next e ie rest) as [| |c|k w]; [eauto|eauto| |]; destruct Hm as [_ Hm]; eauto.
Qed.

Lemma decode_total e ie bs out : bytes bs -> exists r buf, decode_to_str e bs out ie = Ret (r, buf).
Proof.
  intros Ht. destruct (decode_outcome e ie bs out Ht) as (pre & cs & rest & Ebs & Hs & Hl & Hm).
  destruct (dec_next e ie rest) as [| |n|k w]; [eauto|eauto|eauto|]. destruct Hm as [_ Hm]. eauto.
Qed.

Lemma dsteps_rest_bytes e ie bs pre cs rest : bytes bs -> dsteps (dec_next e ie) bs pre cs rest -> bytes pre /\ bytes rest /\ text cs.
Proof.
  intros Hb H. pose proof (dsteps_split _ _ _ _ _ H). subst. apply bytes_app in Hb. destruct Hb.
  split; [assumption|]. split; [assumption|]. eapply Decoded_text, dsteps_Decoded; [|exact H]. apply bytes_app. auto.
Qed.

Lemma esteps_rest_text e ie cs pre bs rest : text cs -> esteps (enc_next e ie) cs pre bs rest -> text pre /\ text rest.
Proof. intros Ht H. apply esteps_split in H. subst. apply text_app, Ht. Qed.

Lemma firstn_len_app {A} (a b : list A) : firstn (length a) (a ++ b) = a.
Proof. apply firstn_app_exact. Qed.

Lemma skipn_len_app {A} (a b : list A) : skipn (length a) (a ++ b) = b.
Proof. rewrite skipn_app, Nat.sub_diag, skipn_all. reflexivity. Qed.

(** ** C03-C05 *)

Lemma decode_wf e ie bs out r buf : bytes bs -> decode_to_str e bs out ie = Ret (r, buf) ->
  match r with
  | Ok (s, _) => well_formed_utf8 s
  | Err er => well_formed_utf8 (firstn (de_written er) buf)
  end.
Proof.
  intros Hb H. destruct (decode_cases _ _ _ _ _ _ Hb H) as (pre & cs & rest & -> & Hs & Hl & -> & [(-> & _)|(n & Hn & Hr & ->)]).
  - exists cs. split; [|reflexivity]. eapply dsteps_rest_bytes; eassumption.
  - cbn [de_written]. rewrite frame_prefix. exists cs. split; [|reflexivity]. eapply dsteps_rest_bytes; eassumption.
Qed.

Lemma encode_boundaries e ie cs out r buf : text cs -> encode_from_str e (utf8 cs) out ie = Ret (r, buf) ->
  match r with
  | Ok (_, n) => exists pre post, cs = pre ++ post /\ n = length (utf8 pre)
  | Err er => exists pre c post, cs = pre ++ c :: post /\ ee_character er = c /\
                ee_range er = (length (utf8 pre), length (utf8 (pre ++ [c])))
  end.
Proof.
  intros Ht H. destruct (encode_cases _ _ _ _ _ _ Ht H) as (pre & bs & rest & -> & Hs & Hl & -> & [(-> & _)|(c & rest' & -> & _ & _ & ->)]).
  - eauto.
  - exists pre, c, rest'. cbn [ee_character ee_range]. rewrite utf8_app, app_length, utf8_single. auto.
Qed.

Lemma encode_frame e ie cs out r buf : text cs -> encode_from_str e (utf8 cs) out ie = Ret (r, buf) ->
  let w := match r with Ok (s, _) => length s | Err er => ee_written er end in
  length buf = length out /\ w <= length out /\ skipn w buf = skipn w out /\
  match r with Ok (s, _) => firstn w buf = s | Err _ => True end.
Proof.
  intros Ht H. destruct (encode_cases _ _ _ _ _ _ Ht H) as (pre & bs & rest & -> & Hs & Hl & -> & [(-> & _)|(c & rest' & -> & _ & _ & ->)]);
    cbn [ee_written]; rewrite frame_length by lia; rewrite frame_tail by lia; auto using frame_prefix.
Qed.

Lemma decode_frame e ie bs out r buf : bytes bs -> decode_to_str e bs out ie = Ret (r, buf) ->
  let w := match r with Ok (s, _) => length s | Err er => de_written er end in
  length buf = length out /\ w <= length out /\ skipn w buf = skipn w out /\
  match r with Ok (s, _) => firstn w buf = s | Err _ => True end.
Proof.
  intros Hb H. destruct (decode_cases _ _ _ _ _ _ Hb H) as (pre & cs & rest & -> & Hs & Hl & -> & [(-> & _)|(n & Hn & Hr & ->)]);
    cbn [de_written]; rewrite frame_length by lia; rewrite frame_tail by lia; auto using frame_prefix.
Qed.

(** ** C06-C10 *)

Lemma encode_ok_exact e ie cs out s n buf : text cs -> encode_from_str e (utf8 cs) out ie = Ret (Ok (s, n), buf) ->
  exists pre post, cs = pre ++ post /\ n = length (utf8 pre) /\ Encoded e pre s /\
    (forall s', Encoded e post s' -> Encoded e cs (s ++ s')) /\
    (forall all, Encoded e cs all -> exists s', all = s ++ s' /\ Encoded e post s').
Proof.
  intros Ht H. destruct (encode_cases _ _ _ _ _ _ Ht H) as (pre & bs & rest & -> & Hs & Hl & -> & [(E & _)|(c & rest' & -> & _ & _ & E)]); [|discriminate].
  injection E as -> ->. apply esteps_to_final in Hs; [|exact Ht].
  exists pre, rest. split; [reflexivity|]. split; [reflexivity|]. split; [eapply esteps_Encoded_pre; eassumption|].
  split.
  - intros s' Hs'. eapply esteps_Encoded; eassumption.
  - intros all Ha. eapply Encoded_after; eassumption.
Qed.

Lemma utf8_pre_unique pre post pre' post' : text (pre ++ post) -> pre ++ post = pre' ++ post' ->
  length (utf8 pre) = length (utf8 pre') -> pre = pre' /\ post = post'.
Proof.
  revert pre'. induction pre as [|c pre IH]; intros [|c' pre'] Ht E L.
  - auto.
  - rewrite utf8_cons, app_length in L. cbn in L. pose proof (utf8_char_pos c'). lia.
  - rewrite utf8_cons, app_length in L. cbn in L. pose proof (utf8_char_pos c). lia.
  - cbn [app] in E. injection E as <- E. rewrite !utf8_cons, !app_length in L.
    destruct (IH pre') as [-> ->]; [inversion Ht; assumption|exact E|lia|]. auto.
Qed.

Lemma enc_bad_unencodable e ie cs c : text cs -> enc_next e ie cs = EBad c -> Unencodable e cs.
Proof. intros Ht H u w Hu. eapply enc_next_bad; eassumption. Qed.

Lemma encode_maximal e ie cs out s n buf pre post : text cs ->
  encode_from_str e (utf8 cs) out ie = Ret (Ok (s, n), buf) ->
  cs = pre ++ post -> n = length (utf8 pre) -> post <> [] ->
  (exists u w, EncUnit e u w /\ prefix u post /\ longest e u post /\ length out < length s + length w) \/
  (ie = false /\ e = Big5WHATWG /\ (post = [0xCA%N] \/ post = [0xEA%N])) \/
  (Unencodable e post /\ length out < length s + encode_room e).
Proof.
  intros Ht H Ecs Hn Hne.
  destruct (encode_cases _ _ _ _ _ _ Ht H) as (pre' & bs & rest & E' & Hs & Hl & -> & [(E & Hm)|(c & rest' & -> & _ & _ & E)]); [|discriminate].
  injection E as -> ->. destruct (utf8_pre_unique pre post pre' rest) as [<- <-]; [congruence|congruence|auto|].
  assert (Hr : text post) by (eapply esteps_rest_text; eassumption).
  pose proof (enc_next_facts e ie post) as F.
  destruct (enc_next e ie post) as [| |c|k w] eqn:En.
  - contradiction.
  - destruct F as (F1 & F2 & F3). auto.
  - right. right. split; [eapply enc_bad_unencodable; eassumption|exact Hm].
  - left. destruct (enc_next_unit _ _ _ _ _ Hr En) as (Hk & Hu & Hlong). exists (firstn k post), w. split; [exact Hu|].
    split; [exists (skipn k post); rewrite firstn_skipn; reflexivity|]. split; [exact Hlong|exact Hm].
Qed.

Lemma encode_err_exact e ie cs out er buf : text cs -> encode_from_str e (utf8 cs) out ie = Ret (Err er, buf) ->
  exists pre post s, cs = pre ++ ee_character er :: post /\
    ee_range er = (length (utf8 pre), length (utf8 pre) + length (utf8_char (ee_character er))) /\
    Encoded e pre s /\ ee_written er = length s /\ firstn (length s) buf = s /\
    Unencodable e (ee_character er :: post) /\
    (forall all, ~ Encoded e cs all).
Proof.
  intros Ht H. destruct (encode_cases _ _ _ _ _ _ Ht H) as (pre & bs & rest & -> & Hs & Hl & -> & [(E & _)|(c & rest' & -> & Hbad & Hroom & E)]); [discriminate|].
  injection E as ->. cbn [ee_character ee_range ee_written]. exists pre, rest', bs.
  assert (Hr : text (c :: rest')) by (eapply esteps_rest_text; eassumption).
  pose proof (enc_bad_unencodable _ _ _ _ Hr Hbad) as Hun.
  pose proof (esteps_to_final _ _ _ _ _ _ Ht Hs) as Hf.
  repeat (split; [reflexivity|]). split; [exact (esteps_Encoded_pre _ _ _ _ _ Ht Hf)|]. split; [reflexivity|].
  split; [apply frame_prefix|]. split; [exact Hun|].
  intros all Ha. destruct (Encoded_after _ _ _ _ _ _ Hf Ha Ht) as (b & _ & Hb).
  inversion Hb as [|u w x y Hu Hlo HE Ex]. subst.
  apply (Hun u w Hu). exists x. congruence.
Qed.

Lemma esteps_stop cs p1 b1 r1 p2 b2 r2 next : (forall k w, next r1 <> EUnit k w) ->
  esteps next cs p1 b1 r1 -> esteps next cs p2 b2 r2 -> exists p b, esteps next r2 p b r1 /\ p1 = p2 ++ p /\ b1 = b2 ++ b.
Proof.
  intros Hn H1 H2. destruct (esteps_linear _ _ _ _ _ _ _ _ H1 H2) as [(p & b & Hs & Ep & Eb)|?]; [|assumption].
  inversion Hs as [|? k w]; subst; [|exfalso; eapply Hn; eassumption].
  exists [], []. rewrite !app_nil_r. split; [constructor|auto].
Qed.

(* a buffer that holds the encoding is enough *)
Lemma encode_enough e cs out all : Encoded e cs all -> length all <= length out ->
  encode_from_str e (utf8 cs) out true = Ret (Ok (all, length (utf8 cs)), frame all out).
Proof.
  intros HE Hlen. destruct (Encoded_text _ _ _ HE) as [Ht _].
  destruct (encode_total e true cs out Ht) as (r & buf & H). rewrite H.
  destruct (encode_cases _ _ _ _ _ _ Ht H) as (pre & bs & rest & -> & Hs & Hl & -> & Hc).
  destruct (Encoded_after _ _ _ _ _ _ Hs HE Ht) as (b & -> & Hb).
  assert (Hr : text rest) by (eapply esteps_rest_text; eassumption).
  destruct Hb as [|u w x y Hu Hlo HE'].
  - rewrite !app_nil_r in *. destruct Hc as [(-> & _)|(c & rest' & E & _)]; [reflexivity|discriminate].
  - pose proof (enc_unit_next e u w x Hu Hlo) as En. rewrite En in Hc. rewrite !app_length in Hlen.
    destruct Hc as [(_ & Hc)|(c & rest' & _ & E & _)]; [lia|discriminate].
Qed.

Lemma encode_complete_or_err e cs out : text cs -> 4 * length cs + 2 <= length out ->
  (exists s buf, encode_from_str e (utf8 cs) out true = Ret (Ok (s, length (utf8 cs)), buf)) \/
  (exists er buf, encode_from_str e (utf8 cs) out true = Ret (Err er, buf)).
Proof.
  intros Ht Hlen. destruct (encode_total e true cs out Ht) as (r & buf & H). destruct r as [[s n]|er]; [|eauto].
  left. exists s, buf. rewrite H. f_equal. f_equal. f_equal. f_equal.
  destruct (encode_cases _ _ _ _ _ _ Ht H) as (pre & bs & rest & E0 & Hs & Hl & -> & [(E & Hm)|(c & rest' & -> & _ & _ & E)]); [|discriminate].
  injection E as -> ->. subst cs.
  assert (Hr : text rest) by (eapply esteps_rest_text; eassumption).
  pose proof (Encoded_size _ _ _ (esteps_Encoded_pre _ _ _ _ _ Ht Hs)) as Hsz.
  pose proof (enc_next_facts e true rest) as F. rewrite app_length in Hlen.
  destruct (enc_next e true rest) as [| |c|k w] eqn:En.
  - rewrite F, app_nil_r. reflexivity.
  - destruct F. discriminate.
  - assert (encode_room e <= 2) by (destruct e; cbn; lia). lia.
  - destruct (enc_next_unit _ _ _ _ _ Hr En) as (Hk & Hu & Hlong). apply enc_unit_shape in Hu. lia.
Qed.

Lemma encode_iff e cs out : text cs -> 4 * length cs + 2 <= length out ->
  (exists s buf, encode_from_str e (utf8 cs) out true = Ret (Ok (s, length (utf8 cs)), buf)) <-> (exists s, Encoded e cs s).
Proof.
  intros Ht Hlen. split.
  - intros (s & buf & H). destruct (encode_ok_exact _ _ _ _ _ _ _ Ht H) as (pre & post & E & L & HE & _).
    subst cs. exists s. destruct (utf8_pre_unique (pre ++ post) [] pre post) as [E _].
    + rewrite app_nil_r. exact Ht.
    + apply app_nil_r.
    + exact L.
    + rewrite E. exact HE.
  - intros (s & HE). pose proof (Encoded_size _ _ _ HE). do 2 eexists. apply encode_enough; [exact HE|lia].
Qed.

Lemma encode_err_iff e cs out : text cs -> 4 * length cs + 2 <= length out ->
  (exists er buf, encode_from_str e (utf8 cs) out true = Ret (Err er, buf)) <-> ~ (exists s, Encoded e cs s).
Proof.
  intros Ht Hlen. split.
  - intros (er & buf & H) (s & HE). destruct (encode_err_exact _ _ _ _ _ _ Ht H) as (pre & post & s' & _ & _ & _ & _ & _ & _ & Hno).
    eapply Hno, HE.
  - intros Hno. destruct (encode_complete_or_err e cs out Ht Hlen) as [Ho|He]; [|exact He].
    exfalso. apply Hno, encode_iff with (out := out); assumption.
Qed.

Lemma utf_enc_next_unit e ie c r : is_utf e -> exists w, enc_next e ie (c :: r) = EUnit 1 w.
Proof. destruct e; intros []; eexists; reflexivity. Qed.

Lemma utf_encodes e cs : is_utf e -> text cs -> exists s, Encoded e cs s.
Proof.
  intros He. induction cs as [|c cs IH]; intros Ht; [exists []; constructor|].
  destruct IH as [s Hs]; [inversion Ht; assumption|].
  destruct (utf_enc_next_unit e true c cs He) as [w Hw]. destruct (enc_next_unit _ _ _ _ _ Ht Hw) as (_ & Hu & Hl).
  exists (w ++ s). change (c :: cs) with ([c] ++ cs). constructor; assumption.
Qed.

Lemma utf_encode_never_fails e ie cs out r buf : is_utf e -> text cs ->
  encode_from_str e (utf8 cs) out ie = Ret (r, buf) -> exists s n, r = Ok (s, n).
Proof.
  intros He Ht H. destruct (encode_cases _ _ _ _ _ _ Ht H) as (pre & bs & rest & -> & Hs & Hl & -> & [(-> & _)|(c & rest' & -> & Hbad & Hroom & E)]); [eauto|].
  destruct (utf_enc_next_unit e ie c rest' He) as [w Hw]. congruence.
Qed.

Lemma utf_enc_flag e cs out : is_utf e -> forall ie, encode_from_str e cs out ie = encode_from_str e cs out true.
Proof. destruct e; intros []; reflexivity. Qed.

(** ** C11-C15 *)

Lemma decode_ok_exact e ie bs out s n buf : bytes bs -> decode_to_str e bs out ie = Ret (Ok (s, n), buf) ->
  n <= length bs /\ exists cs, Decoded e (firstn n bs) cs /\ s = utf8 cs.
Proof.
  intros Hb H. destruct (decode_cases _ _ _ _ _ _ Hb H) as (pre & cs & rest & -> & Hs & Hl & -> & [(E & _)|(m & _ & _ & E)]); [|discriminate].
  injection E as -> ->. rewrite app_length. split; [lia|]. exists cs. split; [|reflexivity].
  rewrite firstn_len_app. eapply dsteps_Decoded; eassumption.
Qed.

Lemma dec_bad_undecodable e ie bs : (forall k u, dec_next e ie bs <> DUnit k u) -> Undecodable e bs.
Proof. intros H w u. apply dec_next_no_unit with (is_end := ie), H. Qed.

Lemma decode_maximal e ie bs out s n buf : bytes bs -> decode_to_str e bs out ie = Ret (Ok (s, n), buf) -> n < length bs ->
  (exists w u, DecUnit e w u /\ prefix w (skipn n bs) /\ length out < length s + length (utf8 u)) \/
  (ie = false /\ Undecodable e (skipn n bs) /\ Incomplete e (skipn n bs)) \/
  (Undecodable e (skipn n bs) /\ length out < length s + decode_room e).
Proof.
  intros Hb H Hn. destruct (decode_cases _ _ _ _ _ _ Hb H) as (pre & cs & rest & -> & Hs & Hl & -> & [(E & Hm)|(m & _ & _ & E)]); [|discriminate].
  injection E as -> ->. rewrite skipn_len_app. rewrite app_length in Hn.
  destruct (dsteps_rest_bytes _ _ _ _ _ _ Hb Hs) as (_ & Hr & _).
  pose proof (dec_next_facts e ie rest Hr) as F.
  destruct (dec_next e ie rest) as [| |m|k u] eqn:En.
  - cbn in F. subst rest. cbn in Hn. lia.
  - right. left. destruct F as (-> & _ & F). split; [reflexivity|]. split; [|exact F].
    apply (dec_bad_undecodable e false). intros k u. congruence.
  - right. right. split; [|exact Hm]. apply (dec_bad_undecodable e ie). intros k u. congruence.
  - left. destruct (dec_next_unit _ _ _ _ _ Hr En) as (Hk & Hu). exists (firstn k rest), u. split; [exact Hu|].
    split; [exists (skipn k rest); rewrite firstn_skipn; reflexivity|exact Hm].
Qed.

Lemma decode_err_exact e ie bs out er buf : bytes bs -> decode_to_str e bs out ie = Ret (Err er, buf) ->
  let (a, b) := de_range er in
  a < b <= length bs /\
  (exists cs, Decoded e (firstn a bs) cs /\ de_written er = length (utf8 cs) /\ firstn (de_written er) buf = utf8 cs) /\
  Undecodable e (skipn a bs) /\
  ErrorLength e (skipn a bs) (b - a) /\
  (ie = false -> ~ Incomplete e (skipn a bs)) /\
  de_cause er = InvalidData.
Proof.
  intros Hb H. destruct (decode_cases _ _ _ _ _ _ Hb H) as (pre & cs & rest & -> & Hs & Hl & -> & [(E & Hm)|(m & En & Hroom & E)]); [discriminate|].
  injection E as ->. cbn [de_range de_written de_cause].
  destruct (dsteps_rest_bytes _ _ _ _ _ _ Hb Hs) as (_ & Hr & _).
  pose proof (dec_next_facts e ie rest Hr) as F. rewrite En in F. destruct F as [F1 F2].
  rewrite skipn_len_app, firstn_len_app, app_length. replace (length pre + m - length pre) with m by lia.
  assert (1 <= m <= length rest) by (apply F1).
  split; [lia|]. split; [exists cs; split; [exact (dsteps_Decoded _ _ _ _ _ _ Hb Hs)|split; [reflexivity|apply frame_prefix]]|].
  split; [apply (dec_bad_undecodable e ie); congruence|]. auto.
Qed.

Lemma decode_enough e ie bs cs out : Decoded e bs cs -> length (utf8 cs) <= length out ->
  decode_to_str e bs out ie = Ret (Ok (utf8 cs, length bs), frame (utf8 cs) out).
Proof.
  intros HD Hlen. destruct (Decoded_text _ _ _ HD) as [_ Hb].
  destruct (decode_total e ie bs out Hb) as (r & buf & H). rewrite H.
  destruct (decode_cases _ _ _ _ _ _ Hb H) as (pre & cs' & rest & -> & Hs & Hl & -> & Hc).
  destruct (Decoded_after e (pre ++ rest) pre cs' rest cs Hb) as (c & -> & Hb'); [eapply dsteps_flag; eassumption|exact HD|].
  destruct Hb' as [|w u x y Hu HD'].
  - rewrite !app_nil_r in *. rewrite dec_next_nil in Hc. destruct Hc as [(-> & _)|(m & E & _)]; [reflexivity|discriminate].
  - pose proof (dec_unit_next e w u x ie Hu) as En. rewrite En in Hc. rewrite !utf8_app, !app_length in Hlen.
    destruct Hc as [(_ & Hc)|(m & E & _)]; [lia|discriminate].
Qed.

Lemma decode_complete_or_err e bs out : bytes bs -> 3 * length bs + 1 <= length out ->
  (exists s buf, decode_to_str e bs out true = Ret (Ok (s, length bs), buf)) \/
  (exists er buf, decode_to_str e bs out true = Ret (Err er, buf)).
Proof.
  intros Hb Hlen. destruct (decode_total e true bs out Hb) as (r & buf & H). destruct r as [[s n]|er]; [|eauto].
  left. exists s, buf. rewrite H. f_equal. f_equal. f_equal. f_equal.
  destruct (decode_cases _ _ _ _ _ _ Hb H) as (pre & cs & rest & E0 & Hs & Hl & -> & [(E & Hm)|(m & _ & _ & E)]); [|discriminate].
  injection E as -> ->. subst bs.
  destruct (dsteps_rest_bytes _ _ _ _ _ _ Hb Hs) as (_ & Hr & _).
  pose proof (Decoded_size _ _ _ (dsteps_Decoded _ _ _ _ _ _ Hb Hs)) as Hsz.
  pose proof (dec_next_facts e true rest Hr) as F. rewrite app_length in Hlen.
  destruct (dec_next e true rest) as [| |m|k u] eqn:En.
  - cbn in F. rewrite F, app_nil_r. reflexivity.
  - destruct F. discriminate.
  - assert (decode_room e <= 1) by (destruct e; cbn; lia). lia.
  - destruct (dec_next_unit _ _ _ _ _ Hr En) as (Hk & Hu). pose proof (DecUnit_size _ _ _ Hu) as Hsz'.
    rewrite firstn_length_le in Hsz' by lia. lia.
Qed.

Lemma decode_iff e bs out : bytes bs -> 3 * length bs + 1 <= length out ->
  forall cs, (exists buf, decode_to_str e bs out true = Ret (Ok (utf8 cs, length bs), buf) /\ text cs) <-> Decoded e bs cs.
Proof.
  intros Hb Hlen cs. split.
  - intros (buf & H & Ht). destruct (decode_ok_exact _ _ _ _ _ _ _ Hb H) as (_ & cs' & HD & E).
    rewrite firstn_all in HD. destruct (Decoded_text _ _ _ HD) as [Ht' _]. apply utf8_inj in E; [|assumption|assumption]. subst. exact HD.
  - intros HD. pose proof (Decoded_size _ _ _ HD). eexists. split; [apply decode_enough; [exact HD|lia]|]. eapply Decoded_text, HD.
Qed.

Lemma decode_err_iff e bs out : bytes bs -> 3 * length bs + 1 <= length out ->
  (exists er buf, decode_to_str e bs out true = Ret (Err er, buf)) <-> ~ (exists cs, Decoded e bs cs).
Proof.
  intros Hb Hlen. split.
  - intros (er & buf & H) (cs & HD). pose proof (Decoded_size _ _ _ HD).
    rewrite (decode_enough e true bs cs out HD) in H by lia. discriminate.
  - intros Hno. destruct (decode_complete_or_err e bs out Hb Hlen) as [(s & buf & H)|He]; [|exact He].
    exfalso. apply Hno. destruct (decode_ok_exact _ _ _ _ _ _ _ Hb H) as (_ & cs' & HD & E). rewrite firstn_all in HD. eauto.
Qed.

(** ** C30-C32, C42 *)

(* what a call has written *)
Lemma encode_larger e ie cs out out' r buf r' buf' : text cs -> length out <= length out' ->
  encode_from_str e (utf8 cs) out ie = Ret (r, buf) -> encode_from_str e (utf8 cs) out' ie = Ret (r', buf') ->
  let consumed r := match r with Ok (_, n) => n | Err er => fst (ee_range er) end in
  let written (r : encode_result) buf := match r with Ok (s, _) => s | Err er => firstn (ee_written er) buf end in
  consumed r <= consumed r' /\ prefix (written r buf) (written r' buf') /\
  (forall er, r = Err er -> r' = r).
Proof.
  intros Ht Hle H H'.
  destruct (encode_cases _ _ _ _ _ _ Ht H) as (pre & bs & rest & E0 & Hs & Hl & -> & Hc).
  destruct (encode_cases _ _ _ _ _ _ Ht H') as (pre' & bs' & rest' & E0' & Hs' & Hl' & -> & Hc').
  assert (X : exists p b, esteps (enc_next e ie) rest p b rest' /\ pre' = pre ++ p /\ bs' = bs ++ b).
  { destruct (esteps_linear _ _ _ _ _ _ _ _ Hs Hs') as [?|(p & b & Hp & -> & ->)]; [assumption|].
    destruct (esteps_nonempty _ _ _ _ _ Hp) as [(-> & -> & ->)|(k & w & En & [x ->])].
    - exists [], []. rewrite !app_nil_r. split; [constructor|auto].
    - rewrite En in Hc'. rewrite !app_length in Hl.
      destruct Hc' as [(_ & Hc')|(c & r0 & _ & Hc' & _)]; [lia|discriminate]. }
  destruct X as (p & b & Hp & -> & ->). cbv zeta.
  assert (E1 : match r with Ok (s, _) => s | Err er => firstn (ee_written er) (frame bs out) end = bs /\
               match r with Ok (_, n) => n | Err er => fst (ee_range er) end = length (utf8 pre)).
  { destruct Hc as [(-> & _)|(c & r0 & _ & _ & _ & ->)]; [auto|]. cbn. rewrite frame_prefix. auto. }
  assert (E2 : match r' with Ok (s, _) => s | Err er => firstn (ee_written er) (frame (bs ++ b) out') end = bs ++ b /\
               match r' with Ok (_, n) => n | Err er => fst (ee_range er) end = length (utf8 (pre ++ p))).
  { destruct Hc' as [(-> & _)|(c & r0 & _ & _ & _ & ->)]; [auto|]. cbn [ee_written ee_range fst]. rewrite frame_prefix. auto. }
  destruct E1 as [-> ->], E2 as [-> ->]. rewrite utf8_app, app_length. split; [lia|]. split; [exists b; reflexivity|].
  intros er ->. destruct Hc as [(E & _)|(c & r0 & -> & Hbad & Hroom & E)]; [discriminate|]. injection E as ->.
  inversion Hp as [|? k w]; subst; [|congruence]. rewrite !app_nil_r in *.
  destruct Hc' as [(_ & Hc')|(c' & r1 & E & _ & _ & ->)].
  - rewrite Hbad in Hc'. lia.
  - injection E as <- <-. reflexivity.
Qed.

Lemma decode_larger e ie bs out out' r buf r' buf' : bytes bs -> length out <= length out' ->
  decode_to_str e bs out ie = Ret (r, buf) -> decode_to_str e bs out' ie = Ret (r', buf') ->
  let consumed r := match r with Ok (_, n) => n | Err er => fst (de_range er) end in
  let written (r : decode_result) buf := match r with Ok (s, _) => s | Err er => firstn (de_written er) buf end in
  consumed r <= consumed r' /\ prefix (written r buf) (written r' buf') /\
  (forall er, r = Err er -> r' = r).
Proof.
  intros Ht Hle H H'.
  destruct (decode_cases _ _ _ _ _ _ Ht H) as (pre & cs & rest & E0 & Hs & Hl & -> & Hc).
  destruct (decode_cases _ _ _ _ _ _ Ht H') as (pre' & cs' & rest' & E0' & Hs' & Hl' & -> & Hc').
  assert (X : exists p c, dsteps (dec_next e ie) rest p c rest' /\ pre' = pre ++ p /\ cs' = cs ++ c).
  { destruct (dsteps_linear _ _ _ _ _ _ _ _ Hs Hs') as [?|(p & b & Hp & -> & ->)]; [assumption|].
    inversion Hp as [|? k u p' c' ? En Hs2]; subst.
    - exists [], []. rewrite !app_nil_r. split; [constructor|auto].
    - rewrite En in Hc'. rewrite !utf8_app, !app_length in Hl.
      destruct Hc' as [(_ & Hc')|(m & Hc' & _)]; [lia|discriminate]. }
  destruct X as (p & c & Hp & -> & ->). cbv zeta.
  assert (E1 : match r with Ok (s, _) => s | Err er => firstn (de_written er) (frame (utf8 cs) out) end = utf8 cs /\
               match r with Ok (_, n) => n | Err er => fst (de_range er) end = length pre).
  { destruct Hc as [(-> & _)|(m & _ & _ & ->)]; [auto|]. cbn [de_written de_range fst]. rewrite frame_prefix. auto. }
  assert (E2 : match r' with Ok (s, _) => s | Err er => firstn (de_written er) (frame (utf8 (cs ++ c)) out') end = utf8 (cs ++ c) /\
               match r' with Ok (_, n) => n | Err er => fst (de_range er) end = length (pre ++ p)).
  { destruct Hc' as [(-> & _)|(m & _ & _ & ->)]; [auto|]. cbn [de_written de_range fst]. rewrite frame_prefix. auto. }
  destruct E1 as [-> ->], E2 as [-> ->]. rewrite utf8_app, app_length. split; [lia|]. split; [eexists; reflexivity|].
  intros er ->. destruct Hc as [(E & _)|(m & Hbad & Hroom & E)]; [discriminate|]. injection E as ->.
  inversion Hp as [|? k u]; subst; [|congruence]. rewrite !app_nil_r in *.
  destruct Hc' as [(_ & Hc')|(m' & E & _ & ->)].
  - rewrite Hbad in Hc'. lia.
  - rewrite Hbad in E. injection E as <-. reflexivity.
Qed.

Lemma frame_same w a b : length a = length b -> length (frame w a) = length (frame w b).
Proof. intros H. unfold frame. rewrite !app_length, !skipn_length. lia. Qed.

Lemma prefix_same {A} (a b : list A) : prefix a b -> length a = length b -> a = b.
Proof.
  intros [x ->] H. rewrite app_length in H. destruct x; [|cbn in H; lia]. rewrite app_nil_r. reflexivity.
Qed.

Lemma encode_old_contents e ie cs out out' r buf : text cs -> length out = length out' ->
  encode_from_str e (utf8 cs) out ie = Ret (r, buf) ->
  exists buf', encode_from_str e (utf8 cs) out' ie = Ret (r, buf') /\
    let w := match r with Ok (s, _) => length s | Err er => ee_written er end in firstn w buf' = firstn w buf.
Proof.
  intros Ht Hlen H. destruct (encode_total e ie cs out' Ht) as (r' & buf' & H').
  assert (E : r' = r).
  { destruct r as [[s n]|er].
    - destruct (encode_larger e ie cs out out' _ _ _ _ Ht ltac:(lia) H H') as (L1 & P1 & _).
      destruct (encode_larger e ie cs out' out _ _ _ _ Ht ltac:(lia) H' H) as (L2 & P2 & E2). destruct r' as [[s' n']|er'].
      + cbv beta iota in *. f_equal. f_equal; [|lia]. destruct P1 as [x ->], P2 as [y E].
        rewrite <- app_assoc in E. rewrite <- (app_nil_r s) in E at 1. apply app_inv_head in E. symmetry in E.
        apply app_eq_nil in E. destruct E as [-> _]. apply app_nil_r.
      + specialize (E2 _ eq_refl). discriminate.
    - destruct (encode_larger e ie cs out out' _ _ _ _ Ht ltac:(lia) H H') as (_ & _ & E). apply (E er), eq_refl. }
  subst r'. exists buf'. split; [exact H'|].
  pose proof (encode_frame _ _ _ _ _ _ Ht H) as F. pose proof (encode_frame _ _ _ _ _ _ Ht H') as F'.
  destruct (encode_larger e ie cs out out' _ _ _ _ Ht ltac:(lia) H H') as (_ & P & _).
  cbv zeta in *. destruct r as [[s n]|er].
  - destruct F as (_ & _ & _ & ->), F' as (_ & _ & _ & ->). reflexivity.
  - symmetry. apply prefix_same; [exact P|]. rewrite !firstn_length_le; lia.
Qed.

Lemma decode_old_contents e ie bs out out' r buf : bytes bs -> length out = length out' ->
  decode_to_str e bs out ie = Ret (r, buf) ->
  exists buf', decode_to_str e bs out' ie = Ret (r, buf') /\
    let w := match r with Ok (s, _) => length s | Err er => de_written er end in firstn w buf' = firstn w buf.
Proof.
  intros Ht Hlen H. destruct (decode_total e ie bs out' Ht) as (r' & buf' & H').
  assert (E : r' = r).
  { destruct r as [[s n]|er].
    - destruct (decode_larger e ie bs out out' _ _ _ _ Ht ltac:(lia) H H') as (L1 & P1 & _).
      destruct (decode_larger e ie bs out' out _ _ _ _ Ht ltac:(lia) H' H) as (L2 & P2 & E2). destruct r' as [[s' n']|er'].
      + cbv beta iota in *. f_equal. f_equal; [|lia]. destruct P1 as [x ->], P2 as [y E].
        rewrite <- app_assoc in E. rewrite <- (app_nil_r s) in E at 1. apply app_inv_head in E. symmetry in E.
        apply app_eq_nil in E. destruct E as [-> _]. apply app_nil_r.
      + specialize (E2 _ eq_refl). discriminate.
    - destruct (decode_larger e ie bs out out' _ _ _ _ Ht ltac:(lia) H H') as (_ & _ & E). apply (E er), eq_refl. }
  subst r'. exists buf'. split; [exact H'|].
  pose proof (decode_frame _ _ _ _ _ _ Ht H) as F. pose proof (decode_frame _ _ _ _ _ _ Ht H') as F'.
  destruct (decode_larger e ie bs out out' _ _ _ _ Ht ltac:(lia) H H') as (_ & P & _).
  cbv zeta in *. destruct r as [[s n]|er].
  - destruct F as (_ & _ & _ & ->), F' as (_ & _ & _ & ->). reflexivity.
  - symmetry. apply prefix_same; [exact P|]. rewrite !firstn_length_le; lia.
Qed.
