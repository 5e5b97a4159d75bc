(* Properties of sequences of calls. *)
From Coq Require Import List NArith Arith Bool Lia ZArith.
From Verif Require Import Tac Encodings Spec SpecErrors Prelude RustCore Types ProofUtf8 Engine NextEnc NextDec NextUtf8 Units Decide Greedy ModelApi ProofApi Session.
Import ListNotations.
Local Open Scope nat_scope.

Lemma enc_session_inv e fed ended n em : EncSession e fed ended n em ->
  exists pre rest, text (pre ++ rest) /\ fed = utf8 (pre ++ rest) /\ n = length (utf8 pre) /\
    esteps (enc_next e ended) (pre ++ rest) pre em rest.
Proof.
  induction 1 as [|cs fed n em HS IH Ht|fed n em HS IH|fed ended n em out s k buf HS IH Hcall].
  - exists [], []. repeat split; constructor.
  - destruct IH as (pre & rest & Htext & -> & -> & Hsteps). exists pre, (rest ++ cs). rewrite app_assoc.
    split; [apply text_app; auto|]. split; [rewrite (utf8_app (pre ++ rest)); reflexivity|]. split; [reflexivity|].
    apply esteps_more; assumption.
  - destruct IH as (pre & rest & Htext & -> & -> & Hsteps). exists pre, rest. repeat split; auto. apply esteps_final; assumption.
  - destruct IH as (pre & rest & Htext & -> & -> & Hsteps).
    rewrite utf8_app, skipn_len_app in Hcall. assert (Hr : text rest) by (apply text_app in Htext; apply Htext).
    destruct (encode_cases _ _ _ _ _ _ Hr Hcall) as (p & bs & rest' & -> & Hs & _ & _ & [(E & _)|(c & r & _ & _ & _ & E)]); [|discriminate].
    injection E as -> ->. exists (pre ++ p), rest'. rewrite <- !app_assoc. split; [exact Htext|]. split; [reflexivity|].
    split; [rewrite utf8_app, app_length; reflexivity|]. eapply esteps_app; eassumption.
Qed.

Lemma dec_session_inv e fed ended n em : DecSession e fed ended n em ->
  exists pre rest cs, bytes (pre ++ rest) /\ fed = pre ++ rest /\ n = length pre /\ em = utf8 cs /\
    dsteps (dec_next e ended) (pre ++ rest) pre cs rest.
Proof.
  induction 1 as [|bs fed n em HS IH Ht|fed n em HS IH|fed ended n em out s k buf HS IH Hcall].
  - exists [], [], []. repeat split; constructor.
  - destruct IH as (pre & rest & cs & Hb & -> & -> & -> & Hsteps). exists pre, (rest ++ bs), cs. rewrite app_assoc.
    split; [apply bytes_app; auto|]. repeat (split; [reflexivity|]). eapply dsteps_more; eassumption.
  - destruct IH as (pre & rest & cs & Hb & -> & -> & -> & Hsteps). exists pre, rest, cs. repeat (split; auto). eapply dsteps_flag; eassumption.
  - destruct IH as (pre & rest & cs & Hb & -> & -> & -> & Hsteps).
    rewrite skipn_len_app in Hcall. assert (Hr : bytes rest) by (apply bytes_app in Hb; apply Hb).
    destruct (decode_cases _ _ _ _ _ _ Hr Hcall) as (p & cs' & rest' & -> & Hs & _ & _ & [(E & _)|(m & _ & _ & E)]); [|discriminate].
    injection E as -> ->. exists (pre ++ p), rest', (cs ++ cs'). rewrite <- !app_assoc. split; [exact Hb|]. split; [reflexivity|].
    split; [rewrite app_length; reflexivity|]. split; [rewrite utf8_app; reflexivity|]. eapply dsteps_app; eassumption.
Qed.

(* the conversion state reached by steps determines the one-shot result when the text ends there *)
Lemma enc_session_done e fed em : EncSession e fed true (length fed) em ->
  exists cs, text cs /\ fed = utf8 cs /\ Encoded e cs em.
Proof.
  intros H. destruct (enc_session_inv _ _ _ _ _ H) as (pre & rest & Ht & -> & Hn & Hs).
  rewrite utf8_app, app_length in Hn. assert (Hr : rest = []) by (apply utf8_length_nil; lia). subst rest.
  rewrite app_nil_r in *. exists pre. split; [exact Ht|]. split; [reflexivity|]. eapply esteps_Encoded_pre; eassumption.
Qed.

Lemma dec_session_done e fed em : DecSession e fed true (length fed) em ->
  exists cs, em = utf8 cs /\ Decoded e fed cs.
Proof.
  intros H. destruct (dec_session_inv _ _ _ _ _ H) as (pre & rest & cs & Hb & -> & Hn & -> & Hs).
  rewrite app_length in Hn. destruct rest; [|cbn in Hn; lia].
  rewrite app_nil_r in *. exists cs. split; [reflexivity|]. eapply dsteps_Decoded; eassumption.
Qed.

Theorem stream_encode_same e fed em : EncSession e fed true (length fed) em ->
  forall out, length em <= length out -> exists buf, encode_from_str e fed out true = Ret (Ok (em, length fed), buf).
Proof.
  intros H out Hl. destruct (enc_session_done _ _ _ H) as (cs & Ht & -> & HE). eexists. apply encode_enough; assumption.
Qed.

Theorem stream_decode_same e fed em : DecSession e fed true (length fed) em ->
  forall out, length em <= length out -> exists buf, decode_to_str e fed out true = Ret (Ok (em, length fed), buf).
Proof.
  intros H out Hl. destruct (dec_session_done _ _ _ H) as (cs & -> & HD). eexists. apply decode_enough; assumption.
Qed.

Lemma enc_bad_any e ie cs c more ie' : enc_next e ie cs = EBad c -> (ie = true -> more = []) -> (ie' = true \/ ie = ie') ->
  enc_next e ie' (cs ++ more) = EBad c.
Proof.
  intros H Hm Hie. destruct ie.
  - rewrite (Hm eq_refl), app_nil_r. destruct Hie as [->| <-]; exact H.
  - assert (Hne : cs <> []) by (intros ->; rewrite enc_next_nil in H; discriminate).
    pose proof (enc_next_app e ie' cs more Hne) as Ha. rewrite H in Ha. exact Ha.
Qed.

(* steps leading to an error are what a call with enough room does *)
Lemma encode_err_from_steps e cs pre bs rest c out : text cs ->
  esteps (enc_next e true) cs pre bs rest -> enc_next e true rest = EBad c -> length bs + encode_room e <= length out ->
  encode_from_str e (utf8 cs) out true =
  Ret (Err (EncodeError c (length (utf8 pre), length (utf8 pre) + length (utf8_char c)) (length bs)), frame bs out).
Proof.
  intros Ht Hs Hbad Hroom. destruct (encode_total e true cs out Ht) as (r & buf & H). rewrite H.
  destruct (encode_cases _ _ _ _ _ _ Ht H) as (p & b & rest' & E0 & Hs' & Hl & -> & Hc).
  destruct (esteps_stop cs pre bs rest p b rest' (enc_next e true) ltac:(intros ? ?; congruence) Hs Hs') as (p2 & b2 & Hs2 & -> & ->).
  destruct (esteps_nonempty _ _ _ _ _ Hs2) as [(-> & -> & ->)|(k & w & En & [x ->])].
  - rewrite !app_nil_r in *. rewrite Hbad in Hc. destruct Hc as [(_ & Hc)|(c' & r' & _ & E & _ & ->)]; [lia|].
    injection E as <-. reflexivity.
  - rewrite En in Hc. rewrite !app_length in Hroom. destruct Hc as [(_ & Hc)|(c' & r' & _ & E & _)]; [lia|discriminate].
Qed.

Theorem stream_encode_error e fed ended n em out er buf more out' :
  EncSession e fed ended n em -> encode_from_str e (skipn n fed) out ended = Ret (Err er, buf) ->
  text more -> (ended = true -> more = []) ->
  length em + ee_written er + encode_room e <= length out' ->
  exists buf', encode_from_str e (fed ++ utf8 more) out' true =
     Ret (Err (EncodeError (ee_character er) (n + fst (ee_range er), n + snd (ee_range er)) (length em + ee_written er)), buf') /\
     firstn (length em + ee_written er) buf' = em ++ firstn (ee_written er) buf.
Proof.
  intros HS Hcall Hm Hend Hroom. destruct (enc_session_inv _ _ _ _ _ HS) as (pre & rest & Ht & -> & -> & Hs).
  rewrite utf8_app, skipn_len_app in Hcall. assert (Hr : text rest) by (apply text_app in Ht; apply Ht).
  destruct (encode_cases _ _ _ _ _ _ Hr Hcall) as (p & bs & rest' & -> & Hs' & Hl & -> & [(E & _)|(c & r & -> & Hbad & Hr1 & E)]); [discriminate|].
  injection E as ->. cbn [ee_character ee_range ee_written fst snd] in *.
  pose proof (esteps_app _ _ _ _ _ _ _ _ Hs Hs') as Hall.
  assert (Hall' : esteps (enc_next e true) ((pre ++ p ++ c :: r) ++ more) (pre ++ p) (em ++ bs) ((c :: r) ++ more)).
  { destruct ended; [|apply esteps_more; assumption]. rewrite (Hend eq_refl), !app_nil_r in *. exact Hall. }
  pose proof (enc_bad_any e ended (c :: r) c more true Hbad Hend ltac:(auto)) as Hbad'.
  assert (Ht' : text ((pre ++ p ++ c :: r) ++ more)) by (apply text_app; auto).
  eexists. rewrite <- utf8_app. rewrite (encode_err_from_steps _ _ _ _ _ _ out' Ht' Hall' Hbad') by (rewrite app_length; lia).
  rewrite utf8_app, !app_length. split; [rewrite !Nat.add_assoc; reflexivity|].
  rewrite <- app_length, !frame_prefix. reflexivity.
Qed.

Lemma dsteps_stop next bs p1 c1 r1 p2 c2 r2 : (forall k w, next r1 <> DUnit k w) ->
  dsteps next bs p1 c1 r1 -> dsteps next bs p2 c2 r2 -> exists p c, dsteps next r2 p c r1 /\ p1 = p2 ++ p /\ c1 = c2 ++ c.
Proof.
  intros Hn H1 H2. destruct (dsteps_linear _ _ _ _ _ _ _ _ H1 H2) as [(p & b & Hs & Ep & Eb)|?]; [|assumption].
  inversion Hs as [|? k w]; subst; [|exfalso; eapply Hn; eassumption].
  exists [], []. rewrite !app_nil_r. split; [constructor|auto].
Qed.

Lemma decode_err_from_steps e ie bs pre cs rest n out : bytes bs ->
  dsteps (dec_next e ie) bs pre cs rest -> dec_next e ie rest = DBad n -> length (utf8 cs) + decode_room e <= length out ->
  decode_to_str e bs out ie =
  Ret (Err (DecodeError InvalidData (length pre, length pre + n) (length (utf8 cs))), frame (utf8 cs) out).
Proof.
  intros Hb Hs Hbad Hroom. destruct (decode_total e ie bs out Hb) as (r & buf & H). rewrite H.
  destruct (decode_cases _ _ _ _ _ _ Hb H) as (p & c & rest' & E0 & Hs' & Hl & -> & Hc).
  destruct (dsteps_stop (dec_next e ie) bs pre cs rest p c rest' ltac:(intros ? ?; congruence) Hs Hs') as (p2 & c2 & Hs2 & -> & ->).
  inversion Hs2 as [|? k u p' c' ? En Hs3]; subst.
  - rewrite !app_nil_r in *. rewrite Hbad in Hc. destruct Hc as [(_ & Hc)|(m & E & _ & ->)]; [lia|].
    injection E as <-. reflexivity.
  - rewrite En in Hc. rewrite !utf8_app, !app_length in Hroom. destruct Hc as [(_ & Hc)|(m & E & _)]; [lia|discriminate].
Qed.

Theorem stream_decode_error e fed ended n em out er buf more out' :
  DecSession e fed ended n em -> decode_to_str e (skipn n fed) out ended = Ret (Err er, buf) ->
  bytes more -> (ended = true -> more = []) ->
  length em + de_written er + decode_room e <= length out' ->
  exists b buf', decode_to_str e (fed ++ more) out' true =
     Ret (Err (DecodeError InvalidData (n + fst (de_range er), b) (length em + de_written er)), buf') /\
     firstn (length em + de_written er) buf' = em ++ firstn (de_written er) buf /\
     ((e <> Utf8 \/ ended = true) -> b = n + snd (de_range er)).
Proof.
  intros HS Hcall Hm Hend Hroom. destruct (dec_session_inv _ _ _ _ _ HS) as (pre & rest & cs & Hb & -> & -> & -> & Hs).
  rewrite skipn_len_app in Hcall. assert (Hr : bytes rest) by (apply bytes_app in Hb; apply Hb).
  destruct (decode_cases _ _ _ _ _ _ Hr Hcall) as (p & cs' & rest' & -> & Hs' & Hl & -> & [(E & _)|(m & Hbad & Hr1 & E)]); [discriminate|].
  injection E as ->. cbn [de_range de_written fst snd] in *.
  pose proof (dsteps_app _ _ _ _ _ _ _ _ Hs Hs') as Hall.
  pose proof (dsteps_more e ended true _ _ _ _ more Hb Hall) as Hall'.
  assert (Hb' : bytes ((pre ++ p ++ rest') ++ more)) by (apply bytes_app; auto).
  assert (Hr' : bytes rest') by (apply bytes_app in Hr; apply Hr).
  assert (X : exists m', dec_next e true (rest' ++ more) = DBad m' /\ ((e <> Utf8 \/ ended = true) -> m' = m)).
  { destruct ended.
    - rewrite (Hend eq_refl), app_nil_r. eauto.
    - destruct (dec_bad_app e rest' more m true Hr' Hm Hbad) as (m' & H1 & H2). exists m'. split; [exact H1|].
      intros [?|?]; [auto|discriminate]. }
  destruct X as (m' & Hbad' & Em).
  exists (length (pre ++ p) + m'). eexists.
  rewrite (decode_err_from_steps _ _ _ _ _ _ _ out' Hb' Hall' Hbad') by (rewrite utf8_app, app_length; lia).
  rewrite utf8_app, !app_length. split; [reflexivity|]. rewrite <- app_length, !frame_prefix. split; [reflexivity|].
  intros He. rewrite (Em He). lia.
Qed.

(** ** Progress and the documented loop *)

Lemma encode_progress e ie cs out s n buf : text cs -> cs <> [] -> 4 <= length out ->
  encode_from_str e (utf8 cs) out ie = Ret (Ok (s, n), buf) ->
  1 <= n \/ (ie = false /\ e = Big5WHATWG /\ (cs = [0xCA%N] \/ cs = [0xEA%N])).
Proof.
  intros Ht Hne Hl H. destruct (encode_ok_exact _ _ _ _ _ _ _ Ht H) as (pre & post & E & En & HE & _).
  destruct pre as [|c pre].
  - cbn [app] in E. subst post.
    assert (s = []) by (inversion HE as [|u w x y Hu]; [reflexivity|]; apply enc_unit_shape in Hu; destruct u; [cbn in *; lia|discriminate]). subst s.
    destruct (encode_maximal _ _ _ _ _ _ _ [] cs Ht H eq_refl En Hne) as [(u & w & Hu & _ & _ & Hlt)|[Hh|(_ & Hlt)]].
    + apply enc_unit_shape in Hu. cbn in Hlt. lia.
    + right. exact Hh.
    + assert (encode_room e <= 2) by (destruct e; cbn; lia). cbn in Hlt. lia.
  - left. rewrite En, utf8_cons, app_length. pose proof (utf8_char_pos c). lia.
Qed.

Lemma DecUnit_size4 e w u : DecUnit e w u -> length (utf8 u) <= 4.
Proof.
  assert (H1 : forall c, length (utf8 [c]) <= 4) by (intros c; rewrite utf8_single; apply utf8_char_pos).
  destruct e; cbn [DecUnit].
  1-5: intros (c & _ & _ & ->); apply H1.
  - intros [(b & Hb & -> & ->)|[(p & c & Hp & -> & ->)|(p & Hp & ->)]]; [apply H1|apply H1|].
    unfold big5_sequences in Hp. cbn [In] in Hp. destruct Hp as [H|[H|[H|[H|[]]]]]; injection H as <- <-; cbn; lia.
  - intros [(b & Hb & -> & ->)|[(b & Hb & -> & ->)|[(p & c & Hp & -> & ->)|(p & Hp & -> & ->)]]]; apply H1.
  - intros (b & c & _ & _ & ->). apply H1.
Qed.

Lemma decode_progress e ie bs out s n buf : bytes bs -> bs <> [] -> 4 <= length out ->
  decode_to_str e bs out ie = Ret (Ok (s, n), buf) ->
  1 <= n \/ (ie = false /\ Undecodable e bs /\ Incomplete e bs).
Proof.
  intros Hb Hne Hl H. destruct n as [|n]; [|left; lia]. right.
  destruct (decode_ok_exact _ _ _ _ _ _ _ Hb H) as (_ & cs & HD & ->). cbn [firstn] in HD.
  assert (cs = []).
  { inversion HD as [|w u x y Hu]; [reflexivity|]. apply dec_unit_shape in Hu. destruct w; [cbn in Hu; lia|discriminate]. }
  subst cs. assert (0 < length bs) by (destruct bs; [congruence|cbn; lia]).
  destruct (decode_maximal _ _ _ _ _ _ _ Hb H ltac:(assumption)) as [(w & u & Hu & _ & Hlt)|[Hh|(_ & Hlt)]].
  - apply DecUnit_size4 in Hu. cbn in Hlt. lia.
  - exact Hh.
  - assert (decode_room e <= 1) by (destruct e; cbn; lia). cbn in Hlt. lia.
Qed.

Lemma utf8_nonempty c cs : utf8 (c :: cs) <> [].
Proof. intros E. apply (f_equal (@length N)) in E. rewrite utf8_cons, app_length in E. pose proof (utf8_char_pos c). cbn in E. lia. Qed.


(* the loop takes steps until the input is used up, the buffers are used up or an error is met *)
Lemma encode_loop_steps e : forall outs cs, text cs -> Forall (fun out => 4 <= length out) outs ->
  match encode_loop e (utf8 cs) outs with
  | (em, inl lft) => exists pre rest, lft = utf8 rest /\ esteps (enc_next e true) cs pre em rest /\
                        (rest = [] \/ length outs <= length (utf8 pre))
  | (em, inr er) => exists pre post, esteps (enc_next e true) cs pre em (ee_character er :: post) /\
                        enc_next e true (ee_character er :: post) = EBad (ee_character er) /\
                        snd (ee_range er) = fst (ee_range er) + length (utf8_char (ee_character er))
  end.
Proof.
  induction outs as [|out outs IH]; intros cs Ht Ho.
  - assert (E : encode_loop e (utf8 cs) [] = ([], inl (utf8 cs))) by (destruct (utf8 cs); reflexivity). rewrite E.
    exists [], cs. split; [reflexivity|]. split; [constructor|]. right. cbn. lia.
  - destruct cs as [|c cs]; [exists [], []; split; [reflexivity|]; split; [constructor|auto]|]. remember (c :: cs) as t eqn:Et.
    assert (Hne : t <> []) by congruence.
    assert (exists x y, utf8 t = x :: y) as (x & y & Ex).
    { destruct (utf8 t) eqn:E; [|eauto]. subst t. exfalso. apply (utf8_nonempty c cs), E. }
    assert (El : encode_loop e (utf8 t) (out :: outs) =
      match encode_from_str e (utf8 t) out true with
      | Ret (Ok (s, n), _) => let (em, r) := encode_loop e (skipn n (utf8 t)) outs in (s ++ em, r)
      | Ret (Err er, buf) => (firstn (ee_written er) buf, inr er)
      | _ => ([], inl (utf8 t))
      end) by (rewrite Ex; reflexivity).
    rewrite El. clear El Ex. destruct (encode_total e true t out Ht) as (r & buf & H). rewrite H.
    pose proof (Forall_inv Ho) as Ho1. pose proof (Forall_inv_tail Ho) as Ho2. cbv beta in Ho1.
    destruct (encode_cases _ _ _ _ _ _ Ht H) as (pre & bs & rest & E0 & Hs & _ & Eb & [(E & _)|(c' & post & Er & Hbad & _ & E)]); subst r.
    + assert (Hp : 1 <= length (utf8 pre)).
      { destruct (encode_progress _ _ _ _ _ _ _ Ht Hne Ho1 H) as [?|(? & _)]; [assumption|discriminate]. }
      assert (Hr : text rest) by (eapply esteps_rest_text; eassumption).
      specialize (IH rest Hr Ho2).
      replace (skipn (length (utf8 pre)) (utf8 t)) with (utf8 rest) by (rewrite E0, utf8_app, skipn_len_app; reflexivity).
      destruct (encode_loop e (utf8 rest) outs) as [em [lft|er]].
      * destruct IH as (p & q & -> & Hs' & Hq). exists (pre ++ p), q. split; [reflexivity|].
        split; [eapply esteps_app; eassumption|]. destruct Hq as [?|Hq]; [auto|right]. rewrite utf8_app, app_length. cbn [length]. lia.
      * destruct IH as (p & q & Hs' & Hb & Hrange). exists (pre ++ p), q. split; [eapply esteps_app; eassumption|]. auto.
    + cbn [ee_written ee_character ee_range fst snd]. rewrite Eb, frame_prefix. exists pre, post. rewrite Er in *. auto.
Qed.

Theorem encode_loop_oneshot e outs cs big : text cs -> Forall (fun out => 4 <= length out) outs ->
  length (utf8 cs) <= length outs -> 4 * length cs + 2 <= length big ->
  match encode_loop e (utf8 cs) outs with
  | (em, inl lft) => lft = [] /\ exists buf, encode_from_str e (utf8 cs) big true = Ret (Ok (em, length (utf8 cs)), buf)
  | (em, inr er) => exists a b buf, encode_from_str e (utf8 cs) big true = Ret (Err (EncodeError (ee_character er) (a, b) (length em)), buf) /\
      firstn (length em) buf = em /\ b - a = snd (ee_range er) - fst (ee_range er)
  end.
Proof.
  intros Ht Ho Hl Hbig. pose proof (encode_loop_steps e outs cs Ht Ho) as H.
  destruct (encode_loop e (utf8 cs) outs) as [em [lft|er]].
  - destruct H as (pre & rest & -> & Hs & Hr). pose proof (esteps_split _ _ _ _ _ Hs) as E.
    assert (rest = []).
    { destruct Hr as [?|Hr]; [assumption|]. rewrite E, utf8_app, app_length in Hl. apply utf8_length_nil. lia. }
    subst rest. rewrite app_nil_r in E. subst pre. split; [reflexivity|]. eexists. apply encode_enough.
    + eapply esteps_Encoded_pre; eassumption.
    + apply esteps_Encoded_pre in Hs; [|exact Ht]. apply Encoded_size in Hs. lia.
  - destruct H as (pre & post & Hs & Hb & Hr). do 3 eexists. split.
    + eapply encode_err_from_steps; [exact Ht|exact Hs|exact Hb|].
      pose proof (esteps_split _ _ _ _ _ Hs) as E. apply esteps_Encoded_pre in Hs; [|exact Ht]. apply Encoded_size in Hs.
      rewrite E, app_length in Hbig. cbn [length] in Hbig. assert (encode_room e <= 2) by (destruct e; cbn; lia). lia.
    + rewrite frame_prefix. split; [reflexivity|lia].
Qed.

Lemma decode_loop_steps e : forall outs bs, bytes bs -> Forall (fun out => 4 <= length out) outs ->
  match decode_loop e bs outs with
  | (em, inl lft) => exists pre cs, em = utf8 cs /\ dsteps (dec_next e true) bs pre cs lft /\
                        (lft = [] \/ length outs <= length pre)
  | (em, inr er) => exists pre cs rest n, em = utf8 cs /\ dsteps (dec_next e true) bs pre cs rest /\
                        dec_next e true rest = DBad n /\ snd (de_range er) = fst (de_range er) + n
  end.
Proof.
  induction outs as [|out outs IH]; intros bs Ht Ho.
  - assert (E : decode_loop e bs [] = ([], inl bs)) by (destruct bs; reflexivity). rewrite E.
    exists [], []. split; [reflexivity|]. split; [constructor|]. right. cbn. lia.
  - destruct bs as [|b bs]; [exists [], []; split; [reflexivity|]; split; [constructor|auto]|].
    assert (Hne : b :: bs <> []) by congruence. remember (b :: bs) as t eqn:Et.
    assert (El : decode_loop e t (out :: outs) =
      match decode_to_str e t out true with
      | Ret (Ok (s, n), _) => let (em, r) := decode_loop e (skipn n t) outs in (s ++ em, r)
      | Ret (Err er, buf) => (firstn (de_written er) buf, inr er)
      | _ => ([], inl t)
      end) by (rewrite Et; reflexivity).
    rewrite El. clear El. destruct (decode_total e true t out Ht) as (r & buf & H). rewrite H.
    pose proof (Forall_inv Ho) as Ho1. pose proof (Forall_inv_tail Ho) as Ho2. cbv beta in Ho1.
    destruct (decode_cases _ _ _ _ _ _ Ht H) as (pre & cs & rest & E0 & Hs & _ & Eb & [(E & _)|(m & Hbad & _ & E)]); subst r.
    + assert (Hp : 1 <= length pre).
      { destruct (decode_progress _ _ _ _ _ _ _ Ht Hne Ho1 H) as [?|(? & _)]; [assumption|discriminate]. }
      assert (Hr : bytes rest) by (eapply dsteps_rest_bytes; eassumption).
      specialize (IH rest Hr Ho2).
      replace (skipn (length pre) t) with rest by (rewrite E0, skipn_len_app; reflexivity).
      destruct (decode_loop e rest outs) as [em [lft|er]].
      * destruct IH as (p & cs' & -> & Hs' & Hq). exists (pre ++ p), (cs ++ cs'). split; [rewrite utf8_app; reflexivity|].
        split; [eapply dsteps_app; eassumption|]. destruct Hq as [?|Hq]; [auto|right]. rewrite app_length. cbn [length]. lia.
      * destruct IH as (p & cs' & q & n & -> & Hs' & Hb & Hrange). exists (pre ++ p), (cs ++ cs'), q, n.
        split; [rewrite utf8_app; reflexivity|]. split; [eapply dsteps_app; eassumption|]. auto.
    + cbn [de_written de_range fst snd]. rewrite Eb, frame_prefix. exists pre, cs, rest, m. auto.
Qed.

Theorem decode_loop_oneshot e outs bs big : bytes bs -> Forall (fun out => 4 <= length out) outs ->
  length bs <= length outs -> 3 * length bs + 1 <= length big ->
  match decode_loop e bs outs with
  | (em, inl lft) => lft = [] /\ exists buf, decode_to_str e bs big true = Ret (Ok (em, length bs), buf)
  | (em, inr er) => exists a b buf, decode_to_str e bs big true = Ret (Err (DecodeError InvalidData (a, b) (length em)), buf) /\
      firstn (length em) buf = em /\ b - a = snd (de_range er) - fst (de_range er)
  end.
Proof.
  intros Ht Ho Hl Hbig. pose proof (decode_loop_steps e outs bs Ht Ho) as H.
  destruct (decode_loop e bs outs) as [em [lft|er]].
  - destruct H as (pre & cs & -> & Hs & Hr). pose proof (dsteps_split _ _ _ _ _ Hs) as E.
    assert (lft = []).
    { destruct Hr as [?|Hr]; [assumption|]. rewrite E, app_length in Hl. destruct lft; [reflexivity|cbn [length] in Hl; lia]. }
    subst lft. rewrite app_nil_r in E. subst pre. split; [reflexivity|]. eexists. apply dsteps_Decoded in Hs; [|exact Ht]. apply decode_enough.
    + exact Hs.
    + apply Decoded_size in Hs. lia.
  - destruct H as (pre & cs & rest & n & -> & Hs & Hb & Hr). do 3 eexists. split.
    + eapply decode_err_from_steps; [exact Ht|exact Hs|exact Hb|].
      pose proof (dsteps_split _ _ _ _ _ Hs) as E. apply dsteps_Decoded in Hs; [|exact Ht]. apply Decoded_size in Hs.
      rewrite E, app_length in Hbig. assert (decode_room e <= 1) by (destruct e; cbn; lia). lia.
    + rewrite frame_prefix. split; [reflexivity|lia].
Qed.
