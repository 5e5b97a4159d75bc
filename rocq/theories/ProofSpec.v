(* Proofs of the complete specification of the calls. *)
From Coq Require Import List NArith Arith Bool Lia.
From Verif Require Import Encodings Spec SpecErrors SpecCalls Prelude RustCore Types ModelApi.
From Verif Require Import Tac Engine Search Tables Units Decide Greedy ProofUtf8 ProofApi.
Import ListNotations.
Local Open Scope nat_scope.

Lemma settled_next e ie u w post : text (u ++ post) -> EncUnit e u w -> settled e ie u (u ++ post) ->
  enc_next e ie (u ++ post) = EUnit (length u) w.
Proof.
  intros Ht Hu [Hl Hs]. pose proof (enc_unit_next e u w post Hu Hl) as E. destruct ie; [exact E|].
  destruct (enc_next_final e (u ++ post)) as [X|X]; [congruence|]. exfalso.
  pose proof (enc_next_facts e false (u ++ post)) as F. rewrite X in F. destruct F as (_ & -> & F).
  specialize (Hs eq_refl [0x304]%N). assert (Hm : text [0x304]%N) by (repeat constructor; unfold scalar; lia).
  specialize (Hs Hm). destruct (enc_unit_shape _ _ _ Hu) as (_ & Hlen & _).
  assert (Hlu : length u = 1). { destruct F as [F|F]; apply (f_equal (@length N)) in F; rewrite app_length in F; cbn [length] in F; lia. }
  destruct F as [F|F]; rewrite F in Hs.
  - specialize (Hs [0xCA; 0x304]%N (big5_code 1133)). rewrite Hlu in Hs. cbn [length] in Hs.
    assert (2 <= 1); [|lia]. apply Hs; [right; right; exists 1133%N; split; [cbn; auto|reflexivity]|exists []; reflexivity].
  - specialize (Hs [0xEA; 0x304]%N (big5_code 1164)). rewrite Hlu in Hs. cbn [length] in Hs.
    assert (2 <= 1); [|lia]. apply Hs; [right; right; exists 1164%N; split; [cbn; auto|reflexivity]|exists []; reflexivity].
Qed.

Lemma next_settled e ie cs k w : text cs -> enc_next e ie cs = EUnit k w -> settled e ie (firstn k cs) cs.
Proof.
  intros Ht H. destruct (enc_next_unit e ie cs k w Ht H) as (Hk & Hu & Hl). split; [exact Hl|].
  intros -> more Hm. assert (Hne : cs <> []) by (intros ->; cbn in Hk; lia).
  pose proof (enc_next_app e true cs more Hne) as X. rewrite H in X.
  destruct (enc_next_unit e true (cs ++ more) k w) as (_ & _ & Hl2); [apply text_app; auto|exact X|].
  rewrite firstn_app_le in Hl2 by lia. exact Hl2.
Qed.

Lemma Taken_esteps e ie pre s rest : Taken e ie pre s rest -> text (pre ++ rest) -> esteps (enc_next e ie) (pre ++ rest) pre s rest.
Proof.
  induction 1 as [rest|u w pre s rest Hu Hs H IH]; intros Ht; [constructor|]. rewrite <- app_assoc in Ht. rewrite <- app_assoc.
  assert (E : u ++ pre = firstn (length u) (u ++ pre ++ rest) ++ pre) by (rewrite firstn_len_app; reflexivity).
  rewrite E. apply (esteps_unit _ _ (length u)); [apply settled_next; assumption|]. rewrite skipn_len_app. apply IH.
  apply text_app in Ht. apply Ht.
Qed.

Lemma esteps_Taken e ie cs pre s rest : esteps (enc_next e ie) cs pre s rest -> text cs -> Taken e ie pre s rest.
Proof.
  induction 1 as [cs|cs k w pre s rest Hn Hs IH]; intros Ht; [constructor|].
  destruct (enc_next_unit e ie cs k w Ht Hn) as (Hk & Hu & _). constructor; [exact Hu| |apply IH, text_skipn, Ht].
  rewrite <- (esteps_split _ _ _ _ _ Hs), firstn_skipn. eapply next_settled; eassumption.
Qed.

Lemma esteps_unique next cs p1 b1 r1 p2 b2 r2 size :
  esteps next cs p1 b1 r1 -> esteps next cs p2 b2 r2 -> length b1 <= size -> length b2 <= size ->
  (forall k w, next r1 = EUnit k w -> size < length b1 + length w) -> (forall k w, next r2 = EUnit k w -> size < length b2 + length w) ->
  p1 = p2 /\ b1 = b2 /\ r1 = r2.
Proof.
  intros H1 H2 L1 L2 S1 S2. destruct (esteps_linear _ _ _ _ _ _ _ _ H1 H2) as [(p & b & H & -> & ->)|(p & b & H & -> & ->)].
  - destruct (esteps_nonempty _ _ _ _ _ H) as [(-> & -> & ->)|(k & w & E & (x & ->))]; [rewrite !app_nil_r; auto|].
    specialize (S1 k w E). rewrite !app_length in L2. lia.
  - destruct (esteps_nonempty _ _ _ _ _ H) as [(-> & -> & ->)|(k & w & E & (x & ->))]; [rewrite !app_nil_r; auto|].
    specialize (S2 k w E). rewrite !app_length in L1. lia.
Qed.

Lemma dsteps_nonempty next bs p c r : dsteps next bs p c r -> (p = [] /\ c = [] /\ r = bs) \/ exists k u, next bs = DUnit k u /\ prefix u c.
Proof. destruct 1 as [bs|bs k u p c r E H]; [auto|]. right. exists k, u. split; [exact E|exists c; reflexivity]. Qed.

Lemma dsteps_unique next bs p1 c1 r1 p2 c2 r2 size :
  dsteps next bs p1 c1 r1 -> dsteps next bs p2 c2 r2 -> length (utf8 c1) <= size -> length (utf8 c2) <= size ->
  (forall k u, next r1 = DUnit k u -> size < length (utf8 c1) + length (utf8 u)) ->
  (forall k u, next r2 = DUnit k u -> size < length (utf8 c2) + length (utf8 u)) ->
  p1 = p2 /\ c1 = c2 /\ r1 = r2.
Proof.
  intros H1 H2 L1 L2 S1 S2. destruct (dsteps_linear _ _ _ _ _ _ _ _ H1 H2) as [(p & b & H & -> & ->)|(p & b & H & -> & ->)].
  - destruct (dsteps_nonempty _ _ _ _ _ H) as [(-> & -> & ->)|(k & w & E & (x & ->))]; [rewrite !app_nil_r; auto|].
    specialize (S1 k w E). rewrite !utf8_app, !app_length in L2. lia.
  - destruct (dsteps_nonempty _ _ _ _ _ H) as [(-> & -> & ->)|(k & w & E & (x & ->))]; [rewrite !app_nil_r; auto|].
    specialize (S2 k w E). rewrite !utf8_app, !app_length in L1. lia.
Qed.

Lemma ErrorLength_unique e bs n n' : ErrorLength e bs n -> ErrorLength e bs n' -> n = n'.
Proof.
  intros [Hn H] [Hn' H']. destruct (Nat.eq_dec n n') as [|D]; [assumption|exfalso].
  destruct e.
  - destruct H as [HI H], H' as [HI' H'].
    assert (NI : ~ Incomplete Utf8 bs) by (intros I; apply D; rewrite (HI I), (HI' I); reflexivity).
    destruct (H NI) as [A B], (H' NI) as [A' B'].
    destruct (Nat.lt_total n n') as [L|[L|L]]; [|congruence|].
    + destruct (nth_error bs n) as [b|] eqn:Eb; [apply (B b eq_refl), (A' n); [lia|exact Eb]|]. apply nth_error_None in Eb. lia.
    + destruct (nth_error bs n') as [b|] eqn:Eb; [apply (B' b eq_refl), (A n'); [lia|exact Eb]|]. apply nth_error_None in Eb. lia.
  - destruct H as [HI H], H' as [HI' H']. assert (NI : ~ Incomplete Utf16BE bs) by (intros I; apply D; rewrite (HI I), (HI' I); reflexivity).
    rewrite (H NI), (H' NI) in D. congruence.
  - destruct H as [HI H], H' as [HI' H']. assert (NI : ~ Incomplete Utf16LE bs) by (intros I; apply D; rewrite (HI I), (HI' I); reflexivity).
    rewrite (H NI), (H' NI) in D. congruence.
  - destruct H as [HI H], H' as [HI' H']. assert (NI : ~ Incomplete Utf32BE bs) by (intros I; apply D; rewrite (HI I), (HI' I); reflexivity).
    rewrite (H NI), (H' NI) in D. congruence.
  - destruct H as [HI H], H' as [HI' H']. assert (NI : ~ Incomplete Utf32LE bs) by (intros I; apply D; rewrite (HI I), (HI' I); reflexivity).
    rewrite (H NI), (H' NI) in D. congruence.
  - destruct H as [[-> X]|[-> X]], H' as [[-> Y]|[-> Y]]; auto.
  - destruct H as [[-> X]|[-> X]], H' as [[-> Y]|[-> Y]]; auto.
  - congruence.
Qed.

(* what the decision functions answer at the places where a call may stop *)
Definition enc_stops (e : encoding) (size : nat) (pre s : list N) (rest : list N) (a : eact) (r : encode_result) : Prop :=
  match a with
  | EEnd | EHold => r = Ok (s, length (utf8 pre))
  | EBad c => if length s + encode_room e <=? size
              then r = Err (EncodeError c (length (utf8 pre), length (utf8 pre) + length (utf8_char c)) (length s))
              else r = Ok (s, length (utf8 pre))
  | EUnit k w => size < length s + length w /\ r = Ok (s, length (utf8 pre))
  end.

Lemma unencodable_next e ie c post : Unencodable e (c :: post) -> text (c :: post) -> enc_next e ie (c :: post) = EBad c.
Proof.
  intros Hu Ht. pose proof (enc_next_facts e ie (c :: post)) as F. destruct (enc_next e ie (c :: post)) as [| |d|k w] eqn:E.
  - discriminate F.
  - exfalso. destruct F as (-> & -> & F).
    assert (X : exists w, enc_next Big5WHATWG true (c :: post) = EUnit 1 w).
    { destruct F as [F|F]; rewrite F; eexists; vm_compute; reflexivity. }
    destruct X as [w X]. destruct (enc_next_unit _ _ _ _ _ Ht X) as (_ & Hw & _). apply (Hu _ _ Hw). exists (skipn 1 (c :: post)). symmetry. apply firstn_skipn.
  - destruct F as [r F]. injection F as -> ->. reflexivity.
  - exfalso. destruct (enc_next_unit _ _ _ _ _ Ht E) as (_ & Hw & _). apply (Hu _ _ Hw). eexists. symmetry. apply firstn_skipn.
Qed.

Lemma EncodeStop_iff e ie size pre s rest r : text rest ->
  EncodeStop e ie size pre s rest r <-> enc_stops e size pre s rest (enc_next e ie rest) r.
Proof.
  intros Ht. split.
  - intros H. destruct H as [|u w post Hu Hs Hl|u w post Hu Hs Hl|c post Hu Hl|c post Hu Hl].
    + rewrite enc_next_nil. reflexivity.
    + rewrite (settled_next e ie u w post Ht Hu Hs). split; [exact Hl|reflexivity].
    + destruct (enc_next_final e (u ++ post)) as [E|E].
      * exfalso. apply Hl. pose proof (enc_unit_next e u w post Hu Hs) as X.
        assert (Y : enc_next e ie (u ++ post) = EUnit (length u) w) by (destruct ie; congruence).
        pose proof (next_settled e ie _ _ _ Ht Y) as Z. rewrite firstn_len_app in Z. exact Z.
      * destruct ie; [|rewrite E; reflexivity]. exfalso. apply Hl. split; [exact Hs|discriminate].
    + rewrite unencodable_next by assumption. cbn. destruct (Nat.leb_spec (length s + encode_room e) size); [lia|reflexivity].
    + rewrite unencodable_next by assumption. cbn. destruct (Nat.leb_spec (length s + encode_room e) size); [reflexivity|lia].
  - pose proof (enc_next_facts e ie rest) as F. destruct (enc_next e ie rest) as [| |c|k w] eqn:E; cbn [enc_stops enc_facts] in *.
    + intros ->. subst rest. constructor.
    + intros ->. destruct F as (-> & -> & F).
      assert (X : exists w, enc_next Big5WHATWG true rest = EUnit 1 w).
      { destruct F as [F|F]; rewrite F; eexists; vm_compute; reflexivity. }
      destruct X as [w X]. destruct (enc_next_unit _ _ _ _ _ Ht X) as (_ & Hw & Hl).
      rewrite <- (firstn_skipn 1 rest) at 1. apply (stop_wait _ _ _ _ _ _ w); [exact Hw|rewrite firstn_skipn; exact Hl|].
      intros S. pose proof (settled_next Big5WHATWG false (firstn 1 rest) w (skipn 1 rest)) as Y. rewrite firstn_skipn in Y, S.
      specialize (Y Ht Hw S). congruence.
    + destruct F as [post ->]. destruct (Nat.leb_spec (length s + encode_room e) size) as [L|L]; intros ->; constructor; try assumption;
        eapply enc_bad_unencodable; eassumption.
    + intros [L ->]. destruct (enc_next_unit _ _ _ _ _ Ht E) as (_ & Hw & _). pose proof (next_settled e ie _ _ _ Ht E) as S.
      rewrite <- (firstn_skipn k rest) at 1. apply (stop_full _ _ _ _ _ _ w); [exact Hw|rewrite firstn_skipn; exact S|exact L].
Qed.

Lemma undecodable_next e ie rest : Undecodable e rest -> bytes rest -> rest <> [] ->
  (dec_next e ie rest = DHold /\ ie = false /\ Incomplete e rest) \/
  (exists k, dec_next e ie rest = DBad k /\ ErrorLength e rest k /\ (ie = false -> ~ Incomplete e rest)).
Proof.
  intros Hu Hb Hne. pose proof (dec_next_facts e ie rest Hb) as F. destruct (dec_next e ie rest) as [| |k|k u] eqn:E; cbn [dec_facts] in F.
  - contradiction.
  - left. destruct F as (F1 & _ & F2). auto.
  - right. exists k. destruct F. auto.
  - exfalso. destruct (dec_next_unit _ _ _ _ _ Hb E) as [_ Hw]. apply (Hu _ _ Hw). eexists. symmetry. apply firstn_skipn.
Qed.

Definition dec_stops (e : encoding) (size n : nat) (cs : list N) (a : dact) (r : decode_result) : Prop :=
  match a with
  | DEnd | DHold => r = Ok (utf8 cs, n)
  | DBad k => if length (utf8 cs) + decode_room e <=? size
              then r = Err (DecodeError InvalidData (n, n + k) (length (utf8 cs)))
              else r = Ok (utf8 cs, n)
  | DUnit k u => size < length (utf8 cs) + length (utf8 u) /\ r = Ok (utf8 cs, n)
  end.

Lemma incomplete_nonempty e rest : Incomplete e rest -> rest <> [].
Proof.
  destruct e; cbn; intros H ->; try (destruct H as [H|H]; [discriminate|]); try (decompose record H; discriminate); cbn in H; lia.
Qed.

Lemma DecodeStop_iff e ie size n cs rest r : bytes rest ->
  DecodeStop e ie size n cs rest r <-> dec_stops e size n cs (dec_next e ie rest) r.
Proof.
  intros Hb. split.
  - intros H. destruct H as [|w u post Hu Hl|rest -> Hu Hi|rest Hne Hu Hl|rest k Hne Hu Hi Hk Hl].
    + rewrite dec_next_nil. reflexivity.
    + rewrite (dec_unit_next e w u post ie Hu). split; [exact Hl|reflexivity].
    + destruct (undecodable_next e false rest Hu Hb (incomplete_nonempty e rest Hi)) as [(-> & _)|(k & _ & _ & X)]; [reflexivity|].
      exfalso. exact (X eq_refl Hi).
    + destruct (undecodable_next e ie rest Hu Hb Hne) as [(-> & _)|(k & -> & _ & X)]; [reflexivity|].
      cbn. destruct (Nat.leb_spec (length (utf8 cs) + decode_room e) size); [lia|reflexivity].
    + destruct (undecodable_next e ie rest Hu Hb Hne) as [(_ & -> & X)|(k' & -> & Hk' & X)]; [exfalso; exact (Hi eq_refl X)|].
      cbn. destruct (Nat.leb_spec (length (utf8 cs) + decode_room e) size); [|lia]. rewrite (ErrorLength_unique e rest k k' Hk Hk'). reflexivity.
  - pose proof (dec_next_facts e ie rest Hb) as F. destruct (dec_next e ie rest) as [| |k|k u] eqn:E; cbn [dec_stops dec_facts] in *.
    + intros ->. subst rest. constructor.
    + intros ->. destruct F as (-> & _ & F). apply dstop_wait; [reflexivity| |exact F]. apply (dec_bad_undecodable e false). congruence.
    + destruct F as [F1 F2]. assert (Hne : rest <> []) by (intros ->; destruct F1 as [F1 _]; cbn in F1; lia).
      assert (Hu : Undecodable e rest) by (apply (dec_bad_undecodable e ie); congruence).
      destruct (Nat.leb_spec (length (utf8 cs) + decode_room e) size) as [L|L]; intros ->; [apply dstop_error|apply dstop_no_room]; assumption.
    + intros [L ->]. destruct (dec_next_unit _ _ _ _ _ Hb E) as [_ Hw].
      rewrite <- (firstn_skipn k rest) at 1. apply (dstop_full _ _ _ _ _ _ u); [exact Hw|exact L].
Qed.

Lemma enc_stops_unique e size pre s rest a r r' : enc_stops e size pre s rest a r -> enc_stops e size pre s rest a r' -> r = r'.
Proof.
  destruct a; cbn; [congruence|congruence| |intros [_ H] [_ H']; congruence]. destruct (_ <=? _); congruence.
Qed.

Lemma dec_stops_unique e size n cs a r r' : dec_stops e size n cs a r -> dec_stops e size n cs a r' -> r = r'.
Proof.
  destruct a; cbn; [congruence|congruence| |intros [_ H] [_ H']; congruence]. destruct (_ <=? _); congruence.
Qed.

Lemma encode_sound e ie cs out r buf : text cs -> encode_from_str e (utf8 cs) out ie = Ret (r, buf) -> EncodeCall e cs out ie r buf.
Proof.
  intros Ht H. destruct (encode_cases _ _ _ _ _ _ Ht H) as (pre & s & rest & Ecs & Hs & Hl & -> & C).
  destruct (esteps_rest_text _ _ _ _ _ _ Ht Hs) as [_ Hr].
  apply (encode_call _ _ _ _ pre s rest); [exact Ecs|exact (esteps_Taken _ _ _ _ _ _ Hs Ht)|exact Hl|].
  apply EncodeStop_iff; [exact Hr|]. destruct C as [[-> C]|(c & post & _ & -> & L & ->)].
  - destruct (enc_next e ie rest) as [| |c|k w]; cbn; [reflexivity|reflexivity| |auto].
    destruct (Nat.leb_spec (length s + encode_room e) (length out)); [lia|reflexivity].
  - cbn. destruct (Nat.leb_spec (length s + encode_room e) (length out)); [reflexivity|lia].
Qed.

Lemma EncodeCall_unique e ie cs out r buf r' buf' : text cs ->
  EncodeCall e cs out ie r buf -> EncodeCall e cs out ie r' buf' -> r = r' /\ buf = buf'.
Proof.
  intros Ht H H'. destruct H as [pre s rest r E T L S], H' as [pre' s' rest' r' E' T' L' S'].
  assert (X : esteps (enc_next e ie) cs pre s rest) by (rewrite E; apply Taken_esteps; [exact T|congruence]).
  assert (X' : esteps (enc_next e ie) cs pre' s' rest') by (rewrite E'; apply Taken_esteps; [exact T'|congruence]).
  apply EncodeStop_iff in S; [|apply (esteps_rest_text _ _ _ _ _ _ Ht X)]. apply EncodeStop_iff in S'; [|apply (esteps_rest_text _ _ _ _ _ _ Ht X')].
  destruct (esteps_unique _ _ _ _ _ _ _ _ (length out) X X' L L') as (<- & <- & <-).
  - intros k w En. rewrite En in S. apply S.
  - intros k w En. rewrite En in S'. apply S'.
  - split; [exact (enc_stops_unique _ _ _ _ _ _ _ _ S S')|reflexivity].
Qed.

Lemma decode_sound e ie bs out r buf : bytes bs -> decode_to_str e bs out ie = Ret (r, buf) -> DecodeCall e bs out ie r buf.
Proof.
  intros Hb H. destruct (decode_cases _ _ _ _ _ _ Hb H) as (pre & cs & rest & Ebs & Hs & Hl & -> & C).
  destruct (dsteps_rest_bytes _ _ _ _ _ _ Hb Hs) as (_ & Hr & _).
  apply (decode_call _ _ _ _ pre cs rest); [exact Ebs|exact (dsteps_Decoded _ _ _ _ _ _ Hb Hs)|exact Hl|].
  apply DecodeStop_iff; [exact Hr|]. destruct C as [[-> C]|(k & -> & L & ->)].
  - destruct (dec_next e ie rest) as [| |k|k w]; cbn; [reflexivity|reflexivity| |auto].
    destruct (Nat.leb_spec (length (utf8 cs) + decode_room e) (length out)); [lia|reflexivity].
  - cbn. destruct (Nat.leb_spec (length (utf8 cs) + decode_room e) (length out)); [reflexivity|lia].
Qed.

Lemma DecodeCall_unique e ie bs out r buf r' buf' : bytes bs ->
  DecodeCall e bs out ie r buf -> DecodeCall e bs out ie r' buf' -> r = r' /\ buf = buf'.
Proof.
  intros Hb H H'. destruct H as [pre cs rest r E T L S], H' as [pre' cs' rest' r' E' T' L' S'].
  pose proof (Decoded_dsteps e ie pre cs rest T) as X. rewrite <- E in X. pose proof (Decoded_dsteps e ie pre' cs' rest' T') as X'. rewrite <- E' in X'.
  apply DecodeStop_iff in S; [|apply (dsteps_rest_bytes _ _ _ _ _ _ Hb X)]. apply DecodeStop_iff in S'; [|apply (dsteps_rest_bytes _ _ _ _ _ _ Hb X')].
  destruct (dsteps_unique _ _ _ _ _ _ _ _ (length out) X X' L L') as (<- & <- & <-).
  - intros k w En. rewrite En in S. apply S.
  - intros k w En. rewrite En in S'. apply S'.
  - split; [exact (dec_stops_unique _ _ _ _ _ _ _ S S')|reflexivity].
Qed.
