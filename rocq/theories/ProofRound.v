(* Round trips and related facts about whole texts. *)
From Coq Require Import List NArith Arith Bool Lia ZArith.
From Verif Require Import Tac Encodings RefBig5 RefSjis Spec SpecErrors Prelude RustCore Types ProofUtf8 Engine Search NextEnc NextDec NextUtf8
  TabBig5 TabSjis Tables Units Decide Greedy ModelApi ProofApi Session ProofSession ProofMore.
Import ListNotations.
Local Open Scope N_scope.

(** ** Encoding then decoding *)

Lemma enc_dec_unit e u w : e <> ShiftJISWHATWG -> EncUnit e u w -> DecUnit e w u.
Proof.
  intros He. destruct e; cbn [EncUnit DecUnit]; try congruence.
  1-5: intros (c & Hc & -> & ->); eauto.
  - intros [(c & Hc & -> & ->)|[(c & p & [Hp _] & -> & ->)|(p & Hp & ->)]]; eauto 8.
  - intros (b & c & H & -> & ->). eauto.
Qed.

Lemma Encoded_Decoded e cs bs : e <> ShiftJISWHATWG -> Encoded e cs bs -> Decoded e bs cs.
Proof.
  intros He. induction 1 as [|u w cs bs Hu Hl HE IH]; [constructor|]. constructor; [apply enc_dec_unit; assumption|exact IH].
Qed.

Lemma utf_not_sjis e : is_utf e -> e <> ShiftJISWHATWG.
Proof. intros H ->. exact H. Qed.
Lemma utf_not_big5 e : is_utf e -> e <> Big5WHATWG.
Proof. intros H ->. exact H. Qed.

Lemma dec_enc_unit_utf e w u : is_utf e -> DecUnit e w u -> EncUnit e u w.
Proof. destruct e; intros []; cbn; intros (c & Hc & -> & ->); eauto. Qed.

Lemma longest_e e u l w : e <> Big5WHATWG -> EncUnit e u w -> longest e u l.
Proof. intros He Hu. destruct (enc_unit_single e u w He Hu) as [c Ec]. eapply longest_single; eassumption. Qed.

Lemma Decoded_Encoded_utf e bs cs : is_utf e -> Decoded e bs cs -> Encoded e cs bs.
Proof.
  intros He. induction 1 as [|w u bs cs Hu HD IH]; [constructor|].
  pose proof (dec_enc_unit_utf e w u He Hu) as Hu'. constructor; [exact Hu'| |exact IH].
  eapply longest_e; [apply utf_not_big5, He|exact Hu'].
Qed.

Lemma Decoded_Encoded_single m bs cs : Decoded (Single m) bs cs -> Encoded (Single m) cs bs.
Proof.
  induction 1 as [|w u bs cs Hu HD IH]; [constructor|].
  assert (Hu' : EncUnit (Single m) u w) by (destruct Hu as (b & c & H & -> & ->); exists b, c; auto).
  constructor; [exact Hu'| |exact IH]. eapply longest_e; [discriminate|exact Hu'].
Qed.

Lemma Encoded_injective e a b bs : e <> ShiftJISWHATWG -> Encoded e a bs -> Encoded e b bs -> a = b.
Proof. intros He H1 H2. eapply Decoded_det; eapply Encoded_Decoded; eassumption. Qed.

(** ** Shift JIS *)

Lemma sjis_fold_id c : c <> 0xA5 -> c <> 0x203E -> c <> 0x2212 -> sjis_fold c = c.
Proof. intros. unfold sjis_fold. repeat bcase; lia. Qed.

Lemma jis_plain p c : In (p, c) jis0208_index -> sjis_fold c = c.
Proof.
  intros H. destruct sjis_facts as (_ & _ & _ & _ & F & _). destruct (F p c H) as (X & _). clear -X. unfold sjis_special in X.
  apply sjis_fold_id; lia.
Qed.

Lemma sjis_enc_dec_unit u w : EncUnit ShiftJISWHATWG u w -> DecUnit ShiftJISWHATWG w (map sjis_fold u).
Proof.
  cbn [EncUnit DecUnit].
  intros [(c & Hc & -> & ->)|[(-> & ->)|[(-> & ->)|[(c & Hc & -> & ->)|[(c & Hc & -> & ->)|[(p & Hp & -> & ->)|(c & p & Hp & -> & ->)]]]]]]; cbn [map].
  - left. exists c. rewrite sjis_fold_id by lia. auto.
  - left. exists 0x5C. repeat split. lia.
  - left. exists 0x7E. repeat split. lia.
  - right. left. exists (c - 0xFF61 + 0xA1). rewrite sjis_fold_id by lia. split; [lia|]. split; [reflexivity|]. f_equal. lia.
  - right. right. right. exists (c - 0xE000 + 8836). rewrite sjis_fold_id by lia. split; [lia|]. split; [reflexivity|]. f_equal. lia.
  - right. right. left. exists p, 0xFF0D. destruct Hp as [Hp _]. auto.
  - right. right. left. exists p, c. destruct Hp as [Hp _]. rewrite (jis_plain p c Hp). auto.
Qed.

Lemma sjis_Encoded_Decoded cs bs : Encoded ShiftJISWHATWG cs bs -> Decoded ShiftJISWHATWG bs (map sjis_fold cs).
Proof.
  induction 1 as [|u w cs bs Hu Hl HE IH]; [constructor|]. rewrite map_app. constructor; [apply sjis_enc_dec_unit, Hu|exact IH].
Qed.

(* decoded chars can be encoded and are not folded *)
Lemma sjis_dec_enc_unit w u : DecUnit ShiftJISWHATWG w u -> exists w', EncUnit ShiftJISWHATWG u w' /\ map sjis_fold u = u.
Proof.
  cbn [DecUnit]. intros [(b & Hb & -> & ->)|[(b & Hb & -> & ->)|[(p & c & Hp & -> & ->)|(p & Hp & -> & ->)]]]; cbn [map].
  - exists [b]. split; [left; exists b; auto|]. rewrite sjis_fold_id by lia. reflexivity.
  - exists [b]. split.
    + right. right. right. left. exists (b - 0xA1 + 0xFF61). split; [lia|]. split; [reflexivity|]. f_equal. lia.
    + rewrite sjis_fold_id by lia. reflexivity.
  - destruct sjis_facts as (_ & _ & _ & F4 & F5 & _). destruct (F5 p c Hp) as (X & _ & _ & v & Hv).
    apply F4 in Hv. destruct Hv as (q & Hq & _). exists (sjis_code q). split.
    + do 6 right. exists c, q. auto.
    + rewrite (jis_plain p c Hp). reflexivity.
  - exists (sjis_code p). split.
    + do 4 right. left. exists (p - 8836 + 0xE000). split; [lia|]. split; [reflexivity|]. f_equal. lia.
    + rewrite sjis_fold_id by lia. reflexivity.
Qed.

Lemma sjis_stable bs cs : Decoded ShiftJISWHATWG bs cs -> exists bs', Encoded ShiftJISWHATWG cs bs' /\ Decoded ShiftJISWHATWG bs' cs.
Proof.
  intros HD. assert (X : exists bs', Encoded ShiftJISWHATWG cs bs' /\ map sjis_fold cs = cs).
  { induction HD as [|w u bs cs Hu HD IH]; [exists []; split; [constructor|reflexivity]|].
    destruct IH as (bs' & HE & Hm). destruct (sjis_dec_enc_unit w u Hu) as (w' & Hu' & Hm').
    exists (w' ++ bs'). split; [|rewrite map_app, Hm, Hm'; reflexivity].
    constructor; [exact Hu'| |exact HE]. eapply longest_e; [discriminate|exact Hu']. }
  destruct X as (bs' & HE & Hm). exists bs'. split; [exact HE|]. rewrite <- Hm. apply sjis_Encoded_Decoded, HE.
Qed.

(** ** Big5 *)

Definition mark (c : N) : Prop := c = 0x304 \/ c = 0x30C.

Lemma marks_not_in_index c p : mark c -> ~ In (p, c) big5_index.
Proof.
  intros Hm Hp. destruct big5_facts as (_ & _ & _ & _ & F & _). destruct (F p c Hp) as (_ & _ & v & Hv).
  assert (Hn : assoc big5_encode_table c = None) by (destruct Hm as [->| ->]; vm_compute; reflexivity). congruence.
Qed.

Lemma sequences_marks p c d : In (p, [c; d]) big5_sequences -> mark d.
Proof. unfold big5_sequences, mark. cbn [In]. intros [H|[H|[H|[H|[]]]]]; injection H as <- <- <-; auto. Qed.

Lemma sequence_mark_pair c d : (c = 0xCA \/ c = 0xEA) -> mark d -> exists p, In (p, [c; d]) big5_sequences.
Proof. intros [->| ->] [->| ->]; eexists; cbn; auto 6. Qed.

(* no unit starts with a combining mark *)
Lemma big5_dec_head w c u : DecUnit Big5WHATWG w (c :: u) -> ~ mark c.
Proof.
  intros Hu Hm. cbn [DecUnit] in Hu. destruct Hu as [(b & Hb & -> & E)|[(p & d & Hp & -> & E)|(p & Hp & ->)]].
  - injection E as -> _. unfold mark in Hm. lia.
  - injection E as -> _. exact (marks_not_in_index d p Hm Hp).
  - destruct (sequences_pairs p _ Hp) as (x & y & E). injection E as -> ->. apply sequences_letters in Hp. unfold mark in Hm. lia.
Qed.

Lemma big5_enc_head u w : EncUnit Big5WHATWG u w -> exists c r, u = c :: r /\ ~ mark c.
Proof.
  intros Hu. destruct (enc_unit_shape _ _ _ Hu) as (_ & L & _). apply enc_dec_unit in Hu; [|discriminate].
  destruct u as [|c r]; [cbn in L; lia|]. exists c, r. split; [reflexivity|]. eapply big5_dec_head, Hu.
Qed.

Lemma big5_dec_enc_unit w u : DecUnit Big5WHATWG w u -> exists w', EncUnit Big5WHATWG u w'.
Proof.
  cbn [DecUnit EncUnit]. intros [(b & Hb & -> & ->)|[(p & c & Hp & -> & ->)|(p & Hp & ->)]].
  - exists [b]. left. eauto.
  - destruct big5_facts as (_ & _ & _ & F4 & F5 & _). destruct (F5 p c Hp) as (_ & _ & v & Hv).
    apply F4 in Hv. destruct Hv as (q & Hq & _). exists (big5_code q). right. left. eauto.
  - exists (big5_code p). right. right. eauto.
Qed.

(* a unit not followed by a mark is the longest *)
Lemma big5_longest u w r : EncUnit Big5WHATWG u w -> (forall c r', r = c :: r' -> ~ mark c) -> longest Big5WHATWG u (u ++ r).
Proof.
  intros Hu Hr u' w' Hu' [s Es]. destruct (enc_unit_shape _ _ _ Hu) as (_ & L & _). destruct (enc_unit_shape _ _ _ Hu') as (_ & L' & _).
  destruct u as [|c [|d u]]; cbn [length] in *; [lia| |lia].
  destruct u' as [|c' [|d' u']]; cbn [length] in *; [lia|lia|]. destruct u'; [|cbn in *; lia].
  cbn [app] in Es. apply cons_inj in Es. destruct Es as [<- Es].
  assert (Hp : exists p, In (p, [c; d']) big5_sequences).
  { cbn [EncUnit] in Hu'. destruct Hu' as [(x & _ & E & _)|[(x & p & _ & E & _)|(p & Hp & _)]]; [discriminate E|discriminate E|eauto]. }
  destruct Hp as [p Hp]. apply sequences_marks in Hp. exfalso. exact (Hr d' s Es Hp).
Qed.

Lemma big5_stable bs cs : Decoded Big5WHATWG bs cs -> exists bs', Encoded Big5WHATWG cs bs' /\ Decoded Big5WHATWG bs' cs.
Proof.
  intros HD. assert (X : (exists bs', Encoded Big5WHATWG cs bs') /\ (forall c r, cs = c :: r -> ~ mark c)).
  { induction HD as [|w u bs cs Hu HD IH]; [split; [exists []; constructor|discriminate]|].
    destruct IH as ((bs' & HE) & Hm). destruct (big5_dec_enc_unit w u Hu) as (w' & Hu'). split.
    - exists (w' ++ bs'). constructor; [exact Hu'| |exact HE]. eapply big5_longest; [exact Hu'|]. intros c r E. eapply Hm, E.
    - intros c r E. destruct (dec_unit_shape _ _ _ Hu) as (_ & _ & _ & Hne). destruct u as [|d u]; [congruence|].
      injection E as -> _. eapply big5_dec_head, Hu. }
  destruct X as [(bs' & HE) _]. exists bs'. split; [exact HE|]. apply Encoded_Decoded; [discriminate|exact HE].
Qed.

(* encoding can be cut in front of a char that is not a combining mark *)
Lemma big5_Encoded_cut b : (forall c r, b = c :: r -> ~ mark c) -> forall a s, Encoded Big5WHATWG (a ++ b) s ->
  exists s1 s2, s = s1 ++ s2 /\ Encoded Big5WHATWG a s1 /\ Encoded Big5WHATWG b s2.
Proof.
  intros Hb a s H. remember (a ++ b) as t eqn:Et. revert a Et.
  induction H as [|u w cs bs Hu Hl HE IH]; intros a Et.
  - symmetry in Et. apply app_eq_nil in Et. destruct Et as [-> ->]. exists [], []. repeat split; constructor.
  - destruct (enc_unit_shape _ _ _ Hu) as (_ & L & _).
    destruct (le_lt_dec (length u) (length a)) as [Hle|Hgt].
    + assert (exists a', a = u ++ a' /\ cs = a' ++ b) as (a' & -> & ->).
      { exists (skipn (length u) a). assert (Ef : firstn (length u) (u ++ cs) = firstn (length u) (a ++ b)) by congruence.
        assert (Es : skipn (length u) (u ++ cs) = skipn (length u) (a ++ b)) by congruence.
        rewrite firstn_len_app, firstn_app_le in Ef by assumption. rewrite skipn_len_app, skipn_app_le in Es by assumption.
        split; [rewrite Ef at 1; symmetry; apply firstn_skipn|exact Es]. }
      destruct (IH a' eq_refl) as (s1 & s2 & -> & H1 & H2). exists (w ++ s1), s2. rewrite app_assoc. split; [reflexivity|]. split; [|exact H2].
      constructor; [exact Hu| |exact H1]. rewrite app_assoc in Hl. eapply longest_prefix, Hl.
    + destruct a as [|c a].
      * cbn [app] in Et. subst b. exists [], (w ++ bs). split; [reflexivity|]. split; [constructor|]. constructor; assumption.
      * (* the unit is [c; d] with d the head of b *)
        exfalso. destruct u as [|c' [|d u]]; cbn [length] in *; [lia|lia|]. destruct u; [|cbn [length] in *; lia].
        destruct a as [|x a]; [|cbn [length] in *; lia]. cbn [app] in Et. apply cons_inj in Et. destruct Et as [-> Et].
        assert (Hp : exists p, In (p, [c; d]) big5_sequences).
        { cbn [EncUnit] in Hu. destruct Hu as [(x & _ & E & _)|[(x & p & _ & E & _)|(p & Hp & _)]]; [discriminate E|discriminate E|eauto]. }
        destruct Hp as [p Hp]. apply sequences_marks in Hp. symmetry in Et. exact (Hb d cs Et Hp).
Qed.

(* the combining pairs are always taken together *)
Lemma big5_pair_taken p c d pre post s : In (p, [c; d]) big5_sequences -> Encoded Big5WHATWG (pre ++ [c; d] ++ post) s ->
  exists s1 s2, s = s1 ++ big5_code p ++ s2 /\ Encoded Big5WHATWG pre s1 /\ Encoded Big5WHATWG post s2.
Proof.
  intros Hp H. apply big5_Encoded_cut in H.
  2:{ intros x r E. injection E as -> _. apply sequences_letters in Hp. unfold mark. lia. }
  destruct H as (s1 & s2 & -> & H1 & H2). inversion H2 as [|u w cs bs Hu Hl HE Eq].
  assert (Hpair : EncUnit Big5WHATWG [c; d] (big5_code p)) by (right; right; exists p; auto).
  assert (L : (2 <= length u)%nat).
  { apply (Hl [c; d] (big5_code p) Hpair). exists post. rewrite Eq. reflexivity. }
  destruct u as [|x [|y [|z u]]]; cbn [length] in L; [lia|lia| |].
  - cbn [app] in Eq. apply cons_inj in Eq. destruct Eq as [-> Eq]. apply cons_inj in Eq. destruct Eq as [-> ->].
    exists s1, bs. split; [|split; [exact H1|exact HE]]. f_equal. f_equal.
    cbn [EncUnit] in Hu. destruct Hu as [(x & _ & E & _)|[(x & q & _ & E & _)|(q & Hq & ->)]]; [discriminate E|discriminate E|].
    assert (p = q).
    { clear -Hp Hq. unfold big5_sequences in *. cbn [In] in *.
      destruct Hp as [H|[H|[H|[H|[]]]]]; injection H as <- <- <-; destruct Hq as [H|[H|[H|[H|[]]]]]; injection H as <-; try reflexivity; discriminate. }
    subst. reflexivity.
  - destruct (enc_unit_shape _ _ _ Hu) as (_ & L' & _). cbn [length] in L'. lia.
Qed.

(** ** UTF-8 copies *)

Lemma Decoded_utf8 bs cs : Decoded Utf8 bs cs <-> text cs /\ bs = utf8 cs.
Proof.
  split.
  - induction 1 as [|w u bs cs Hu HD [Ht ->]]; [split; [constructor|reflexivity]|]. destruct Hu as (c & Hc & -> & ->).
    split; [constructor; assumption|]. reflexivity.
  - intros [Ht ->]. induction Ht as [|c cs Hc Ht IH]; [constructor|]. rewrite utf8_cons. apply (Decoded_unit Utf8 (utf8_char c) [c]); [exists c; auto|exact IH].
Qed.

Lemma Encoded_utf8 bs cs : Encoded Utf8 cs bs -> bs = utf8 cs.
Proof. intros H. apply Encoded_Decoded in H; [|discriminate]. apply Decoded_utf8 in H. apply H. Qed.

Lemma utf8_encode_copy ie cs out s n buf : text cs -> encode_from_str Utf8 (utf8 cs) out ie = Ret (Ok (s, n), buf) ->
  s = firstn n (utf8 cs) /\ n = length s /\
  (n = length (utf8 cs) \/ exists pre c post, cs = pre ++ c :: post /\ n = length (utf8 pre) /\ (length out < length (utf8 (pre ++ [c])))%nat).
Proof.
  intros Ht H. destruct (encode_ok_exact _ _ _ _ _ _ _ Ht H) as (pre & post & E & En & HE & _).
  apply Encoded_utf8 in HE. subst s. split; [rewrite E, utf8_app, En, firstn_len_app; reflexivity|]. split; [exact En|].
  destruct post as [|c post]; [left; rewrite E, app_nil_r; exact En|]. right. exists pre, c, post. split; [exact E|]. split; [exact En|].
  destruct (encode_maximal _ _ _ _ _ _ _ pre (c :: post) Ht H E En ltac:(discriminate)) as [(u & w & Hu & [x Hx] & _ & Hlt)|[(_ & X & _)|(Hx & _)]].
  - destruct Hu as (d & Hd & -> & ->). apply cons_inj in Hx. destruct Hx as [<- _]. rewrite utf8_app, utf8_single, app_length. exact Hlt.
  - discriminate X.
  - exfalso. rewrite E in Ht. apply text_app in Ht. destruct Ht as [_ Ht]. inversion Ht; subst.
    apply (Hx [c] (utf8_char c)); [exists c; auto|exists post; reflexivity].
Qed.

Lemma utf8_decode_copy ie bs out r buf : bytes bs -> decode_to_str Utf8 bs out ie = Ret (r, buf) ->
  let n := match r with Ok (_, n) => n | Err er => fst (de_range er) end in
  let s := match r with Ok (s, _) => s | Err er => firstn (de_written er) buf end in
  (n <= length bs)%nat /\ (n <= length out)%nat /\ s = firstn n bs /\ well_formed_utf8 s /\
  forall m, (m <= length bs)%nat -> (m <= length out)%nat -> well_formed_utf8 (firstn m bs) -> (m <= n)%nat.
Proof.
  intros Hb H. destruct (decode_cases _ _ _ _ _ _ Hb H) as (pre & cs & rest & E0 & Hs & Hl & -> & Hc).
  assert (E : match r with Ok (_, n) => n | Err er => fst (de_range er) end = length pre /\
              match r with Ok (s, _) => s | Err er => firstn (de_written er) (frame (utf8 cs) out) end = utf8 cs).
  { destruct Hc as [(-> & _)|(n & _ & _ & ->)]; [auto|]. cbn [de_range fst de_written]. rewrite frame_prefix. auto. }
  cbv zeta. destruct E as [-> ->]. pose proof (dsteps_Decoded _ _ _ _ _ _ Hb Hs) as HD. apply Decoded_utf8 in HD. destruct HD as [Ht Ep].
  subst pre. subst bs. rewrite app_length, firstn_len_app. split; [lia|]. split; [exact Hl|]. split; [reflexivity|]. split; [exists cs; auto|].
  intros m Hm1 Hm2 (cs' & Ht' & Em). destruct (le_lt_dec m (length (utf8 cs))) as [|Hgt]; [assumption|]. exfalso.
  assert (Hs' : dsteps (dec_next Utf8 ie) (utf8 cs ++ rest) (utf8 cs') cs' (skipn m (utf8 cs ++ rest))).
  { rewrite <- (firstn_skipn m (utf8 cs ++ rest)) at 1. rewrite Em. apply Decoded_dsteps. apply Decoded_utf8. auto. }
  assert (Lm : length (utf8 cs') = m) by (rewrite <- Em, firstn_length_le; [reflexivity|rewrite app_length; exact Hm1]).
  destruct (dsteps_linear _ _ _ _ _ _ _ _ Hs Hs') as [(p & c & Hq & Ep & Ec)|(p & c & Hq & Ep & Ec)].
  - inversion Hq as [|? k u p' c' ? En Hq']; subst p c.
    + rewrite app_nil_r in *. subst cs'. lia.
    + rewrite En in Hc. rewrite Ec, !utf8_app, !app_length in Lm. destruct Hc as [(_ & Hc)|(n & X & _)]; [lia|discriminate X].
  - rewrite Ec, utf8_app, app_length in Hgt. lia.
Qed.

(** ** ASCII *)

Lemma ascii_unit e c : ascii_compatible e -> c < 0x80 -> DecUnit e [c] [c] /\ EncUnit e [c] [c].
Proof.
  intros He Hc. destruct e; destruct He; cbn [DecUnit EncUnit].
  - assert (scalar c) by (unfold scalar; lia). assert (utf8_char c = [c]) by (unfold utf8_char; btrue (c <? 0x80); reflexivity).
    split; exists c; auto.
  - split; left; exists c; auto.
  - split; left; exists c; (split; [lia|auto]).
  - assert (In (c, c) (charset m)) by (apply charset_low; auto). split; exists c, c; auto.
Qed.

Lemma ascii_Decoded e cs : ascii_compatible e -> Forall (fun c => c < 0x80) cs -> Decoded e cs cs.
Proof.
  intros He. induction 1 as [|c cs Hc H IH]; [constructor|]. apply (Decoded_unit e [c] [c]); [apply ascii_unit; assumption|exact IH].
Qed.

Lemma ascii_Encoded e cs : ascii_compatible e -> Forall (fun c => c < 0x80) cs -> Encoded e cs cs.
Proof.
  intros He. induction 1 as [|c cs Hc H IH]; [constructor|]. destruct (ascii_unit e c He Hc) as [_ Hu].
  apply (Encoded_unit e [c] [c]); [exact Hu| |exact IH].
  assert (D : e = Big5WHATWG \/ e <> Big5WHATWG) by (destruct e; auto; right; discriminate).
  destruct D as [->|D]; [|eapply longest_e; eassumption].
  eapply big5_longest; [exact Hu|]. intros d r ->. inversion H; subst. unfold mark. lia.
Qed.

Lemma utf8_ascii cs : Forall (fun c => c < 0x80) cs -> utf8 cs = cs.
Proof.
  induction 1 as [|c cs Hc H IH]; [reflexivity|]. rewrite utf8_cons, IH. unfold utf8_char. btrue (c <? 0x80). reflexivity.
Qed.

(** ** Latin-1 *)

Lemma latin1_pairs b c : In (b, c) (charset iso_8859_1) <-> b = c /\ b < 256.
Proof.
  assert (E : charset iso_8859_1 = map (fun i => (N.of_nat i, N.of_nat i)) (seq 0 256)) by (vm_compute; reflexivity).
  rewrite E, in_map_iff. split.
  - intros (i & X & Hi). injection X as <- <-. apply in_seq in Hi. lia.
  - intros [-> H]. exists (N.to_nat c). rewrite N2Nat.id. split; [reflexivity|]. apply in_seq. lia.
Qed.

Lemma latin1_Decoded bs : bytes bs -> Decoded (Single iso_8859_1) bs bs.
Proof.
  induction 1 as [|b bs Hb H IH]; [constructor|]. apply (Decoded_unit _ [b] [b]); [|exact IH].
  exists b, b. split; [apply latin1_pairs; auto|auto].
Qed.

Lemma latin1_Encoded cs s : Encoded (Single iso_8859_1) cs s <-> s = cs /\ Forall (fun c => c < 256) cs.
Proof.
  split.
  - intros H. assert (HD : Decoded (Single iso_8859_1) s cs) by (apply Encoded_Decoded; [discriminate|exact H]).
    destruct (Decoded_text _ _ _ HD) as [_ Hb]. assert (s = cs) by (symmetry; eapply Decoded_det; [exact HD|apply latin1_Decoded, Hb]).
    subst. auto.
  - intros [-> H]. apply Decoded_Encoded_single, latin1_Decoded, H.
Qed.

(** ** Errors and ASCII *)

Lemma undecodable_not_ascii e b r : ascii_compatible e -> Undecodable e (b :: r) -> 0x80 <= b.
Proof.
  intros He H. destruct (N.lt_ge_cases b 0x80) as [L|L]; [|exact L]. exfalso.
  apply (H [b] [b]); [apply ascii_unit; assumption|exists r; reflexivity].
Qed.

Lemma nth_skipn {A} (l : list A) a i : (a <= i)%nat -> nth_error l i = nth_error (skipn a l) (i - a).
Proof.
  revert l i. induction a as [|a IH]; intros l i H; [cbn; f_equal; lia|]. destruct i as [|i]; [lia|].
  destruct l as [|x l]; [cbn; destruct (i - a)%nat; reflexivity|]. cbn [skipn nth_error Nat.sub]. apply IH. lia.
Qed.
