(* Greedy iterations of the decision functions against the specification of whole texts. *)
From Coq Require Import List NArith Arith Bool Lia ZArith.
From Verif Require Import Tac Encodings Spec SpecErrors Prelude RustCore Types ProofUtf8 Engine NextEnc NextDec NextUtf8 Units Decide.
Import ListNotations.
Local Open Scope nat_scope.

Lemma enc_next_nil e is_end : enc_next e is_end [] = EEnd.
Proof. destruct e; reflexivity. Qed.

Ltac enil := match goal with H : enc_next _ _ [] = _ |- _ => rewrite enc_next_nil in H; discriminate H end.
Ltac dnil := match goal with H : dec_next _ _ [] = _ |- _ => rewrite dec_next_nil in H; discriminate H end.

(** ** Encoding *)

Lemma esteps_split next cs pre bs rest : esteps next cs pre bs rest -> cs = pre ++ rest.
Proof.
  induction 1 as [|cs k w pre bs rest Hn Hs IH]; [reflexivity|].
  rewrite <- app_assoc, <- IH, firstn_skipn. reflexivity.
Qed.

Lemma esteps_app next cs pre bs rest pre' bs' rest' :
  esteps next cs pre bs rest -> esteps next rest pre' bs' rest' -> esteps next cs (pre ++ pre') (bs ++ bs') rest'.
Proof.
  induction 1 as [|cs k w pre bs rest Hn Hs IH]; intros H; [exact H|].
  rewrite <- !app_assoc. econstructor; [exact Hn|apply IH, H].
Qed.

(* two runs from the same text: one continues the other *)
Lemma esteps_linear next cs p1 b1 r1 p2 b2 r2 :
  esteps next cs p1 b1 r1 -> esteps next cs p2 b2 r2 ->
  (exists p b, esteps next r1 p b r2 /\ p2 = p1 ++ p /\ b2 = b1 ++ b) \/
  (exists p b, esteps next r2 p b r1 /\ p1 = p2 ++ p /\ b1 = b2 ++ b).
Proof.
  intros H1. revert p2 b2 r2. induction H1 as [cs|cs k w pre bs rest Hn Hs IH]; intros p2 b2 r2 H2.
  - left. exists p2, b2. auto.
  - inversion H2 as [|? k' w' pre' bs' ? Hn' Hs']; subst.
    + right. exists (firstn k r2 ++ pre), (w ++ bs). split; [econstructor; eassumption|auto].
    + rewrite Hn in Hn'. injection Hn' as <- <-. destruct (IH _ _ _ Hs') as [(p & b & Hp & -> & ->)|(p & b & Hp & -> & ->)].
      * left. exists p, b. rewrite <- !app_assoc. auto.
      * right. exists p, b. rewrite <- !app_assoc. auto.
Qed.

Lemma esteps_nonempty next cs p b r : esteps next cs p b r -> (p = [] /\ b = [] /\ r = cs) \/ exists k w, next cs = EUnit k w /\ prefix w b.
Proof.
  intros H. inversion H; subst; [auto|]. right. do 2 eexists. split; [eassumption|]. eexists. reflexivity.
Qed.

Lemma text_app a b : text (a ++ b) <-> text a /\ text b.
Proof. apply Forall_app. Qed.

Lemma text_skipn k cs : text cs -> text (skipn k cs).
Proof. intros H. rewrite <- (firstn_skipn k cs) in H. apply text_app in H. apply H. Qed.

Lemma firstn_app_le {A} k (a b : list A) : k <= length a -> firstn k (a ++ b) = firstn k a.
Proof. intros. rewrite firstn_app. replace (k - length a) with 0 by lia. cbn. apply app_nil_r. Qed.

Lemma skipn_app_le {A} k (a b : list A) : k <= length a -> skipn k (a ++ b) = skipn k a ++ b.
Proof. intros. rewrite skipn_app. replace (k - length a) with 0 by lia. reflexivity. Qed.

(* the same steps when more text follows *)
Lemma esteps_more e is_end cs pre bs rest more : text cs ->
  esteps (enc_next e false) cs pre bs rest -> esteps (enc_next e is_end) (cs ++ more) pre bs (rest ++ more).
Proof.
  intros Ht H. induction H as [|cs k w pre bs rest Hn Hs IH]; [constructor|].
  destruct (enc_next_unit e false cs k w Ht Hn) as (Hk & _).
  rewrite <- (firstn_app_le k cs more) by lia. econstructor.
  - assert (Hne : cs <> []) by (intros ->; cbn in Hk; lia).
    pose proof (enc_next_app e is_end cs more Hne) as Ha. rewrite Hn in Ha. exact Ha.
  - rewrite skipn_app_le by lia. apply IH, text_skipn, Ht.
Qed.

Lemma esteps_final e cs pre bs rest : text cs -> esteps (enc_next e false) cs pre bs rest -> esteps (enc_next e true) cs pre bs rest.
Proof. intros Ht H. rewrite <- (app_nil_r cs), <- (app_nil_r rest). apply esteps_more; assumption. Qed.

Lemma esteps_to_final e is_end cs pre bs rest : text cs -> esteps (enc_next e is_end) cs pre bs rest -> esteps (enc_next e true) cs pre bs rest.
Proof. destruct is_end; [auto|apply esteps_final]. Qed.

Lemma longest_prefix e u l l' : longest e u (l ++ l') -> longest e u l.
Proof. intros H u' w' Hu [s ->]. apply (H u' w' Hu). exists (s ++ l'). rewrite app_assoc. reflexivity. Qed.

(* steps compose with any encoding of what is left *)
Lemma esteps_Encoded e cs pre bs rest bs' : text cs ->
  esteps (enc_next e true) cs pre bs rest -> Encoded e rest bs' -> Encoded e cs (bs ++ bs').
Proof.
  intros Ht H. induction H as [|cs k w pre bs rest Hn Hs IH]; intros HE; [exact HE|].
  destruct (enc_next_unit e true cs k w Ht Hn) as (Hk & Hu & Hl).
  rewrite <- (firstn_skipn k cs) at 1. rewrite <- app_assoc. constructor.
  - exact Hu.
  - rewrite firstn_skipn. exact Hl.
  - apply IH; [apply text_skipn, Ht|exact HE].
Qed.

Lemma esteps_Encoded_pre e cs pre bs rest : text cs -> esteps (enc_next e true) cs pre bs rest -> Encoded e pre bs.
Proof.
  intros Ht H. induction H as [|cs k w pre bs rest Hn Hs IH]; [constructor|].
  destruct (enc_next_unit e true cs k w Ht Hn) as (Hk & Hu & Hl).
  constructor; [exact Hu| |apply IH, text_skipn, Ht].
  apply longest_prefix with (l' := rest). rewrite <- app_assoc. apply esteps_split in Hs. rewrite <- Hs, firstn_skipn. exact Hl.
Qed.

Lemma Encoded_esteps e cs bs : Encoded e cs bs -> esteps (enc_next e true) cs cs bs [].
Proof.
  induction 1 as [|u w cs bs Hu Hl HE IH]; [constructor|].
  pose proof (enc_unit_next e u w cs Hu Hl) as Hn.
  rewrite <- (firstn_app_exact u cs) at 2. econstructor; [exact Hn|].
  rewrite skipn_app, Nat.sub_diag, skipn_all. exact IH.
Qed.

Lemma Encoded_text e cs bs : Encoded e cs bs -> text cs /\ bytes bs.
Proof.
  induction 1 as [|u w cs bs Hu Hl HE IH]; [split; constructor|].
  destruct (enc_unit_shape e u w Hu) as (H1 & _ & H2 & _). destruct IH as [I1 I2].
  split; [apply text_app; auto|apply bytes_app; auto].
Qed.

Lemma Encoded_det e cs b1 b2 : Encoded e cs b1 -> Encoded e cs b2 -> b1 = b2.
Proof.
  intros H1 H2. apply Encoded_esteps in H1. apply Encoded_esteps in H2.
  destruct (esteps_linear _ _ _ _ _ _ _ _ H1 H2) as [(p & b & Hs & Ep & Eb)|(p & b & Hs & Ep & Eb)];
    inversion Hs; subst; try (enil); rewrite app_nil_r in *; congruence.
Qed.

(* an encoding of the whole text continues the steps *)
Lemma Encoded_after e cs pre bs rest all : esteps (enc_next e true) cs pre bs rest -> Encoded e cs all -> text cs ->
  exists bs', all = bs ++ bs' /\ Encoded e rest bs'.
Proof.
  intros H1 H2 Ht. apply Encoded_esteps in H2.
  destruct (esteps_linear _ _ _ _ _ _ _ _ H1 H2) as [(p & b & Hs & Ep & Eb)|(p & b & Hs & Ep & Eb)].
  - exists b. split; [exact Eb|]. pose proof (esteps_split _ _ _ _ _ Hs) as E. rewrite app_nil_r in E. subst p.
    rewrite <- (app_nil_r b). eapply esteps_Encoded; [|exact Hs|constructor].
    apply esteps_split in H1. subst cs. apply text_app in Ht. apply Ht.
  - inversion Hs; subst; [|enil]. exists []. rewrite !app_nil_r in *. split; [auto|constructor].
Qed.

Lemma Encoded_app_inv e cs pre bs rest : text cs -> esteps (enc_next e true) cs pre bs rest ->
  (exists all, Encoded e cs all) -> exists bs', Encoded e rest bs'.
Proof. intros Ht H [all Ha]. destruct (Encoded_after _ _ _ _ _ _ H Ha Ht) as (b & _ & Hb). eauto. Qed.

(** ** Decoding *)

Lemma dsteps_split next bs pre cs rest : dsteps next bs pre cs rest -> bs = pre ++ rest.
Proof.
  induction 1 as [|bs k u pre cs rest Hn Hs IH]; [reflexivity|].
  rewrite <- app_assoc, <- IH, firstn_skipn. reflexivity.
Qed.

Lemma dsteps_app next bs pre cs rest pre' cs' rest' :
  dsteps next bs pre cs rest -> dsteps next rest pre' cs' rest' -> dsteps next bs (pre ++ pre') (cs ++ cs') rest'.
Proof.
  induction 1 as [|bs k u pre cs rest Hn Hs IH]; intros H; [exact H|].
  rewrite <- !app_assoc. econstructor; [exact Hn|apply IH, H].
Qed.

Lemma dsteps_linear next bs p1 c1 r1 p2 c2 r2 :
  dsteps next bs p1 c1 r1 -> dsteps next bs p2 c2 r2 ->
  (exists p c, dsteps next r1 p c r2 /\ p2 = p1 ++ p /\ c2 = c1 ++ c) \/
  (exists p c, dsteps next r2 p c r1 /\ p1 = p2 ++ p /\ c1 = c2 ++ c).
Proof.
  intros H1. revert p2 c2 r2. induction H1 as [bs|bs k u pre cs rest Hn Hs IH]; intros p2 c2 r2 H2.
  - left. exists p2, c2. auto.
  - inversion H2 as [|? k' u' pre' cs' ? Hn' Hs']; subst.
    + right. exists (firstn k r2 ++ pre), (u ++ cs). split; [econstructor; eassumption|auto].
    + rewrite Hn in Hn'. injection Hn' as <- <-. destruct (IH _ _ _ Hs') as [(p & c & Hp & -> & ->)|(p & c & Hp & -> & ->)].
      * left. exists p, c. rewrite <- !app_assoc. auto.
      * right. exists p, c. rewrite <- !app_assoc. auto.
Qed.

Lemma dsteps_more e is_end is_end' bs pre cs rest more : bytes bs ->
  dsteps (dec_next e is_end) bs pre cs rest -> dsteps (dec_next e is_end') (bs ++ more) pre cs (rest ++ more).
Proof.
  intros Hb H. induction H as [|bs k u pre cs rest Hn Hs IH]; [constructor|].
  destruct (dec_next_unit e bs k u is_end Hb Hn) as (Hk & _).
  rewrite <- (firstn_app_le k bs more) by lia. econstructor.
  - eapply dec_next_app; eassumption.
  - rewrite skipn_app_le by lia. apply IH, bytes_skipn, Hb.
Qed.

Lemma dsteps_flag e is_end is_end' bs pre cs rest : bytes bs ->
  dsteps (dec_next e is_end) bs pre cs rest -> dsteps (dec_next e is_end') bs pre cs rest.
Proof. intros Hb H. rewrite <- (app_nil_r bs), <- (app_nil_r rest). eapply dsteps_more; eassumption. Qed.

Lemma dsteps_Decoded e is_end bs pre cs rest : bytes bs -> dsteps (dec_next e is_end) bs pre cs rest -> Decoded e pre cs.
Proof.
  intros Hb H. induction H as [|bs k u pre cs rest Hn Hs IH]; [constructor|].
  destruct (dec_next_unit e bs k u is_end Hb Hn) as (Hk & Hu).
  constructor; [exact Hu|apply IH, bytes_skipn, Hb].
Qed.

Lemma Decoded_dsteps e is_end bs cs rest : Decoded e bs cs -> dsteps (dec_next e is_end) (bs ++ rest) bs cs rest.
Proof.
  induction 1 as [|w u bs cs Hu HD IH]; [constructor|].
  pose proof (dec_unit_next e w u (bs ++ rest) is_end Hu) as Hn.
  rewrite <- app_assoc. rewrite <- (firstn_app_exact w (bs ++ rest)) at 2. econstructor; [exact Hn|].
  rewrite skipn_app, Nat.sub_diag, skipn_all. exact IH.
Qed.

Lemma Decoded_app e b1 c1 b2 c2 : Decoded e b1 c1 -> Decoded e b2 c2 -> Decoded e (b1 ++ b2) (c1 ++ c2).
Proof. induction 1; intros; [assumption|]. rewrite <- !app_assoc. constructor; auto. Qed.

Lemma Decoded_text e bs cs : Decoded e bs cs -> text cs /\ bytes bs.
Proof.
  induction 1 as [|w u bs cs Hu HD IH]; [split; constructor|].
  destruct (dec_unit_shape e w u Hu) as (H1 & _ & H2 & _). destruct IH. split; [apply text_app; auto|apply bytes_app; auto].
Qed.

Lemma Decoded_det e bs c1 c2 : Decoded e bs c1 -> Decoded e bs c2 -> c1 = c2.
Proof.
  intros H1 H2. apply (Decoded_dsteps e true _ _ []) in H1. apply (Decoded_dsteps e true _ _ []) in H2. rewrite app_nil_r in *.
  destruct (dsteps_linear _ _ _ _ _ _ _ _ H1 H2) as [(p & b & Hs & Ep & Eb)|(p & b & Hs & Ep & Eb)];
    inversion Hs; subst; try (dnil); rewrite app_nil_r in *; congruence.
Qed.

(* a decoding of a longer input starts with the one of the steps *)
Lemma Decoded_after e bs pre cs rest all : bytes bs -> dsteps (dec_next e true) bs pre cs rest -> Decoded e bs all ->
  exists cs', all = cs ++ cs' /\ Decoded e rest cs'.
Proof.
  intros Hb H1 H2. apply (Decoded_dsteps e true _ _ []) in H2. rewrite app_nil_r in *.
  destruct (dsteps_linear _ _ _ _ _ _ _ _ H1 H2) as [(p & b & Hs & Ep & Eb)|(p & b & Hs & Ep & Eb)].
  - exists b. split; [exact Eb|]. pose proof (dsteps_split _ _ _ _ _ Hs) as E. rewrite app_nil_r in E. subst p.
    eapply dsteps_Decoded; [|exact Hs]. apply dsteps_split in H1. subst bs. apply bytes_app in Hb. apply Hb.
  - inversion Hs; subst; [|dnil]. exists []. rewrite !app_nil_r in *. split; [auto|constructor].
Qed.

(** ** Sizes *)

Lemma DecUnit_size e w u : DecUnit e w u -> length (utf8 u) <= 3 * length w.
Proof.
  intros Hu. destruct (dec_unit_shape e w u Hu) as (_ & Hw & _).
  assert (H1 : forall c, length w >= 2 -> u = [c] -> length (utf8 u) <= 3 * length w).
  { intros c Hl ->. rewrite utf8_single. pose proof (utf8_char_pos c). lia. }
  assert (H3 : forall c, (c < 0x10000)%N -> u = [c] -> length (utf8 u) <= 3 * length w).
  { intros c Hl ->. rewrite utf8_single, utf8_char_len. unfold len_utf8. repeat bcase; lia. }
  destruct e; cbn [DecUnit] in Hu.
  - destruct Hu as (c & Hc & -> & ->). rewrite utf8_single. lia.
  - destruct Hu as (c & Hc & -> & ->). eapply H1; [|reflexivity]. unfold utf16_char. destruct (_ <? _)%N; [|rewrite app_length]; rewrite !unit16_len; lia.
  - destruct Hu as (c & Hc & -> & ->). eapply H1; [|reflexivity]. unfold utf16_char. destruct (_ <? _)%N; [|rewrite app_length]; rewrite !unit16_len; lia.
  - destruct Hu as (c & Hc & -> & ->). eapply H1; [|reflexivity]. cbn. lia.
  - destruct Hu as (c & Hc & -> & ->). eapply H1; [|reflexivity]. cbn. lia.
  - destruct Hu as [(b & Hb & -> & ->)|[(p & c & Hp & -> & ->)|(p & Hp & ->)]].
    + eapply H3; [|reflexivity]. lia.
    + eapply H1; [|reflexivity]. cbn. lia.
    + rewrite big5_code_len. unfold big5_sequences in Hp. cbn [In] in Hp.
      destruct Hp as [H|[H|[H|[H|[]]]]]; injection H as <- <-; cbn; lia.
  - destruct Hu as [(b & Hb & -> & ->)|[(b & Hb & -> & ->)|[(p & c & Hp & -> & ->)|(p & Hp & -> & ->)]]].
    + eapply H3; [|reflexivity]. lia.
    + eapply H3; [|reflexivity]. lia.
    + eapply H1; [|reflexivity]. cbn. lia.
    + eapply H1; [|reflexivity]. cbn. lia.
  - destruct Hu as (b & c & Hbc & -> & ->). eapply H3; [|reflexivity]. eapply Tables.sb_bmp, Hbc.
Qed.

Lemma Decoded_size e bs cs : Decoded e bs cs -> length (utf8 cs) <= 3 * length bs.
Proof.
  induction 1 as [|w u bs cs Hu HD IH]; [cbn; lia|]. apply DecUnit_size in Hu. rewrite utf8_app, !app_length. lia.
Qed.

Lemma Encoded_size e cs bs : Encoded e cs bs -> length bs <= 4 * length cs.
Proof.
  induction 1 as [|u w cs bs Hu Hl HD IH]; [cbn; lia|]. apply enc_unit_shape in Hu. rewrite !app_length. lia.
Qed.
