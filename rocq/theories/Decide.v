(* The remaining facts about the decision functions: when they hold back, report, and how they react to more input. *)
From Coq Require Import List NArith Arith Bool Lia ZArith.
From Verif Require Import Tac Encodings Spec SpecErrors Prelude RustCore Types ProofUtf8 Engine Search NextEnc NextDec NextUtf8 Tables Units.
From Verif Require Import TabBig5 TabSjis RefBig5 RefSjis ModelSingleByte ModelBig5 ModelShiftJis ModelApi.
From Verif Require Import ModelUtf8 ModelUtf16Le ModelUtf16Be EndianUtf16 ModelUtf32Le ModelUtf32Be EndianUtf32.
Import ListNotations.
Local Open Scope N_scope.

(** ** Decoders *)

Lemma dec_next_nil e is_end : dec_next e is_end [] = DEnd.
Proof. destruct e; reflexivity. Qed.

Lemma value16_u16 big a b : value16 big a b = u16_from_bytes big a b.
Proof. destruct big; unfold value16, u16_from_bytes, u16_from_be_bytes, u16_from_le_bytes; lia. Qed.

Lemma looks_truncated_spec b n : (1 <= n)%nat -> looks_truncated b n = true <-> (n < announced b)%nat.
Proof.
  intros Hn. unfold looks_truncated, announced.
  destruct ((192 <=? b) && (b <? 224)) eqn:E1; destruct ((224 <=? b) && (b <? 240)) eqn:E2;
    destruct ((240 <=? b) && (b <? 248)) eqn:E3; cbn [andb orb]; try lia.
Qed.

Lemma run_len_le r : (run_len r <= length r)%nat.
Proof. induction r as [|b r IH]; cbn; [lia|]. destruct (extends_error b); lia. Qed.

Lemma extends_spec b : extends_error b = true <-> not_a_start b.
Proof. unfold extends_error, not_a_start. lia. Qed.

Lemma run_len_in r : forall i b, (i < run_len r)%nat -> nth_error r i = Some b -> not_a_start b.
Proof.
  induction r as [|x r IH]; intros i b Hi Hn; [cbn in Hi; lia|]. cbn in Hi.
  destruct (extends_error x) eqn:E; [|lia]. destruct i as [|i].
  - injection Hn as <-. apply extends_spec, E.
  - cbn in Hn. apply (IH i); [lia|assumption].
Qed.

Lemma run_len_out r : forall b, nth_error r (run_len r) = Some b -> ~ not_a_start b.
Proof.
  induction r as [|x r IH]; intros b Hn; [discriminate|]. cbn in Hn.
  destruct (extends_error x) eqn:E; [apply IH, Hn|]. injection Hn as <-. rewrite <- extends_spec. congruence.
Qed.

(* What a decision function can answer. *)
Definition dec_facts (e : encoding) (is_end : bool) (bs : list N) (a : dact) : Prop :=
  match a with
  | DEnd => bs = []
  | DHold => is_end = false /\ bs <> [] /\ Incomplete e bs
  | DBad n => ErrorLength e bs n /\ (is_end = false -> ~ Incomplete e bs)
  | DUnit k u => True
  end.

Ltac difd := match goal with |- dec_facts _ _ _ (if ?b then _ else _) => destruct b end.

Lemma utf8_dec_facts is_end bs : dec_facts Utf8 is_end bs (utf8_dec_next is_end bs).
Proof.
  destruct bs as [|b r]; [reflexivity|]. cbn [utf8_dec_next].
  destruct (utf8_valid_up_to (b :: r) =? 0)%nat; [|exact I].
  pose proof (looks_truncated_spec b (length (b :: r)) ltac:(cbn; lia)) as Ht.
  destruct (looks_truncated b (length (b :: r))) eqn:E.
  - assert (HI : Incomplete Utf8 (b :: r)) by (exists b, r; split; [reflexivity|apply Ht; reflexivity]).
    destruct is_end; cbn [dec_facts].
    + split; [|discriminate]. split; [cbn; lia|]. split; [reflexivity|]. intros X. contradiction.
    + split; [reflexivity|]. split; [discriminate|exact HI].
  - assert (HI : ~ Incomplete Utf8 (b :: r)).
    { intros (b' & r' & Eb & Hl). injection Eb as <- <-. apply Ht in Hl. discriminate. }
    cbn [dec_facts]. split; [|auto]. split; [pose proof (run_len_le r); cbn [length]; lia|]. split; [contradiction|]. intros _. split.
    + intros [|i] x Hi Hx; [lia|]. apply (run_len_in r i); [lia|exact Hx].
    + intros x Hx. cbn in Hx. apply (run_len_out r), Hx.
Qed.

Lemma utf16_dec_facts (big : bool) is_end bs : dec_facts (if big then Utf16BE else Utf16LE) is_end bs (utf16_dec_next big is_end bs).
Proof.
  destruct bs as [|b0 [|b1 r]]; [reflexivity| |].
  { assert (HI : Incomplete (if big then Utf16BE else Utf16LE) [b0]) by (destruct big; left; reflexivity).
    cbn [utf16_dec_next]. destruct is_end; cbn [dec_facts].
    - split; [|discriminate]. split; [cbn; lia|]. destruct big; (split; [reflexivity|intros X; contradiction]).
    - split; [reflexivity|]. split; [discriminate|exact HI]. }
  cbn [utf16_dec_next]. rewrite <- value16_u16. set (x := value16 big b0 b1).
  destruct ((x <? 0xD800) || (0xDFFF <? x)) eqn:E1; [exact I|].
  assert (Hnot : ((2 <= length r)%nat \/ 0xDC00 <= x) -> ~ Incomplete (if big then Utf16BE else Utf16LE) (b0 :: b1 :: r)).
  { intros H. unfold x in *. destruct big; (intros [X|(c0 & c1 & s & X & L & R)]; [cbn in X; lia|]);
      injection X as <- <- <-; lia. }
  assert (Hyes : (length r < 2)%nat -> x < 0xDC00 -> Incomplete (if big then Utf16BE else Utf16LE) (b0 :: b1 :: r)).
  { intros H Hx. unfold x in *. destruct big; right; exists b0, b1, r; (split; [reflexivity|]); (split; [exact H|]); lia. }
  clearbody x.
  assert (Hbad : ~ Incomplete (if big then Utf16BE else Utf16LE) (b0 :: b1 :: r) ->
                 dec_facts (if big then Utf16BE else Utf16LE) is_end (b0 :: b1 :: r) (DBad 2)).
  { intros H. cbn [dec_facts]. split; [|auto]. split; [cbn; lia|]. destruct big; (split; [contradiction|reflexivity]). }
  destruct (N.leb_spec 0xDC00 x); [apply Hbad, Hnot; auto|].
  assert (Hcut : (length r < 2)%nat -> dec_facts (if big then Utf16BE else Utf16LE) is_end (b0 :: b1 :: r)
             (if is_end then DBad (length (b0 :: b1 :: r)) else DHold)).
  { intros L. destruct is_end; cbn [dec_facts].
    - split; [|discriminate]. split; [cbn; lia|]. specialize (Hyes L ltac:(lia)). destruct big; (split; [reflexivity|contradiction]).
    - split; [reflexivity|]. split; [discriminate|]. apply Hyes; [exact L|lia]. }
  destruct r as [|b2 [|b3 r]]; [apply Hcut; cbn; lia|apply Hcut; cbn; lia|].
  cbv zeta. difd; [exact I|]. apply Hbad, Hnot. left. cbn. lia.
Qed.

Lemma utf32_dec_facts (big : bool) is_end bs : dec_facts (if big then Utf32BE else Utf32LE) is_end bs (utf32_dec_next big is_end bs).
Proof.
  assert (Hcut : (1 <= length bs <= 3)%nat -> dec_facts (if big then Utf32BE else Utf32LE) is_end bs
             (if is_end then DBad (length bs) else DHold)).
  { intros L. destruct is_end; cbn [dec_facts].
    - split; [|discriminate]. split; [lia|]. destruct big; (split; [reflexivity|contradiction]).
    - split; [reflexivity|]. split; [intros ->; cbn in L; lia|]. destruct big; exact L. }
  destruct bs as [|b0 [|b1 [|b2 [|b3 r]]]]; [reflexivity|apply Hcut; cbn; lia|apply Hcut; cbn; lia|apply Hcut; cbn; lia|].
  cbn [utf32_dec_next]. destruct (is_char _); [exact I|]. cbn [dec_facts].
  assert (HI : ~ Incomplete (if big then Utf32BE else Utf32LE) (b0 :: b1 :: b2 :: b3 :: r)).
  { destruct big; cbn; lia. }
  split; [|auto]. split; [cbn; lia|]. destruct big; (split; [contradiction|reflexivity]).
Qed.

Lemma big5_dec_facts t is_end bs : bytes bs -> dec_facts Big5WHATWG is_end bs (big5_dec_next t is_end bs).
Proof.
  intros Hb. destruct bs as [|b1 r]; [reflexivity|]. apply bytes_head in Hb. destruct Hb as [H1 Hb].
  cbn [big5_dec_next]. destruct (N.leb_spec b1 127); [exact I|].
  destruct ((b1 =? 0x80) || (b1 =? 0xFF)) eqn:E1.
  { split; [|intros _ (x & X & Y); unfold big5_lead in Y; injection X as <-; lia]. split; [cbn; lia|]. right. split; [reflexivity|].
    intros (x & y & s & X & Y & _). unfold big5_lead in Y. injection X as <- _. lia. }
  assert (Hl : big5_lead b1) by (unfold big5_lead; lia).
  destruct r as [|b2 r].
  { destruct is_end; cbn [dec_facts].
    - split; [|discriminate]. split; [cbn; lia|]. right. split; [reflexivity|]. intros (x & y & s & X & _). discriminate.
    - split; [reflexivity|]. split; [discriminate|]. exists b1. auto. }
  assert (Hbad : dec_facts Big5WHATWG is_end (b1 :: b2 :: r) (DBad (if b2 <=? 127 then 1 else 2))).
  { split; [|intros _ (x & X & _); discriminate]. destruct (N.leb_spec b2 127).
    - split; [cbn; lia|]. right. split; [reflexivity|]. intros (x & y & s & X & _ & Y). injection X as <- <- <-. lia.
    - split; [cbn; lia|]. left. split; [reflexivity|]. exists b1, b2, r. split; [reflexivity|]. split; [exact Hl|]. lia. }
  cbv zeta. difd; [exact Hbad|]. destruct (table_get _ _); [exact I|]. destruct (assoc _ _); [exact I|exact Hbad].
Qed.

Lemma sjis_dec_facts t is_end bs : bytes bs -> dec_facts ShiftJISWHATWG is_end bs (sjis_dec_next t is_end bs).
Proof.
  intros Hb. destruct bs as [|b1 r]; [reflexivity|]. apply bytes_head in Hb. destruct Hb as [H1 Hb].
  cbn [sjis_dec_next]. destruct (N.leb_spec b1 128); [exact I|].
  destruct ((0xA1 <=? b1) && (b1 <=? 0xDF)) eqn:E0; [exact I|].
  destruct ((0x9F <? b1) && (b1 <? 0xE0) || (0xFC <? b1)) eqn:E1.
  { split; [|intros _ (x & X & Y); unfold sjis_lead in Y; injection X as <-; lia]. split; [cbn; lia|]. right. split; [reflexivity|].
    intros (x & y & s & X & Y & _). unfold sjis_lead in Y. injection X as <- _. lia. }
  assert (Hl : sjis_lead b1) by (unfold sjis_lead; lia).
  destruct r as [|b2 r].
  { destruct is_end; cbn [dec_facts].
    - split; [|discriminate]. split; [cbn; lia|]. right. split; [reflexivity|]. intros (x & y & s & X & _). discriminate.
    - split; [reflexivity|]. split; [discriminate|]. exists b1. auto. }
  assert (Hbad : dec_facts ShiftJISWHATWG is_end (b1 :: b2 :: r) (DBad (if b2 <=? 127 then 1 else 2))).
  { split; [|intros _ (x & X & _); discriminate]. destruct (N.leb_spec b2 127).
    - split; [cbn; lia|]. right. split; [reflexivity|]. intros (x & y & s & X & _ & Y). injection X as <- <- <-. lia.
    - split; [cbn; lia|]. left. split; [reflexivity|]. exists b1, b2, r. split; [reflexivity|]. split; [exact Hl|]. lia. }
  cbv zeta. difd; [exact Hbad|]. difd; [exact I|]. destruct (table_get _ _); [exact I|exact Hbad].
Qed.

Lemma sb_dec_facts m is_end bs : dec_facts (Single m) is_end bs (sb_dec_next (sb_decode_table m) bs).
Proof.
  destruct bs as [|b r]; [reflexivity|]. cbn [sb_dec_next]. destruct (b <? 0x80); [exact I|].
  destruct (table_get _ _); [exact I|]. split; [|intros _ []]. split; [cbn; lia|reflexivity].
Qed.

Lemma dec_next_facts e is_end bs : bytes bs -> dec_facts e is_end bs (dec_next e is_end bs).
Proof.
  intros Hb. destruct e; cbn [dec_next].
  - apply utf8_dec_facts.
  - apply (utf16_dec_facts true).
  - apply (utf16_dec_facts false).
  - apply (utf32_dec_facts true).
  - apply (utf32_dec_facts false).
  - apply big5_dec_facts, Hb.
  - apply sjis_dec_facts, Hb.
  - apply sb_dec_facts.
Qed.

Lemma dec_next_end e is_end bs : bytes bs -> dec_next e is_end bs = DEnd <-> bs = [].
Proof.
  intros Hb. split; [|intros ->; apply dec_next_nil]. intros H. pose proof (dec_next_facts e is_end bs Hb) as F. rewrite H in F. exact F.
Qed.

(* nothing valid starts where the decision is not a unit *)
Lemma dec_next_no_unit e is_end bs : (forall k u, dec_next e is_end bs <> DUnit k u) ->
  forall w u, DecUnit e w u -> ~ prefix w bs.
Proof. intros H w u Hu [r ->]. apply (H (length w) u). apply dec_unit_next, Hu. Qed.

Lemma dec_next_unit_iff e is_end bs k u : bytes bs ->
  dec_next e is_end bs = DUnit k u <-> (1 <= k <= length bs)%nat /\ DecUnit e (firstn k bs) u.
Proof.
  intros Hb. split; [apply dec_next_unit, Hb|]. intros [Hk Hu].
  rewrite <- (firstn_skipn k bs) at 1. rewrite (dec_unit_next e _ u) by exact Hu. rewrite firstn_length_le by lia. reflexivity.
Qed.

Lemma dec_next_app e is_end is_end' bs more k u : bytes bs -> dec_next e is_end bs = DUnit k u ->
  dec_next e is_end' (bs ++ more) = DUnit k u.
Proof.
  intros Hb H. apply dec_next_unit in H; [|exact Hb]. destruct H as [Hk Hu].
  rewrite <- (firstn_skipn k bs) at 1. rewrite <- app_assoc, (dec_unit_next e _ u) by exact Hu. rewrite firstn_length_le by lia. reflexivity.
Qed.

(* is_end only turns holding back into an error *)
Lemma dec_next_final e bs : bytes bs ->
  (dec_next e false bs = dec_next e true bs) \/
  (dec_next e false bs = DHold /\ dec_next e true bs = DBad (length bs)).
Proof.
  intros Hb. destruct e; cbn [dec_next].
  - destruct bs as [|b r]; [auto|]. cbn [utf8_dec_next]. destruct (_ =? 0)%nat; [|auto]. destruct (looks_truncated _ _); auto.
  - destruct bs as [|b0 [|b1 r]]; auto. cbn [utf16_dec_next]. destruct (_ || _); auto. destruct (_ <=? _); auto.
    destruct r as [|b2 [|b3 r]]; auto.
  - destruct bs as [|b0 [|b1 r]]; auto. cbn [utf16_dec_next]. destruct (_ || _); auto. destruct (_ <=? _); auto.
    destruct r as [|b2 [|b3 r]]; auto.
  - destruct bs as [|b0 [|b1 [|b2 [|b3 r]]]]; auto.
  - destruct bs as [|b0 [|b1 [|b2 [|b3 r]]]]; auto.
  - destruct bs as [|b1 [|b2 r]]; cbn [big5_dec_next]; auto. destruct (_ <=? _); auto. destruct (_ || _); auto.
  - destruct bs as [|b1 [|b2 r]]; cbn [sjis_dec_next]; auto. destruct (_ <=? _); auto. destruct (_ && _); auto. destruct (_ || _); auto.
  - auto.
Qed.

(* the length of the char at the head is the announced one *)
Lemma announced_len c b r : scalar c -> utf8_char c = b :: r -> announced b = length (utf8_char c).
Proof.
  unfold scalar, utf8_char, announced. intros Hc.
  repeat bcase; intros E; apply cons_inj in E; destruct E as [E _]; try reflexivity; cbn [andb length]; lia.
Qed.

Lemma utf8_bad_app bs more n is_end : bytes bs -> bytes more -> utf8_dec_next false bs = DBad n ->
  exists n', utf8_dec_next is_end (bs ++ more) = DBad n'.
Proof.
  intros Hb Hm H. assert (Hb' : bytes (bs ++ more)) by (apply bytes_app; auto).
  destruct bs as [|b r]; [discriminate|]. cbn [utf8_dec_next] in H.
  destruct (Nat.eqb_spec (utf8_valid_up_to (b :: r)) 0) as [Hv|]; [|discriminate].
  destruct (looks_truncated b (length (b :: r))) eqn:Ht; [discriminate|].
  cbn [app utf8_dec_next].
  destruct (valid_up_to_step _ Hb') as [(c & s & Hc & E)|Hv'].
  - exfalso. pose proof (utf8_char_pos c) as Hpos. destruct (utf8_char c) as [|x y] eqn:Ec; [cbn in Hpos; lia|].
    assert (x = b) by (cbn [app] in E; apply cons_inj in E; destruct E; auto). subst x.
    pose proof (announced_len c b y Hc Ec) as Ha. rewrite Ec in Ha.
    assert (Hlen : (length (utf8_char c) <= length (b :: r))%nat).
    { rewrite Ec. destruct (Nat.lt_ge_cases (length (b :: r)) (announced b)) as [L|L]; [|rewrite <- Ha; exact L].
      apply looks_truncated_spec in L; [congruence|cbn; lia]. }
    rewrite <- Ec in E.
    assert (E1 : firstn (length (utf8_char c)) ((b :: r) ++ more) = utf8_char c) by (rewrite E; apply firstn_app_exact).
    rewrite firstn_app in E1. replace (length (utf8_char c) - length (b :: r))%nat with 0%nat in E1 by lia.
    cbn [firstn] in E1. rewrite app_nil_r in E1.
    rewrite <- (firstn_skipn (length (utf8_char c)) (b :: r)), E1, valid_up_to_char in Hv by exact Hc.
    rewrite Ec in Hv. cbn in Hv. lia.
  - change ((b :: r) ++ more) with (b :: r ++ more) in Hv'. rewrite Hv'. cbn [Nat.eqb].
    assert (looks_truncated b (length (b :: r ++ more)) = false) as ->.
    { destruct (looks_truncated b (length (b :: r ++ more))) eqn:E; [|reflexivity].
      apply looks_truncated_spec in E; [|cbn; lia]. assert (L : (length (b :: r) < announced b)%nat).
      { cbn [length] in *. rewrite app_length in E. lia. }
      apply looks_truncated_spec in L; [congruence|cbn; lia]. }
    eexists. reflexivity.
Qed.

Lemma dec_bad_app e bs more n is_end : bytes bs -> bytes more -> dec_next e false bs = DBad n ->
  exists n', dec_next e is_end (bs ++ more) = DBad n' /\ (e <> Utf8 -> n' = n).
Proof.
  intros Hb Hm H. destruct e; cbn [dec_next] in *.
  - destruct (utf8_bad_app _ _ _ is_end Hb Hm H) as [n' Hn']. exists n'. split; [exact Hn'|]. congruence.
  - exists n. split; [|auto]. destruct bs as [|b0 [|b1 r]]; [discriminate|discriminate|]. cbn [app utf16_dec_next] in *.
    destruct (_ || _); [discriminate|]. destruct (_ <=? _); [exact H|]. destruct r as [|b2 [|b3 r]]; [discriminate|discriminate|].
    cbn [app]. exact H.
  - exists n. split; [|auto]. destruct bs as [|b0 [|b1 r]]; [discriminate|discriminate|]. cbn [app utf16_dec_next] in *.
    destruct (_ || _); [discriminate|]. destruct (_ <=? _); [exact H|]. destruct r as [|b2 [|b3 r]]; [discriminate|discriminate|].
    cbn [app]. exact H.
  - exists n. split; [|auto]. destruct bs as [|b0 [|b1 [|b2 [|b3 r]]]]; try discriminate. exact H.
  - exists n. split; [|auto]. destruct bs as [|b0 [|b1 [|b2 [|b3 r]]]]; try discriminate. exact H.
  - exists n. split; [|auto]. destruct bs as [|b1 [|b2 r]]; cbn [app big5_dec_next] in *; [discriminate| |exact H].
    destruct (_ <=? _); [discriminate|]. destruct (_ || _); [exact H|discriminate].
  - exists n. split; [|auto]. destruct bs as [|b1 [|b2 r]]; cbn [app sjis_dec_next] in *; [discriminate| |exact H].
    destruct (_ <=? _); [discriminate|]. destruct (_ && _); [discriminate|]. destruct (_ || _); [exact H|discriminate].
  - exists n. split; [|auto]. destruct bs as [|b r]; [discriminate|]. exact H.
Qed.

(** ** Encoders *)

Definition enc_facts (e : encoding) (is_end : bool) (cs : list N) (a : eact) : Prop :=
  match a with
  | EEnd => cs = []
  | EHold => is_end = false /\ e = Big5WHATWG /\ (cs = [0xCA] \/ cs = [0xEA])
  | EBad c => exists r, cs = c :: r
  | EUnit k w => True
  end.

Lemma enc_next_facts e is_end cs : enc_facts e is_end cs (enc_next e is_end cs).
Proof.
  destruct cs as [|c r]; [destruct e; reflexivity|].
  destruct e; cbn [enc_next]; try exact I.
  - cbn [big5_enc_next]. destruct (_ <=? _); [exact I|]. destruct (assoc big5_encode_table c) as [v|]; [|cbn; eauto].
    destruct ((c =? 0xCA) || (c =? 0xEA)) eqn:E; [|exact I]. destruct r as [|d r].
    + destruct is_end; [exact I|]. cbn. split; [reflexivity|]. split; [reflexivity|].
      destruct (N.eqb_spec c 0xCA) as [->|]; [auto|]. destruct (N.eqb_spec c 0xEA) as [->|]; [auto|discriminate].
    + destruct (map_grapheme c d); exact I.
  - cbn [sjis_enc_next chars_next]. repeat match goal with |- context [if ?b then EUnit _ _ else _] => destruct b end; try exact I;
      destruct (assoc sjis_encode_table _) as [v|]; cbn; eauto.
  - cbn [sb_enc_next chars_next]. destruct (_ <=? _); [exact I|]. destruct (assoc _ _); cbn; eauto.
Qed.

Lemma enc_next_final e cs : enc_next e false cs = enc_next e true cs \/ enc_next e false cs = EHold.
Proof.
  destruct e; try (left; reflexivity). destruct cs as [|c [|d r]]; try (left; reflexivity).
  cbn [enc_next big5_enc_next]. destruct (_ <=? _); [auto|]. destruct (assoc big5_encode_table c); [|auto]. destruct (_ || _); auto.
Qed.

Lemma enc_next_app e is_end cs more : cs <> [] ->
  match enc_next e false cs with
  | EHold => True
  | a => enc_next e is_end (cs ++ more) = a
  end.
Proof.
  intros Hne. destruct cs as [|c r]; [congruence|]. destruct e; cbn [enc_next]; try reflexivity.
  - cbn [app big5_enc_next]. destruct (_ <=? _); [reflexivity|]. destruct (assoc big5_encode_table c); [|reflexivity].
    destruct (_ || _); [|reflexivity]. destruct r as [|d r]; [exact I|]. cbn [app]. destruct (map_grapheme c d); reflexivity.
  - cbn [app sjis_enc_next chars_next]. destruct (if c <=? 128 then _ else _); auto.
  - cbn [app sb_enc_next chars_next]. destruct (if c <=? 127 then _ else _); auto.
Qed.

Lemma enc_next_bad e is_end cs c : text cs -> enc_next e is_end cs = EBad c -> forall u w, EncUnit e u w -> ~ prefix u cs.
Proof.
  intros Hcs H u w Hu [s Hs].
  assert (H' : enc_next e true cs = EBad c).
  { destruct is_end; [exact H|]. destruct (enc_next_final e cs) as [E|E]; congruence. }
  (* take a longest unit at the head *)
  assert (L : exists u w s, EncUnit e u w /\ cs = u ++ s /\ longest e u cs).
  { destruct (enc_unit_shape e u w Hu) as (_ & Hlen & _).
    destruct (Nat.eq_dec (length u) 2) as [E2|N2].
    - exists u, w, s. split; [exact Hu|]. split; [exact Hs|]. intros u' w' Hu' _. apply enc_unit_shape in Hu'. lia.
    - assert (length u = 1%nat) by lia.
      destruct cs as [|a cs]; [destruct u; [cbn in *; lia|discriminate]|].
      destruct cs as [|b cs].
      { exists u, w, s. split; [exact Hu|]. split; [exact Hs|]. intros u' w' Hu' [t Ht].
        apply (f_equal (@length N)) in Ht. rewrite app_length in Ht. cbn in Ht. lia. }
      destruct e; try (exists u, w, s; split; [exact Hu|]; split; [exact Hs|];
         destruct u as [|x [|? ?]]; [cbn in *; lia| |cbn in *; lia]; eapply longest_single; [discriminate|reflexivity]).
      destruct (map_grapheme a b) as [q|] eqn:Eg.
      + apply map_grapheme_spec in Eg. destruct Eg as (p & Hp & _).
        exists [a; b], (big5_code p), cs. split; [right; right; exists p; auto|]. split; [reflexivity|].
        intros u' w' Hu' _. apply enc_unit_shape in Hu'. cbn. lia.
      + exists u, w, s. split; [exact Hu|]. split; [exact Hs|]. intros u' w' Hu' [t Ht].
        destruct Hu' as [(x & _ & -> & _)|[(x & p & _ & -> & _)|(p & Hp & ->)]]; [cbn; lia|cbn; lia|].
        destruct (sequences_pairs _ _ Hp) as (x & y & ->). cbn [app] in Ht. injection Ht as <- <- <-.
        exfalso. assert (X : exists q, pair_bytes q = big5_code p) by (exists (hd 0 (big5_code p), nth 1 (big5_code p) 0); reflexivity).
        destruct X as [q Hq]. assert (map_grapheme a b = Some q) by (apply map_grapheme_spec; eauto). congruence. }
  destruct L as (u1 & w1 & s1 & Hu1 & Es & Hl). rewrite Es in Hl, H'.
  rewrite (enc_unit_next e u1 w1 s1 Hu1 Hl) in H'. discriminate.
Qed.
