(* Encoding with substitution: sequences of calls as steps of the decision function. *)
From Coq Require Import List NArith Arith Bool Lia ZArith.
From Verif Require Import Tac Encodings Spec SpecErrors Prelude RustCore Types ProofUtf8 Engine NextEnc NextDec NextUtf8 Units Decide Greedy ModelApi ProofApi Session ProofSession ProofRound SpecSubst.
Import ListNotations.
Local Open Scope nat_scope.

Section Steps.
Variable sub : N -> list N.

Inductive ssteps (next : list N -> eact) : list N -> list N -> list N -> list N -> Prop :=
| ssteps_nil cs : ssteps next cs [] [] cs
| ssteps_unit cs k w pre bs rest :
    next cs = EUnit k w -> ssteps next (skipn k cs) pre bs rest -> ssteps next cs (firstn k cs ++ pre) (w ++ bs) rest
| ssteps_bad c cs pre bs rest :
    next (c :: cs) = EBad c -> ssteps next cs pre bs rest -> ssteps next (c :: cs) (c :: pre) (sub c ++ bs) rest.

Lemma ssteps_split next cs pre bs rest : ssteps next cs pre bs rest -> cs = pre ++ rest.
Proof.
  induction 1 as [|cs k w pre bs rest Hn Hs IH|c cs pre bs rest Hn Hs IH]; [reflexivity| |cbn; congruence].
  rewrite <- app_assoc, <- IH, firstn_skipn. reflexivity.
Qed.

Lemma ssteps_app next cs pre bs rest pre' bs' rest' :
  ssteps next cs pre bs rest -> ssteps next rest pre' bs' rest' -> ssteps next cs (pre ++ pre') (bs ++ bs') rest'.
Proof.
  induction 1 as [|cs k w pre bs rest Hn Hs IH|c cs pre bs rest Hn Hs IH]; intros H; [exact H| |].
  - rewrite <- !app_assoc. econstructor; [exact Hn|apply IH, H].
  - rewrite <- !app_assoc. cbn [app]. constructor; [exact Hn|apply IH, H].
Qed.

Lemma esteps_ssteps next cs pre bs rest : esteps next cs pre bs rest -> ssteps next cs pre bs rest.
Proof. induction 1; econstructor; eassumption. Qed.

Lemma ssteps_more e is_end cs pre bs rest more : text cs ->
  ssteps (enc_next e false) cs pre bs rest -> ssteps (enc_next e is_end) (cs ++ more) pre bs (rest ++ more).
Proof.
  intros Ht H. induction H as [|cs k w pre bs rest Hn Hs IH|c cs pre bs rest Hn Hs IH]; [constructor| |].
  - destruct (enc_next_unit e false cs k w Ht Hn) as (Hk & _).
    rewrite <- (firstn_app_le k cs more) by lia. econstructor.
    + assert (Hne : cs <> []) by (intros ->; cbn in Hk; lia).
      pose proof (enc_next_app e is_end cs more Hne) as Ha. rewrite Hn in Ha. exact Ha.
    + rewrite skipn_app_le by lia. apply IH, text_skipn, Ht.
  - cbn [app]. constructor.
    + pose proof (enc_next_app e is_end (c :: cs) more ltac:(discriminate)) as Ha. rewrite Hn in Ha. exact Ha.
    + apply IH. inversion Ht; assumption.
Qed.

Lemma ssteps_final e is_end cs pre bs rest : text cs -> ssteps (enc_next e is_end) cs pre bs rest -> ssteps (enc_next e true) cs pre bs rest.
Proof.
  intros Ht H. destruct is_end; [exact H|]. rewrite <- (app_nil_r cs), <- (app_nil_r rest). apply ssteps_more; assumption.
Qed.

Lemma ssteps_done e cs b1 b2 p1 p2 : ssteps (enc_next e true) cs p1 b1 [] -> ssteps (enc_next e true) cs p2 b2 [] -> b1 = b2.
Proof.
  intros H1. remember [] as r eqn:Er. revert b2 p2 Er.
  induction H1 as [cs|cs k w pre bs rest Hn Hs IH|c cs pre bs rest Hn Hs IH]; intros b2 p2 -> H2.
  - inversion H2 as [|? ? ? ? ? ? Hn2|]; subst; [reflexivity|]. rewrite enc_next_nil in Hn2. discriminate.
  - inversion H2 as [|? ? ? ? ? ? Hn2 Hs2|? ? ? ? ? Hn2]; subst.
    + rewrite enc_next_nil in Hn. discriminate.
    + rewrite Hn in Hn2. injection Hn2 as <- <-. f_equal. eapply IH; [reflexivity|exact Hs2].
    + congruence.
  - inversion H2 as [|? ? ? ? ? ? Hn2 Hs2|? ? ? ? ? Hn2 Hs2]; subst.
    + congruence.
    + f_equal. eapply IH; [reflexivity|exact Hs2].
Qed.

Lemma unencodable_next e c cs : text (c :: cs) -> Unencodable e (c :: cs) -> enc_next e true (c :: cs) = EBad c.
Proof.
  intros Ht Hu. pose proof (enc_next_facts e true (c :: cs)) as F. destruct (enc_next e true (c :: cs)) as [| |d|k w] eqn:En.
  - discriminate F.
  - destruct F as (X & _). discriminate X.
  - destruct F as (r & E). apply cons_inj in E. destruct E as [-> _]. reflexivity.
  - destruct (enc_next_unit e true _ k w Ht En) as (_ & Hx & _). exfalso. apply (Hu _ _ Hx).
    exists (skipn k (c :: cs)). rewrite firstn_skipn. reflexivity.
Qed.

Lemma ssteps_Substituted e cs pre bs : text cs -> ssteps (enc_next e true) cs pre bs [] -> Substituted e sub cs bs.
Proof.
  intros Ht H. remember [] as r eqn:Er. induction H as [cs|cs k w pre bs rest Hn Hs IH|c cs pre bs rest Hn Hs IH]; subst.
  - constructor.
  - destruct (enc_next_unit e true cs k w Ht Hn) as (Hk & Hu & Hl).
    rewrite <- (firstn_skipn k cs). constructor; [exact Hu|rewrite firstn_skipn; exact Hl|apply IH; [apply text_skipn, Ht|reflexivity]].
  - constructor; [|apply IH; [inversion Ht; assumption|reflexivity]].
    intros u w Hu. exact (enc_next_bad e true _ c Ht Hn u w Hu).
Qed.

Lemma Substituted_ssteps e cs bs : text cs -> Substituted e sub cs bs -> ssteps (enc_next e true) cs cs bs [].
Proof.
  intros Ht H. induction H as [|u w cs bs Hu Hl HE IH|c cs bs Hu HE IH]; [constructor| |].
  - pose proof (enc_unit_next e u w cs Hu Hl) as Hn.
    rewrite <- (firstn_app_exact u cs) at 2. econstructor; [exact Hn|].
    rewrite skipn_app, Nat.sub_diag, skipn_all. apply IH. apply text_app in Ht. apply Ht.
  - constructor; [apply unencodable_next; assumption|]. apply IH. inversion Ht; assumption.
Qed.

Lemma ssteps_total e : forall n cs, length cs <= n -> text cs -> exists bs, ssteps (enc_next e true) cs cs bs [].
Proof.
  induction n as [|n IH]; intros cs Hl Ht.
  - destruct cs; [|cbn in Hl; lia]. exists []. constructor.
  - destruct cs as [|c cs]; [exists []; constructor|].
    pose proof (enc_next_facts e true (c :: cs)) as F. destruct (enc_next e true (c :: cs)) as [| |d|k w] eqn:En.
    + discriminate F.
    + destruct F as (X & _). discriminate X.
    + destruct F as (r & E). apply cons_inj in E. destruct E as [<- _].
      destruct (IH cs) as (bs & Hs); [cbn in Hl; lia|inversion Ht; assumption|]. exists (sub c ++ bs). constructor; assumption.
    + destruct (enc_next_unit e true _ k w Ht En) as (Hk & _).
      destruct (IH (skipn k (c :: cs))) as (bs & Hs); [rewrite skipn_length; cbn [length] in *; lia|apply text_skipn, Ht|].
      exists (w ++ bs). rewrite <- (firstn_skipn k (c :: cs)) at 2. econstructor; eassumption.
Qed.

Lemma Substituted_unique e cs : text cs -> exists! bs, Substituted e sub cs bs.
Proof.
  intros Ht. destruct (ssteps_total e (length cs) cs (le_n _) Ht) as (bs & Hs). exists bs. split.
  - eapply ssteps_Substituted; eassumption.
  - intros bs' H'. apply Substituted_ssteps in H'; [|exact Ht]. exact (ssteps_done _ _ _ _ _ _ Hs H').
Qed.

(** ** The clients *)

Lemma sub_session_inv e fed ended n em : SubSession e sub fed ended n em ->
  exists pre rest, text (pre ++ rest) /\ fed = utf8 (pre ++ rest) /\ n = length (utf8 pre) /\
    ssteps (enc_next e ended) (pre ++ rest) pre em rest.
Proof.
  induction 1 as [|cs fed n em HS IH Ht|fed n em HS IH|fed ended n em out s k buf HS IH Hcall|fed ended n em out er buf HS IH Hcall].
  - exists [], []. repeat split; constructor.
  - destruct IH as (pre & rest & Htext & -> & -> & Hsteps). exists pre, (rest ++ cs). rewrite app_assoc.
    split; [apply text_app; auto|]. split; [rewrite (utf8_app (pre ++ rest)); reflexivity|]. split; [reflexivity|].
    apply ssteps_more; assumption.
  - destruct IH as (pre & rest & Htext & -> & -> & Hsteps). exists pre, rest. repeat split; auto. eapply ssteps_final; eassumption.
  - destruct IH as (pre & rest & Htext & -> & -> & Hsteps).
    rewrite utf8_app, skipn_len_app in Hcall. assert (Hr : text rest) by (apply text_app in Htext; apply Htext).
    destruct (encode_cases _ _ _ _ _ _ Hr Hcall) as (p & bs & rest' & -> & Hs & _ & _ & [(E & _)|(c & r & _ & _ & _ & E)]); [|discriminate].
    injection E as -> ->. exists (pre ++ p), rest'. rewrite <- !app_assoc. split; [exact Htext|]. split; [reflexivity|].
    split; [rewrite utf8_app, app_length; reflexivity|]. eapply ssteps_app; [exact Hsteps|apply esteps_ssteps, Hs].
  - destruct IH as (pre & rest & Htext & -> & -> & Hsteps).
    rewrite utf8_app, skipn_len_app in Hcall. assert (Hr : text rest) by (apply text_app in Htext; apply Htext).
    destruct (encode_cases _ _ _ _ _ _ Hr Hcall) as (p & bs & rest' & -> & Hs & _ & -> & [(E & _)|(c & r & -> & Hbad & _ & E)]); [discriminate|].
    injection E as ->. cbn [ee_character ee_range ee_written snd]. rewrite frame_prefix.
    exists (pre ++ p ++ [c]), r. rewrite <- !app_assoc. cbn [app]. split; [exact Htext|]. split; [reflexivity|].
    split; [rewrite !utf8_app, utf8_single, !app_length; reflexivity|].
    eapply ssteps_app; [exact Hsteps|]. eapply ssteps_app; [apply esteps_ssteps, Hs|].
    rewrite <- (app_nil_r (sub c)). apply ssteps_bad; [exact Hbad|constructor].
Qed.

Lemma sub_session_done e fed em : SubSession e sub fed true (length fed) em ->
  exists cs, text cs /\ fed = utf8 cs /\ Substituted e sub cs em.
Proof.
  intros H. destruct (sub_session_inv _ _ _ _ _ H) as (pre & rest & Ht & -> & Hn & Hs).
  rewrite utf8_app, app_length in Hn. assert (Hr : rest = []) by (apply utf8_length_nil; lia). subst rest.
  rewrite app_nil_r in *. exists pre. split; [exact Ht|]. split; [reflexivity|]. eapply ssteps_Substituted; eassumption.
Qed.

Lemma substitute_loop_done e : forall outs cs, text cs -> Forall (fun out => 4 <= length out) outs -> length (utf8 cs) <= length outs ->
  exists em, substitute_loop e sub (utf8 cs) outs = (em, []) /\ ssteps (enc_next e true) cs cs em [].
Proof.
  induction outs as [|out outs IH]; intros cs Ht Ho Hl.
  - assert (cs = []) by (apply utf8_length_nil; cbn in Hl; lia). subst cs. exists []. split; [reflexivity|constructor].
  - destruct cs as [|c cs]; [exists []; split; [reflexivity|constructor]|]. remember (c :: cs) as t eqn:Et.
    assert (Hne : t <> []) by congruence.
    assert (exists x y, utf8 t = x :: y) as (x & y & Ex).
    { destruct (utf8 t) eqn:E; [|eauto]. subst t. exfalso. apply (utf8_nonempty c cs), E. }
    assert (El : substitute_loop e sub (utf8 t) (out :: outs) =
      match encode_from_str e (utf8 t) out true with
      | Ret (Ok (s, n), _) => let (em, r) := substitute_loop e sub (skipn n (utf8 t)) outs in (s ++ em, r)
      | Ret (Err er, buf) =>
          let (em, r) := substitute_loop e sub (skipn (snd (ee_range er)) (utf8 t)) outs in
          (firstn (ee_written er) buf ++ sub (ee_character er) ++ em, r)
      | _ => ([], utf8 t)
      end) by (rewrite Ex; reflexivity).
    rewrite El. clear El Ex. destruct (encode_total e true t out Ht) as (r & buf & H). rewrite H.
    pose proof (Forall_inv Ho) as Ho1. pose proof (Forall_inv_tail Ho) as Ho2. cbv beta in Ho1.
    destruct (encode_cases _ _ _ _ _ _ Ht H) as (pre & bs & rest & E0 & Hs & _ & Eb & [(E & _)|(c' & post & Er & Hbad & _ & E)]); subst r.
    + assert (Hp : 1 <= length (utf8 pre)).
      { destruct (encode_progress _ _ _ _ _ _ _ Ht Hne Ho1 H) as [?|(? & _)]; [assumption|discriminate]. }
      assert (Hr : text rest) by (eapply esteps_rest_text; eassumption).
      assert (Hl' : length (utf8 rest) <= length outs) by (rewrite E0, utf8_app, app_length in Hl; cbn [length] in Hl; lia).
      destruct (IH rest Hr Ho2 Hl') as (em & Eem & Hss).
      replace (skipn (length (utf8 pre)) (utf8 t)) with (utf8 rest) by (rewrite E0, utf8_app, skipn_len_app; reflexivity).
      rewrite Eem. exists (bs ++ em). split; [reflexivity|]. rewrite E0 at 2. eapply ssteps_app; [apply esteps_ssteps, Hs|exact Hss].
    + cbn [ee_written ee_character ee_range fst snd]. rewrite Eb, frame_prefix. subst rest.
      assert (Hr : text post) by (rewrite E0 in Ht; apply text_app in Ht; destruct Ht as [_ Ht]; inversion Ht; assumption).
      assert (Et' : utf8 t = utf8 pre ++ utf8_char c' ++ utf8 post) by (rewrite E0, utf8_app, utf8_cons; reflexivity).
      assert (Hl' : length (utf8 post) <= length outs).
      { rewrite Et', !app_length in Hl. cbn [length] in Hl. pose proof (utf8_char_pos c'). lia. }
      destruct (IH post Hr Ho2 Hl') as (em & Eem & Hss).
      replace (skipn (length (utf8 pre) + length (utf8_char c')) (utf8 t)) with (utf8 post)
        by (rewrite Et', app_assoc, <- app_length, skipn_len_app; reflexivity).
      rewrite Eem. exists (bs ++ sub c' ++ em). split; [reflexivity|].
      rewrite E0 at 2. eapply ssteps_app; [apply esteps_ssteps, Hs|]. apply ssteps_bad; [exact Hbad|exact Hss].
Qed.
End Steps.

(** ** Substitutes that are encoded text *)

Lemma big5_two a b u w : EncUnit Big5WHATWG (a :: b :: u) w -> (0x80 <= a)%N /\ mark b.
Proof.
  cbn [EncUnit]. intros [(x & _ & E & _)|[(x & p & _ & E & _)|(p & Hp & _)]]; [discriminate E|discriminate E|].
  unfold big5_sequences in Hp. cbn [In] in Hp. unfold mark.
  destruct Hp as [H|[H|[H|[H|[]]]]]; apply (f_equal snd) in H; cbn [snd] in H; apply cons_inj in H; destruct H as [<- H];
    apply cons_inj in H; destruct H as [<- _]; lia.
Qed.

Lemma longest_two e u l : (forall a b u' w, u = [a] -> EncUnit e (a :: b :: u') w -> ~ prefix (a :: b :: u') l) -> length u >= 1 ->
  prefix u l -> longest e u l.
Proof.
  intros H L [t ->] u' w' Hu' [s Es]. destruct (enc_unit_shape _ _ _ Hu') as (_ & L' & _).
  destruct u as [|a [|b u]]; cbn [length] in *; [lia| |lia].
  destruct u' as [|a' [|b' u']]; cbn [length] in *; [lia|lia|]. exfalso. cbn [app] in Es. pose proof (proj1 (cons_inj _ _ _ _ Es)) as Ea. subst a'.
  eapply H; [reflexivity|exact Hu'|]. exists s. exact Es.
Qed.

(* the first character of a representable piece of text is never the second of another *)
Definition startable (e : encoding) (cs : list N) : Prop := forall x t a u w, cs = x :: t -> ~ EncUnit e (a :: x :: u) w.

Lemma unit_startable e u w cs : EncUnit e u w -> startable e (u ++ cs).
Proof.
  intros Hu x t a u' w' E Hu'. destruct (enc_unit_shape _ _ _ Hu) as (_ & L & _). destruct u as [|b u]; [cbn in L; lia|].
  cbn [app] in E. apply cons_inj in E. destruct E as [-> _].
  assert (e = Big5WHATWG \/ e <> Big5WHATWG) as [->|Hne] by (destruct e; auto; right; discriminate).
  - destruct (big5_enc_head _ _ Hu) as (c & r & E & Hm). apply cons_inj in E. destruct E as [-> _].
    apply big5_two in Hu'. apply Hm, Hu'.
  - destruct (enc_unit_single _ _ _ Hne Hu') as [c Ec]. discriminate Ec.
Qed.

Lemma Encoded_startable e cs bs : Encoded e cs bs -> startable e cs.
Proof. destruct 1 as [|u w cs bs Hu]; [intros ? ? ? ? ? E; discriminate E|]. eapply unit_startable, Hu. Qed.

Lemma longest_before e u w cs cs' : EncUnit e u w -> longest e u (u ++ cs) -> startable e cs' -> longest e u (u ++ cs ++ cs').
Proof.
  intros Hu Hl Hs. destruct (enc_unit_shape _ _ _ Hu) as (_ & L & _). apply longest_two; [|lia|eexists; reflexivity].
  intros a b u' w' -> Hu' [t Et]. cbn [app] in Et. apply cons_inj in Et. destruct Et as [_ Et].
  destruct (enc_unit_shape _ _ _ Hu') as (_ & L' & _). destruct u'; [|cbn in L'; lia].
  destruct cs as [|c cs]; cbn [app] in Et.
  - exact (Hs b t a [] w' Et Hu').
  - apply cons_inj in Et. destruct Et as [<- _]. assert (X : prefix [a; c] ([a] ++ c :: cs)) by (exists cs; reflexivity).
    specialize (Hl _ _ Hu' X). cbn in Hl. lia.
Qed.

Lemma Encoded_app e a s b t : Encoded e a s -> startable e b -> Encoded e b t -> Encoded e (a ++ b) (s ++ t).
Proof.
  intros H Hb HE. induction H as [|u w cs bs Hu Hl H IH]; [exact HE|]. rewrite <- !app_assoc.
  constructor; [exact Hu|eapply longest_before; eassumption|exact IH].
Qed.

Lemma Rewritten_both e r sub cs cs' : (forall c, Encoded e (r c) (sub c)) -> Rewritten e r cs cs' ->
  startable e cs' /\ exists bs, Encoded e cs' bs /\ Substituted e sub cs bs.
Proof.
  intros Hr H. induction H as [|u w cs cs' Hu Hl H IH|c cs cs' Hu H IH].
  - split; [intros ? ? ? ? ? E; discriminate E|]. exists []. split; constructor.
  - destruct IH as (Hst & bs & HE & HS). split; [eapply unit_startable, Hu|]. exists (w ++ bs). split; [|constructor; assumption].
    constructor; [exact Hu| |exact HE]. apply (longest_before e u w [] cs' Hu); [|exact Hst].
    rewrite app_nil_r. eapply longest_prefix, Hl.
  - destruct IH as (Hst & bs & HE & HS). pose proof (Encoded_app e _ _ _ _ (Hr c) Hst HE) as HE'.
    split; [eapply Encoded_startable, HE'|]. exists (sub c ++ bs). split; [exact HE'|constructor; assumption].
Qed.

Lemma Rewritten_total e r cs : text cs -> exists cs', Rewritten e r cs cs'.
Proof.
  intros Ht. destruct (Substituted_unique r e cs Ht) as (bs & Hs & _).
  induction Hs as [|u w cs bs Hu Hl HE IH|c cs bs Hu HE IH]; [exists []; constructor| |].
  - apply text_app in Ht. destruct (IH (proj2 Ht)) as (cs' & H). exists (u ++ cs'). econstructor; eassumption.
  - destruct IH as (cs' & H); [inversion Ht; assumption|]. exists (r c ++ cs'). constructor; assumption.
Qed.

(* one step of either relation *)
Lemma unit_det e u1 w1 u2 w2 c1 c2 : EncUnit e u1 w1 -> longest e u1 (u1 ++ c1) -> EncUnit e u2 w2 -> longest e u2 (u2 ++ c2) ->
  u1 ++ c1 = u2 ++ c2 -> u1 = u2 /\ c1 = c2.
Proof.
  intros H1 L1 H2 L2 E. pose proof (enc_unit_next e u1 w1 c1 H1 L1) as N1. pose proof (enc_unit_next e u2 w2 c2 H2 L2) as N2.
  rewrite E, N2 in N1. injection N1 as L _. apply app_eq_app in E. destruct E as (l & [[-> ->]|[-> ->]]); rewrite app_length in L;
    destruct l; cbn [length] in L; try lia; rewrite app_nil_r; auto.
Qed.

Lemma Rewritten_unique e r cs : text cs -> exists! cs', Rewritten e r cs cs'.
Proof.
  intros Ht. destruct (Rewritten_total e r cs Ht) as (cs' & H). exists cs'. split; [exact H|].
  induction H as [|u w cs cs' Hu Hl H IH|c cs cs' Hu H IH]; intros cs2 H2.
  - inversion H2 as [|u w cs cs' Hu Hl H E|]; [reflexivity|]. apply app_eq_nil in E. destruct E as [-> _].
    apply enc_unit_shape in Hu. cbn in Hu. lia.
  - apply text_app in Ht. remember (u ++ cs) as l eqn:E. destruct H2 as [|u2 w2 ds ds' Hu2 Hl2 H2|c ds ds' Hu2 H2].
    + symmetry in E. apply app_eq_nil in E. destruct E as [-> _]. apply enc_unit_shape in Hu. cbn in Hu. lia.
    + rewrite E in Hl. rewrite <- E in Hl. destruct (unit_det e u2 w2 u w ds cs Hu2 Hl2 Hu) as [-> ->]; [rewrite <- E; exact Hl|exact E|].
      f_equal. apply IH; [apply Ht|exact H2].
    + exfalso. apply (Hu2 u w Hu). exists cs. exact E.
  - remember (c :: cs) as l eqn:E. destruct H2 as [|u2 w2 ds ds' Hu2 Hl2 H2|d ds ds' Hu2 H2]; [discriminate E| |].
    + exfalso. apply (Hu u2 w2 Hu2). exists ds. reflexivity.
    + apply cons_inj in E. destruct E as [-> ->]. f_equal. apply IH; [inversion Ht; assumption|exact H2].
Qed.

Lemma Substituted_text e r sub cs bs : (forall c, Encoded e (r c) (sub c)) -> text cs -> Substituted e sub cs bs ->
  exists cs', Rewritten e r cs cs' /\ Encoded e cs' bs.
Proof.
  intros Hr Ht H. destruct (Rewritten_total e r cs Ht) as (cs' & HR). exists cs'. split; [exact HR|].
  destruct (Rewritten_both e r sub cs cs' Hr HR) as (_ & bs' & HE & HS). destruct (Substituted_unique sub e cs Ht) as (b & _ & U).
  rewrite <- (U bs H), (U bs' HS). exact HE.
Qed.

(** ** Encodings that represent one character at a time *)

Lemma Substituted_chars e sub (P : N -> list N -> Prop) cs bs :
  (forall u w, EncUnit e u w -> Forall (fun c => In c cs) u -> exists c, u = [c] /\ P c w) ->
  (forall c w, In c cs -> P c w -> EncUnit e [c] w) ->
  Substituted e sub cs bs ->
  exists ws, Forall2 (fun c w => P c w \/ ((forall w', ~ P c w') /\ w = sub c)) cs ws /\ bs = concat ws.
Proof.
  intros Hone Hback H. induction H as [|u w cs bs Hu Hl H IH|c cs bs Hu H IH].
  - exists []. split; [constructor|reflexivity].
  - destruct (Hone u w Hu) as (c & -> & Hc). { apply Forall_forall. intros x Hx. apply in_or_app. left. exact Hx. }
    destruct IH as (ws & HF & ->).
    + intros u' w' Hu' HF. apply Hone; [exact Hu'|]. eapply Forall_impl; [|exact HF]. intros x Hx. right. exact Hx.
    + intros d w' Hd. apply Hback. right. exact Hd.
    + exists (w :: ws). split; [constructor; [left; exact Hc|exact HF]|reflexivity].
  - destruct IH as (ws & HF & ->).
    + intros u' w' Hu' HF. apply Hone; [exact Hu'|]. eapply Forall_impl; [|exact HF]. intros x Hx. right. exact Hx.
    + intros d w' Hd. apply Hback. right. exact Hd.
    + exists (sub c :: ws). split; [|reflexivity]. constructor; [|exact HF]. right. split; [|reflexivity].
      intros w' Hw. apply (Hu [c] w'); [apply Hback; [left; reflexivity|exact Hw]|exists cs; reflexivity].
Qed.
