(* C76: damage to encoded data stays local. *)
From Coq Require Import List NArith Arith Bool Lia.
From Verif Require Import Tac Encodings Spec SpecErrors SpecRecover SpecWhatwg Prelude RustCore Types ModelApi Session ProofApi ProofUtf8 Engine NextDec Units Decide Greedy ProofRound ProofSession ProofWhatwg ProofRecover ProofSubst PropCalls PropRound PropSearch.
Import ListNotations.
Local Open Scope nat_scope.

(* The data v is such that reading can resume at its start, whatever stands before it. *)
Definition resumes (e : encoding) (v : list N) : Prop :=
  let utf16 big := length v <> 1 /\ forall b0 b1 r, v = b0 :: b1 :: r -> ~ (0xDC00 <= value16 big b0 b1 < 0xE000)%N in
  match e with
  | Utf8 => 3 <= length v /\ forall b r, v = b :: r -> ~ not_a_start b
  | Utf16BE => utf16 true
  | Utf16LE => utf16 false
  | Utf32BE | Utf32LE | Single _ => True
  | Big5WHATWG | ShiftJISWHATWG => forall b r, v = b :: r -> (b < 0x40)%N
  end.

Definition aligned (e : encoding) (g : list N) : Prop := exists k, length g = k * code_unit e.

Lemma value16_unit big x y r : unit16 big x = y -> (x < 65536)%N -> y ++ r = nth 0 y 0%N :: nth 1 y 0%N :: r /\ value16 big (nth 0 y 0%N) (nth 1 y 0%N) = x.
Proof. intros <- X. unfold unit16, value16. destruct big; cbn; (split; [reflexivity|lia]). Qed.

Lemma cross16 big d g y t : scalar d -> utf16_char big d = g ++ y -> g <> [] -> y <> [] -> (exists k, length g = k * 2) ->
  (forall b0 b1 r, y ++ t = b0 :: b1 :: r -> ~ (0xDC00 <= value16 big b0 b1 < 0xE000)%N) -> False.
Proof.
  intros Sd Ew Nx Ny [k Lk] H. unfold utf16_char in Ew. unfold scalar in Sd. destruct (N.ltb_spec d 0x10000).
  { apply (f_equal (@length N)) in Ew. rewrite app_length, unit16_len in Ew. destruct g, y; cbn [length] in *; try congruence; lia. }
  pose proof (f_equal (@length N) Ew) as L. rewrite !app_length, !unit16_len in L.
  assert (L2 : length g = 2) by (destruct g, y; cbn [length] in *; try congruence; lia).
  apply (f_equal (skipn 2)) in Ew. rewrite !skipn_app, unit16_len, L2, (skipn_all2 (unit16 _ _)), (skipn_all2 g), Nat.sub_diag in Ew by (rewrite ?unit16_len; lia).
  cbn [skipn app] in Ew.
  destruct (value16_unit big _ y t Ew) as [E V]; [lia|]. apply (H _ _ _ E). rewrite V. lia.
Qed.

Lemma no_cross e g y t u : DecUnit e (g ++ y) u -> g <> [] -> y <> [] -> aligned e g -> resumes e (y ++ t) -> False.
Proof.
  intros U Ng Ny A R. destruct e; cbn [DecUnit resumes] in *.
  - destruct U as (c & C & E & _). destruct R as [_ R]. destruct (utf8_char_head c C) as (h & q & Eh & _ & F).
    rewrite Eh in E. destruct g as [|x0 x]; [congruence|]. cbn [app] in E. injection E as <- <-. rewrite Forall_app in F. destruct F as [_ F].
    destruct y as [|y0 y]; [congruence|]. inversion F; subst. apply (R y0 (y ++ t) eq_refl). left. lia.
  - destruct U as (c & C & E & _). destruct R as [_ R]. exact (cross16 true c g y t C (eq_sym E) Ng Ny A R).
  - destruct U as (c & C & E & _). destruct R as [_ R]. exact (cross16 false c g y t C (eq_sym E) Ng Ny A R).
  - destruct U as (c & C & E & _), A as [k A]. apply (f_equal (@length N)) in E. rewrite app_length in E. cbn in E, A.
    destruct g, y; cbn [length] in *; try congruence; lia.
  - destruct U as (c & C & E & _), A as [k A]. apply (f_equal (@length N)) in E. rewrite app_length in E. cbn in E, A.
    destruct g, y; cbn [length] in *; try congruence; lia.
  - destruct y as [|y0 y]; [congruence|]. specialize (R y0 (y ++ t) eq_refl).
    assert (T : forall h l, g ++ y0 :: y = [h; l] -> (0x40 <= l)%N -> False).
    { intros h l E L. destruct g as [|x0 [|x1 x]]; [congruence| |]; cbn [app] in E; [injection E as _ -> _; lia|].
      injection E as _ _ E. apply app_eq_nil in E. destruct E; discriminate. }
    assert (S : forall h, g ++ y0 :: y = [h] -> False).
    { intros h E. destruct g as [|x0 x]; [congruence|]. cbn [app] in E. injection E as _ E. apply app_eq_nil in E. destruct E; discriminate. }
    destruct U as [(h & _ & E & _)|[(p & c & _ & E & _)|(p & _ & E)]]; [eapply S, E| |];
      (eapply T; [exact E|]); destruct (_ <? 0x3F)%N; lia.
  - destruct y as [|y0 y]; [congruence|]. specialize (R y0 (y ++ t) eq_refl).
    assert (T : forall h l, g ++ y0 :: y = [h; l] -> (0x40 <= l)%N -> False).
    { intros h l E L. destruct g as [|x0 [|x1 x]]; [congruence| |]; cbn [app] in E; [injection E as _ -> _; lia|].
      injection E as _ _ E. apply app_eq_nil in E. destruct E; discriminate. }
    assert (S : forall h, g ++ y0 :: y = [h] -> False).
    { intros h E. destruct g as [|x0 x]; [congruence|]. cbn [app] in E. injection E as _ E. apply app_eq_nil in E. destruct E; discriminate. }
    destruct U as [(h & _ & E & _)|[(h & _ & E & _)|[(p & c & _ & E & _)|(p & _ & E & _)]]]; try (eapply S, E);
      (eapply T; [exact E|]); destruct (_ <? 0x3F)%N; lia.
  - destruct U as (b & c & _ & E & _). apply (f_equal (@length N)) in E. rewrite app_length in E. cbn in E.
    destruct g, y; cbn [length] in *; try congruence; lia.
Qed.

(* what one code sequence takes and gives *)
Lemma unit_sizes e w u : DecUnit e w u -> aligned e w /\ 1 <= length w /\ length u <= length w.
Proof.
  intros U. destruct (dec_unit_shape _ _ _ U) as (_ & L & _). assert (L1 : 1 <= length w) by lia.
  assert (O : code_unit e = 1 -> aligned e w) by (intros C; exists (length w); rewrite C; lia).
  destruct e; cbn [DecUnit] in U; (split; [try (apply O; reflexivity)|split; [exact L1|]]).
  all: try (destruct U as (c & C & Ew & ->); cbn [length]; lia).
  all: try (destruct U as (c & C & -> & ->); unfold aligned, utf16_char, utf32_char; cbn [code_unit];
    try (destruct (c <? 0x10000)%N); rewrite ?app_length, ?unit16_len; [exists 1|exists 2]; reflexivity).
  all: try (destruct U as (c & C & -> & ->); exists 1; reflexivity).
  - destruct U as [(h & _ & -> & ->)|[(p & c & _ & -> & ->)|(p & I & ->)]]; cbn [length]; try lia.
    change (length u <= 2). clear - I. unfold big5_sequences in I. cbn [In] in I.
    repeat (destruct I as [I|I]; [injection I as _ <-; cbn; lia|]). destruct I.
  - destruct U as [(h & _ & -> & ->)|[(h & _ & -> & ->)|[(p & c & _ & -> & ->)|(p & _ & -> & ->)]]]; cbn; lia.
  - destruct U as (b & c & _ & -> & ->). cbn. lia.
Qed.


Lemma aligned_skip e w g : aligned e w -> aligned e (w ++ g) -> aligned e g.
Proof.
  intros [a A] [b B]. exists (b - a). rewrite app_length in B. rewrite Nat.mul_sub_distr_r. lia.
Qed.

(* neither a code sequence nor a reported error reaches into data at which reading resumes *)
Lemma bad_stays e g v n : g <> [] -> aligned e g -> resumes e v -> ErrorLength e (g ++ v) n -> n <= length g /\ aligned e (firstn n g).
Proof.
  intros Ng [k A] R [Hn H]. assert (Lg : 1 <= length g) by (destruct g; [congruence|cbn; lia]). rewrite app_length in *.
  assert (O : code_unit e = 1 -> n <= length g -> n <= length g /\ aligned e (firstn n g)).
  { intros C L. split; [exact L|]. exists (length (firstn n g)). rewrite C. lia. }
  assert (O' : n = code_unit e -> n <= length g -> n <= length g /\ aligned e (firstn n g)).
  { intros C L. split; [exact L|]. exists 1. rewrite firstn_length. lia. }
  assert (A16 : forall big, (exists b0 b1 r, g ++ v = b0 :: b1 :: r /\ length r < 2 /\ (0xD800 <= value16 big b0 b1 < 0xDC00)%N) -> length g + length v < 4).
  { intros big (b0 & b1 & r & E & L & _). apply (f_equal (@length N)) in E. rewrite app_length in E. cbn in E. lia. }
  destruct e; cbn [code_unit] in *; cbn [resumes] in R.
  - apply O; [reflexivity|]. destruct R as [L R], H as [_ H].
    assert (NI : ~ Incomplete Utf8 (g ++ v)).
    { intros (b & r & E & X). rewrite app_length in X. unfold announced in X. repeat destruct (_ && _); lia. }
    destruct (H NI) as [H' _]. destruct (le_lt_dec n (length g)) as [|G]; [assumption|]. exfalso.
    destruct v as [|b r]; [cbn in L; lia|]. apply (R b r eq_refl). apply (H' (length g) b); [lia|].
    rewrite nth_error_app2, Nat.sub_diag by lia. reflexivity.
  - destruct R as [L R], H as [H1 H2]. assert (n = 2); [|apply O'; lia]. destruct (Nat.eq_dec n 2) as [|Q]; [assumption|]. apply H2.
    intros D. apply Q. rewrite (H1 D). destruct D as [D|D]; [rewrite app_length in D|apply A16 in D]; lia.
  - destruct R as [L R], H as [H1 H2]. assert (n = 2); [|apply O'; lia]. destruct (Nat.eq_dec n 2) as [|Q]; [assumption|]. apply H2.
    intros D. apply Q. rewrite (H1 D). destruct D as [D|D]; [rewrite app_length in D|apply A16 in D]; lia.
  - destruct H as [_ H]. assert (NI : ~ Incomplete Utf32BE (g ++ v)) by (cbn [Incomplete]; rewrite app_length; lia).
    apply O'; [apply H, NI|rewrite (H NI); lia].
  - destruct H as [_ H]. assert (NI : ~ Incomplete Utf32LE (g ++ v)) by (cbn [Incomplete]; rewrite app_length; lia).
    apply O'; [apply H, NI|rewrite (H NI); lia].
  - apply O; [reflexivity|]. destruct H as [[-> (b1 & b2 & r & E & _ & Q)]|[-> _]]; [|lia].
    destruct g as [|x [|y g]]; cbn [length] in *; [lia| |lia]. cbn [app] in E. injection E as _ ->. specialize (R _ _ eq_refl). lia.
  - apply O; [reflexivity|]. destruct H as [[-> (b1 & b2 & r & E & _ & Q)]|[-> _]]; [|lia].
    destruct g as [|x [|y g]]; cbn [length] in *; [lia| |lia]. cbn [app] in E. injection E as _ ->. specialize (R _ _ eq_refl). lia.
  - apply O; [reflexivity|lia].
Qed.

Lemma reads_resume e v : bytes v -> resumes e v -> forall g, bytes g -> aligned e g -> forall cs r,
  Reads (dec_next e true) (g ++ v) cs -> Reads (dec_next e true) v r -> exists l, cs = l ++ r /\ length l <= length g /\ text l.
Proof.
  intros Bv Rv g. remember (length g) as m eqn:Em. revert g Em. induction m as [m IH] using lt_wf_ind. intros g -> Bg A cs r H Hr.
  destruct (list_eq_dec N.eq_dec g []) as [->|Ng].
  { exists []. split; [exact (Reads_det _ _ _ _ H Hr)|]. split; [cbn; lia|constructor]. }
  assert (Bb : bytes (g ++ v)) by (apply bytes_app; auto).
  inversion H as [? E|? k u cs' E H'|? n cs' E H']; subst.
  - apply dec_next_end in E; [|exact Bb]. apply app_eq_nil in E. destruct E; congruence.
  - destruct (dec_next_unit _ _ _ _ _ Bb E) as (Hk & U).
    assert (L : k <= length g).
    { destruct (le_lt_dec k (length g)) as [|G]; [assumption|]. exfalso.
      rewrite firstn_app, firstn_all2 in U by lia. rewrite app_length in Hk.
      apply (no_cross e g (firstn (k - length g) v) (skipn (k - length g) v) u U Ng); [|exact A|rewrite firstn_skipn; exact Rv].
      intros X. apply (f_equal (@length N)) in X. rewrite firstn_length in X. cbn in X. lia. }
    rewrite skipn_app in H'. replace (k - length g) with 0 in H' by lia. cbn [skipn] in H'.
    rewrite firstn_app in U. replace (k - length g) with 0 in U by lia. rewrite firstn_O, app_nil_r in U.
    destruct (unit_sizes _ _ _ U) as (Aw & _ & Lu). rewrite firstn_length, Nat.min_l in Lu by lia.
    destruct (IH (length (skipn k g))) with (g := skipn k g) (cs := cs') (r := r) as (l & -> & Ll & T); auto.
    { rewrite skipn_length. lia. } { apply bytes_skipn, Bg. } { apply (aligned_skip e (firstn k g)); [exact Aw|rewrite firstn_skipn; exact A]. }
    exists (u ++ l). split; [apply app_assoc|]. rewrite skipn_length in Ll. rewrite app_length. split; [lia|].
    apply Forall_app. split; [apply (dec_unit_shape _ _ _ U)|exact T].
  - pose proof (dec_next_facts e true (g ++ v) Bb) as F. rewrite E in F. destruct F as [F _].
    destruct (bad_stays e g v n Ng A Rv F) as [L An]. assert (1 <= n) by apply F.
    rewrite skipn_app in H'. replace (n - length g) with 0 in H' by lia. cbn [skipn] in H'.
    destruct (IH (length (skipn n g))) with (g := skipn n g) (cs := cs') (r := r) as (l & -> & Ll & T); auto.
    { rewrite skipn_length. lia. } { apply bytes_skipn, Bg. } { apply (aligned_skip e (firstn n g)); [exact An|rewrite firstn_skipn; exact A]. }
    exists (replacement :: l). split; [reflexivity|]. rewrite skipn_length in Ll. cbn [length]. split; [lia|].
    constructor; [|exact T]. unfold replacement, scalar. lia.
Qed.

(* Behind any damage, the client emits for v what it emits for v alone; the damaged part costs at most as many
   characters as it has bytes. *)
Theorem C76_resume : forall e g v s s', bytes g -> bytes v -> (exists k, length g = k * code_unit e) -> resumes e v ->
  Recovered e (g ++ v) s -> Recovered e v s' -> exists l, text l /\ length l <= length g /\ s = utf8 l ++ s'.
Proof.
  intros e g v s s' Bg Bv A R H H'. destruct (recovered_reads _ _ _ H (proj2 (bytes_app g v) (conj Bg Bv))) as (cs & -> & X).
  destruct (recovered_reads _ _ _ H' Bv) as (r & -> & Y). destruct (reads_resume e v Bv R g Bg A cs r X Y) as (l & -> & L & T).
  exists l. rewrite utf8_app. auto.
Qed.

(* Except in UTF-8, an error before v has the extent that it has without v. *)
Lemma bad_same e g v n n' : e <> Utf8 -> g <> [] -> aligned e g -> resumes e v -> ErrorLength e (g ++ v) n -> ErrorLength e g n' -> n' = n.
Proof.
  intros N8 Ng [k A] R [Hn H] [Hn' H']. assert (Lg : 1 <= length g) by (destruct g; [congruence|cbn; lia]). rewrite app_length in Hn.
  assert (I16 : forall big x, (length x = 1 \/ exists b0 b1 r, x = b0 :: b1 :: r /\ length r < 2 /\ (0xD800 <= value16 big b0 b1 < 0xDC00)%N) -> length x < 4).
  { intros big x [E|(b0 & b1 & r & -> & L & _)]; [lia|cbn; lia]. }
  destruct e; cbn [code_unit] in A; cbn [resumes] in R; try congruence.
  - assert (X : n = 2).
    { destruct R as [L R], H as [H1 H2]. destruct (Nat.eq_dec n 2) as [|Q]; [assumption|]. apply H2. intros D. apply Q. rewrite (H1 D). apply I16 in D. rewrite app_length in *. lia. }
    subst n. destruct H' as [H1 H2]. destruct (Nat.eq_dec n' 2) as [|Q]; [assumption|]. apply H2. intros D. apply Q. rewrite (H1 D). apply I16 in D. lia.
  - assert (X : n = 2).
    { destruct R as [L R], H as [H1 H2]. destruct (Nat.eq_dec n 2) as [|Q]; [assumption|]. apply H2. intros D. apply Q. rewrite (H1 D). apply I16 in D. rewrite app_length in *. lia. }
    subst n. destruct H' as [H1 H2]. destruct (Nat.eq_dec n' 2) as [|Q]; [assumption|]. apply H2. intros D. apply Q. rewrite (H1 D). apply I16 in D. lia.
  - destruct H as [_ H], H' as [_ H']. rewrite H, H'; [reflexivity| |]; cbn [Incomplete]; rewrite ?app_length; lia.
  - destruct H as [_ H], H' as [_ H']. rewrite H, H'; [reflexivity| |]; cbn [Incomplete]; rewrite ?app_length; lia.
  - destruct H as [[-> (b1 & b2 & r & E & Q)]|[-> H]], H' as [[-> (c1 & c2 & r' & E' & Q')]|[-> H']]; try reflexivity; exfalso.
    + destruct g as [|x [|y g]]; cbn [app] in E; [congruence| |].
      * injection E as _ ->. specialize (R _ _ eq_refl). lia.
      * apply H'. injection E as -> -> _. exists b1, b2, g. auto.
    + apply H. rewrite E'. exists c1, c2, (r' ++ v). auto.
  - destruct H as [[-> (b1 & b2 & r & E & Q)]|[-> H]], H' as [[-> (c1 & c2 & r' & E' & Q')]|[-> H']]; try reflexivity; exfalso.
    + destruct g as [|x [|y g]]; cbn [app] in E; [congruence| |].
      * injection E as _ ->. specialize (R _ _ eq_refl). lia.
      * apply H'. injection E as -> -> _. exists b1, b2, g. auto.
    + apply H. rewrite E'. exists c1, c2, (r' ++ v). auto.
Qed.

Lemma reads_split e v : e <> Utf8 -> bytes v -> resumes e v -> forall g, bytes g -> aligned e g -> forall cs l r,
  Reads (dec_next e true) (g ++ v) cs -> Reads (dec_next e true) g l -> Reads (dec_next e true) v r -> cs = l ++ r.
Proof.
  intros N8 Bv Rv g Bg A cs l r H Hl Hr. revert A cs H. induction Hl as [g E|g k u l E Hl IH|g n l E Hl IH]; intros A cs H.
  - apply dec_next_end in E; [|exact Bg]. subst g. exact (Reads_det _ _ _ _ H Hr).
  - destruct (dec_next_unit _ _ _ _ _ Bg E) as (Hk & U). destruct (unit_sizes _ _ _ U) as (Aw & _).
    pose proof (dec_next_app e true true g v k u Bg E) as E2.
    inversion H as [? E'|? k' u' cs' E' H'|? n' cs' E' H']; subst; rewrite E2 in E'; try discriminate E'. injection E' as <- <-.
    rewrite skipn_app in H'. replace (k - length g) with 0 in H' by lia. cbn [skipn] in H'. rewrite <- app_assoc. f_equal.
    apply IH; [apply bytes_skipn, Bg| |exact H']. apply (aligned_skip e (firstn k g)); [exact Aw|rewrite firstn_skipn; exact A].
  - assert (Bb : bytes (g ++ v)) by (apply bytes_app; auto).
    assert (Ng : g <> []) by (intros ->; rewrite dec_next_nil in E; discriminate).
    pose proof (dec_next_facts e true g Bg) as F. rewrite E in F. destruct F as [F _].
    inversion H as [? E'|? k' u' cs' E' H'|? n' cs' E' H']; subst.
    + apply dec_next_end in E'; [|exact Bb]. apply app_eq_nil in E'. destruct E'; congruence.
    + exfalso. destruct (dec_next_unit _ _ _ _ _ Bb E') as (Hk & U). destruct (le_lt_dec k' (length g)) as [L|G].
      * rewrite firstn_app in U. replace (k' - length g) with 0 in U by lia. rewrite firstn_O, app_nil_r in U.
        assert (X : dec_next e true g = DUnit k' u') by (apply dec_next_unit_iff; [exact Bg|split; [lia|exact U]]). congruence.
      * rewrite firstn_app, firstn_all2 in U by lia. rewrite app_length in Hk.
        apply (no_cross e g (firstn (k' - length g) v) (skipn (k' - length g) v) u' U Ng); [|exact A|rewrite firstn_skipn; exact Rv].
        intros X. apply (f_equal (@length N)) in X. rewrite firstn_length in X. cbn in X. lia.
    + pose proof (dec_next_facts e true (g ++ v) Bb) as F'. rewrite E' in F'. destruct F' as [F' _].
      assert (n = n') by exact (bad_same e g v n' n N8 Ng A Rv F' F). subst n'. destruct (bad_stays e g v n Ng A Rv F') as [L An].
      rewrite skipn_app in H'. replace (n - length g) with 0 in H' by lia. cbn [skipn] in H'. cbn [app]. f_equal.
      apply IH; [apply bytes_skipn, Bg| |exact H']. apply (aligned_skip e (firstn n g)); [exact An|rewrite firstn_skipn; exact A].
Qed.

(* Except in UTF-8, data can be cut there and the parts be read separately, errors and all. *)
Theorem C76_split : forall e g v s s1 s2, e <> Utf8 -> bytes g -> bytes v -> (exists k, length g = k * code_unit e) -> resumes e v ->
  Recovered e (g ++ v) s -> Recovered e g s1 -> Recovered e v s2 -> s = s1 ++ s2.
Proof.
  intros e g v s s1 s2 N8 Bg Bv A R H H1 H2. destruct (recovered_reads _ _ _ H (proj2 (bytes_app g v) (conj Bg Bv))) as (cs & -> & X).
  destruct (recovered_reads _ _ _ H1 Bg) as (l & -> & L). destruct (recovered_reads _ _ _ H2 Bv) as (r & -> & Y).
  rewrite (reads_split e v N8 Bv R g Bg A cs l r X L Y). apply utf8_app.
Qed.

(* In UTF-8 the first part alone can lose text: a lead byte near its end hides what follows. *)
Theorem C76_split_utf8_refuted : exists g v s s1 s2, bytes g /\ bytes v /\ resumes Utf8 v /\
  Recovered Utf8 (g ++ v) s /\ Recovered Utf8 g s1 /\ Recovered Utf8 v s2 /\ s <> s1 ++ s2.
Proof.
  assert (Z : forall bs, bytes bs -> Recovered Utf8 bs (fst (recover_loop Utf8 bs (repeat (repeat 0%N 4) (length bs))))).
  { intros bs B. apply (recover_loop_done Utf8); [exact B| |rewrite repeat_length; lia].
    apply Forall_forall. intros o Ho. apply repeat_spec in Ho. subst o. cbn. lia. }
  set (g := [0xE3; 0x41]%N). set (v := [0x41; 0x41; 0x41]%N).
  assert (Bg : bytes g) by (repeat constructor). assert (Bv : bytes v) by (repeat constructor).
  exists g, v. do 3 eexists. split; [exact Bg|]. split; [exact Bv|].
  split; [split; [cbn; lia|intros b r E; injection E as <- _; unfold not_a_start; lia]|].
  split; [apply Z, bytes_app; auto|]. split; [apply Z, Bg|]. split; [apply Z, Bv|]. vm_compute. discriminate.
Qed.

(* Intact data before the damage is read as before. *)
Theorem C76_before : forall e a x l s s', decodes e a l -> bytes x -> Recovered e (a ++ x) s -> Recovered e x s' -> s = utf8 l ++ s'.
Proof.
  intros e a x l s s' D Bx H H'. assert (Ba : bytes a) by apply D. apply decodes_iff in D.
  destruct (recovered_reads _ _ _ H (proj2 (bytes_app a x) (conj Ba Bx))) as (cs & -> & X).
  destruct (recovered_reads _ _ _ H' Bx) as (r & -> & Y). rewrite <- utf8_app. f_equal.
  clear H H' Ba Bx. revert cs X. induction D as [|w u a l U D IH]; intros cs X; [exact (Reads_det _ _ _ _ X Y)|].
  rewrite <- app_assoc in X. inversion X as [? E|? k u' cs' E H'|? n cs' E H']; subst; rewrite (dec_unit_next e w u) in E by exact U; try discriminate E.
  injection E as <- <-. rewrite skipn_len_app in H'. rewrite (IH _ H'), app_assoc. reflexivity.
Qed.

Lemma start8 c : scalar c -> exists b r, utf8_char c = b :: r /\ ~ not_a_start b.
Proof. unfold scalar, utf8_char, not_a_start. intros H. repeat bcase; eexists _, _; (split; [reflexivity|lia]). Qed.

(* data that decodes as it stands, and what else it takes for reading to resume there *)
Lemma decodes_resumes e v r : decodes e v r ->
  match e with Utf8 => 3 <= length v | Big5WHATWG | ShiftJISWHATWG => forall b t, v = b :: t -> (b < 0x40)%N | _ => True end -> resumes e v.
Proof.
  rewrite decodes_iff. intros D X.
  assert (H16 : forall big, (forall w u, DecUnit e w u <-> exists c, scalar c /\ w = utf16_char big c /\ u = [c]) ->
    length v <> 1 /\ forall b0 b1 t, v = b0 :: b1 :: t -> ~ (0xDC00 <= value16 big b0 b1 < 0xE000)%N).
  { intros big E. destruct (Decoded_inv _ _ _ D) as [[-> _]|(w & u & b & c & -> & -> & U & _)]; [split; [cbn; lia|discriminate]|].
    apply E in U. destruct U as (d & C & -> & _). destruct (utf16_head big d C) as (z & q & -> & V). rewrite <- app_assoc.
    split; [rewrite app_length, unit16_len; lia|]. destruct (value16_unit big z _ (q ++ b) eq_refl) as [-> W]; [lia|].
    intros b0 b1 t Eq. injection Eq as <- <- _. rewrite W. lia. }
  destruct e; cbn [resumes]; auto; try (apply H16; intros; reflexivity).
  split; [exact X|]. destruct (Decoded_inv _ _ _ D) as [[-> _]|(w & u & b & c & -> & -> & (d & C & -> & _) & _)]; [discriminate|].
  destruct (start8 d C) as (h & q & -> & Hh). intros b0 t Eq. injection Eq as <- _. exact Hh.
Qed.

(* The middle of the data is arbitrary; what surrounds it decodes to l and r. *)
Theorem C76_damage_is_local : forall e a m v l r s, decodes e a l -> decodes e v r -> bytes m -> (exists k, length m = k * code_unit e) ->
  match e with Utf8 => 3 <= length v | Big5WHATWG | ShiftJISWHATWG => forall b t, v = b :: t -> (b < 0x40)%N | _ => True end ->
  Recovered e (a ++ m ++ v) s -> exists x, text x /\ length x <= length m /\ s = utf8 (l ++ x ++ r).
Proof.
  intros e a m v l r s A V Bm K X H. pose proof (decodes_resumes e v r V X) as R. assert (Bv : bytes v) by apply V.
  assert (Bmv : bytes (m ++ v)) by (apply bytes_app; auto).
  assert (Z : forall bs, bytes bs -> exists s', Recovered e bs s').
  { intros bs B. exists (fst (recover_loop e bs (repeat (repeat 0%N 64) (length bs)))).
    apply (recover_loop_done e); [exact B| |rewrite repeat_length; lia]. apply Forall_forall. intros o Ho. apply repeat_spec in Ho. subst o. destruct e; cbn; lia. }
  destruct (Z _ Bmv) as (s1 & H1). destruct (Z _ Bv) as (s2 & H2).
  assert (E2 : s2 = utf8 r).
  { rewrite <- (app_nil_r v) in H2. rewrite (C76_before e v [] r s2 [] V (Forall_nil _) H2 (rec_end e)), app_nil_r. reflexivity. }
  destruct (C76_resume e m v s1 s2 Bm Bv K R H1 H2) as (x & T & L & ->). exists x. split; [exact T|]. split; [exact L|].
  rewrite (C76_before e a (m ++ v) l s _ A Bmv H H1), !utf8_app, E2. reflexivity.
Qed.

(** ** Examples, and why the conditions are there *)

(* a character cut in half in UTF-8; a lone high surrogate in UTF-16; a lone lead byte in Shift JIS *)
Example C76_example_utf8 : recover_loop Utf8 [0xC3; 0xA9; 0xE3; 0x81; 0x41; 0x42; 0x43]%N (repeat (repeat 0%N 4) 7)
  = (utf8 ([0xE9] ++ [0xFFFD] ++ [0x41; 0x42; 0x43])%N, []).
Proof. vm_compute. reflexivity. Qed.
Example C76_example_utf16 : recover_loop Utf16LE [0x41; 0x00; 0x3D; 0xD8; 0x42; 0x00]%N (repeat (repeat 0%N 4) 6)
  = (utf8 ([0x41] ++ [0xFFFD] ++ [0x42])%N, []).
Proof. vm_compute. reflexivity. Qed.
Example C76_example_sjis : recover_loop ShiftJISWHATWG [0xB1; 0x81; 0x0A; 0x41]%N (repeat (repeat 0%N 4) 4)
  = (utf8 ([0xFF71] ++ [0xFFFD] ++ [0x0A; 0x41])%N, []).
Proof. vm_compute. reflexivity. Qed.

(* damage m before the intact data v, which decodes to r, can make r disappear *)
Definition swallowed (e : encoding) (m v r : list N) : Prop :=
  bytes m /\ decodes e v r /\ exists s, Recovered e (m ++ v) s /\ forall x, s <> utf8 (x ++ r).

Lemma swallowed_intro e m v r z : bytes m -> decodes e v (r ++ [0x41%N]) ->
  fst (recover_loop e (m ++ v) (repeat (repeat 0%N 4) (length (m ++ v)))) = z -> last z 0%N <> 0x41%N -> swallowed e m v (r ++ [0x41%N]).
Proof.
  intros Bm D E L. split; [exact Bm|]. split; [exact D|]. exists z. split.
  - rewrite <- E. apply (recover_loop_done e); [apply bytes_app; split; [exact Bm|apply D]| |rewrite repeat_length; lia].
    apply Forall_forall. intros o Ho. apply repeat_spec in Ho. subst o. cbn. lia.
  - intros x ->. apply L. rewrite app_assoc, utf8_app. change (utf8 [0x41%N]) with [0x41%N]. apply last_last.
Qed.

Local Ltac swallow r := eapply (swallowed_intro _ _ _ r); [chars|decodes_to|vm_compute; reflexivity|discriminate].

(* two bytes are too few behind damaged UTF-8; the data has to resume at a code unit; and ASCII letters do not do
   behind damaged Big5 or Shift JIS *)
Theorem C76_conditions_needed :
  swallowed Utf8 [0xF0]%N [0x41; 0x41]%N [0x41; 0x41]%N /\
  swallowed Utf16BE [0]%N [0; 0x41]%N [0x41]%N /\
  swallowed Utf16LE [0]%N [0x41; 0]%N [0x41]%N /\
  swallowed Utf32BE [0]%N [0; 0; 0; 0x41]%N [0x41]%N /\
  swallowed Utf32LE [0]%N [0x41; 0; 0; 0]%N [0x41]%N /\
  swallowed ShiftJISWHATWG [0x81]%N [0x41]%N [0x41]%N /\
  swallowed Big5WHATWG [0xA4]%N [0x41]%N [0x41]%N.
Proof.
  repeat match goal with |- _ /\ _ => split end.
  - swallow [0x41%N].
  - swallow (@nil N).
  - swallow (@nil N).
  - swallow (@nil N).
  - swallow (@nil N).
  - swallow (@nil N).
  - swallow (@nil N).
Qed.

(* The conditions on data v that need not be intact. Behind g, what is emitted for v alone is not emitted: *)
Definition not_resumed (e : encoding) (g v : list N) : Prop := bytes g /\ bytes v /\ aligned e g /\
  exists s s', Recovered e (g ++ v) s /\ Recovered e v s' /\ forall l, s <> utf8 l ++ s'.
(* the two parts on their own yield something else: *)
Definition not_split (e : encoding) (g v : list N) : Prop := bytes g /\ bytes v /\ aligned e g /\
  exists s s1 s2, Recovered e (g ++ v) s /\ Recovered e g s1 /\ Recovered e v s2 /\ s <> s1 ++ s2.

Lemma run_recovered e bs : bytes bs -> Recovered e bs (fst (recover_loop e bs (repeat (repeat 0%N 4) (length bs)))).
Proof.
  intros B. apply (recover_loop_done e); [exact B| |rewrite repeat_length; lia].
  apply Forall_forall. intros o Ho. apply repeat_spec in Ho. subst o. cbn. lia.
Qed.

Lemma ends_otherwise (s s' : list N) : skipn (length s - length s') s <> s' -> forall l, s <> l ++ s'.
Proof.
  intros H l ->. apply H. rewrite app_length. replace (length l + length s' - length s') with (length l) by lia. apply skipn_len_app.
Qed.

(* a UTF-8 continuation byte, and a low surrogate; a single byte in UTF-16 matters only to the reading in parts *)
Theorem C76_general_conditions_needed : not_resumed Utf8 [0xC3]%N [0xA9; 0x41; 0x41]%N /\
  not_resumed Utf16BE [0xD8; 0x3D]%N [0xDC; 0x00]%N /\ not_resumed Utf16LE [0x3D; 0xD8]%N [0x00; 0xDC]%N /\
  not_split Utf16BE [0xD8; 0x3D]%N [0]%N /\ not_split Utf16LE [0x3D; 0xD8]%N [0]%N.
Proof.
  assert (R : forall e g v, bytes g -> bytes v -> aligned e g ->
    (let run bs := fst (recover_loop e bs (repeat (repeat 0%N 4) (length bs))) in
     skipn (length (run (g ++ v)) - length (run v)) (run (g ++ v)) <> run v) -> not_resumed e g v).
  { intros e g v Bg Bv A H. split; [exact Bg|]. split; [exact Bv|]. split; [exact A|]. do 2 eexists.
    split; [apply run_recovered, bytes_app; auto|]. split; [apply run_recovered, Bv|]. intros l. apply ends_otherwise, H. }
  assert (S : forall e g v, bytes g -> bytes v -> aligned e g ->
    (let run bs := fst (recover_loop e bs (repeat (repeat 0%N 4) (length bs))) in run (g ++ v) <> run g ++ run v) -> not_split e g v).
  { intros e g v Bg Bv A H. split; [exact Bg|]. split; [exact Bv|]. split; [exact A|]. do 3 eexists.
    split; [apply run_recovered, bytes_app; auto|]. split; [apply run_recovered, Bg|]. split; [apply run_recovered, Bv|exact H]. }
  repeat match goal with |- _ /\ _ => split end; first [apply R|apply S]; try (chars); try (exists 1; reflexivity); vm_compute; discriminate.
Qed.

Definition all_C76 := (C76_resume, C76_split, C76_split_utf8_refuted, C76_before, C76_damage_is_local, C76_conditions_needed, C76_general_conditions_needed).
Print Assumptions all_C76.
