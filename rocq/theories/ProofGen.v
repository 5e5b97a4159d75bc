(* Correctness of the table generators for arbitrary index data. *)
From Coq Require Import List NArith PArith Arith Bool Lia ZArith Permutation Sorted.
From Verif Require Import Tac Trie ModelGen Search.
Import ListNotations.
Local Open Scope N_scope.

(** ** Sorting *)

Section Sort.
  Context {A : Type} (leb : A -> A -> bool).
  Hypothesis total : forall a b, leb a b = true \/ leb b a = true.
  Hypothesis trans : forall a b c, leb a b = true -> leb b c = true -> leb a c = true.
  Let le a b := leb a b = true.

  Lemma merge_perm : forall l1 l2, Permutation (l1 ++ l2) (merge leb l1 l2).
  Proof.
    induction l1 as [|a l1 IH1]; intros l2; [destruct l2; reflexivity|].
    induction l2 as [|b l2 IH2]; [rewrite app_nil_r; reflexivity|].
    change (merge leb (a :: l1) (b :: l2)) with (if leb a b then a :: merge leb l1 (b :: l2) else b :: merge leb (a :: l1) l2).
    destruct (leb a b).
    - cbn [app]. constructor. apply IH1.
    - rewrite <- IH2. symmetry. apply Permutation_middle.
  Qed.

  Lemma merge_sorted : forall l1 l2, StronglySorted le l1 -> StronglySorted le l2 -> StronglySorted le (merge leb l1 l2).
  Proof.
    induction l1 as [|a l1 IH1]; intros l2 H1 H2; [destruct l2; exact H2|].
    induction l2 as [|b l2 IH2]; [exact H1|].
    change (merge leb (a :: l1) (b :: l2)) with (if leb a b then a :: merge leb l1 (b :: l2) else b :: merge leb (a :: l1) l2).
    apply StronglySorted_inv in H1 as H1'. apply StronglySorted_inv in H2 as H2'. destruct H1' as [S1 F1], H2' as [S2 F2].
    destruct (leb a b) eqn:E.
    - constructor; [apply IH1; assumption|]. eapply Permutation_Forall; [apply merge_perm|]. apply Forall_app. split; [exact F1|].
      constructor; [exact E|]. eapply Forall_impl; [|exact F2]. intros c Hc. exact (trans a b c E Hc).
    - assert (Eb : leb b a = true) by (destruct (total a b); congruence).
      constructor; [apply IH2, S2|]. eapply Permutation_Forall; [apply merge_perm|]. apply Forall_app. split; [|exact F2].
      constructor; [exact Eb|]. eapply Forall_impl; [|exact F1]. intros c Hc. exact (trans b a c Eb Hc).
  Qed.

  Fixpoint flat (s : list (option (list A))) : list A :=
    match s with [] => [] | Some l :: s => l ++ flat s | None :: s => flat s end.
  Definition all_sorted (s : list (option (list A))) : Prop :=
    Forall (fun o => match o with Some l => StronglySorted le l | None => True end) s.

  Lemma push_ok : forall s l, all_sorted s -> StronglySorted le l -> all_sorted (push leb s l) /\ Permutation (l ++ flat s) (flat (push leb s l)).
  Proof.
    induction s as [|[l'|] s IH]; intros l Hs Hl; cbn [push flat].
    - split; [constructor; [exact Hl|constructor]|reflexivity].
    - inversion Hs as [|? ? Hl' Hs']; subst.
      destruct (IH (merge leb l' l) Hs' (merge_sorted l' l Hl' Hl)) as [IHs IHp].
      split; [constructor; [exact I|exact IHs]|]. rewrite <- IHp. rewrite <- merge_perm, !app_assoc.
      apply Permutation_app_tail, Permutation_app_comm.
    - inversion Hs as [|? ? _ Hs']; subst. split; [constructor; assumption|reflexivity].
  Qed.

  Lemma merge_stack_ok : forall s, all_sorted s -> StronglySorted le (merge_stack leb s) /\ Permutation (flat s) (merge_stack leb s).
  Proof.
    induction s as [|[l|] s IH]; intros Hs; cbn [merge_stack flat]; [split; constructor| |].
    - inversion Hs as [|? ? Hl Hs']; subst. destruct (IH Hs') as [S P]. split; [apply merge_sorted; assumption|].
      rewrite <- merge_perm, <- P. reflexivity.
    - inversion Hs as [|? ? _ Hs']; subst. exact (IH Hs').
  Qed.

  Lemma sort_ok l : StronglySorted le (sort leb l) /\ Permutation l (sort leb l).
  Proof.
    unfold sort. assert (G : forall l s, all_sorted s ->
      all_sorted (fold_left (fun s a => push leb s [a]) l s) /\ Permutation (flat s ++ l) (flat (fold_left (fun s a => push leb s [a]) l s))).
    { clear l. induction l as [|a l IH]; intros s Hs; cbn [fold_left]; [rewrite app_nil_r; auto|].
      destruct (push_ok s [a] Hs) as [Hs' P]; [repeat constructor|]. destruct (IH _ Hs') as [S P']. split; [exact S|].
      rewrite <- P', <- P. cbn [app]. symmetry. apply Permutation_middle. }
    destruct (G l []) as [S P]; [constructor|]. destruct (merge_stack_ok _ S) as [S' P']. split; [exact S'|].
    rewrite <- P'. exact P.
  Qed.

  (* the sorted list is unique, so list.sort() of any implementation gives it *)
  Hypothesis antisym : forall a b, leb a b = true -> leb b a = true -> a = b.
  Lemma sorted_unique : forall l l', StronglySorted le l -> StronglySorted le l' -> Permutation l l' -> l = l'.
  Proof.
    induction l as [|a l IH]; intros l' H H' P; [symmetry; apply Permutation_nil, P|].
    destruct l' as [|b l']; [apply Permutation_sym, Permutation_nil in P; discriminate|].
    apply StronglySorted_inv in H. apply StronglySorted_inv in H'. destruct H as [S F], H' as [S' F'].
    assert (a = b).
    { assert (Ha : In a (b :: l')) by (eapply Permutation_in; [exact P|left; reflexivity]).
      assert (Hb : In b (a :: l)) by (eapply Permutation_in; [apply Permutation_sym; exact P|left; reflexivity]).
      destruct Ha as [|Ha]; [auto|]. destruct Hb as [|Hb]; [auto|]. rewrite Forall_forall in F, F'. apply antisym; [apply F, Hb|apply F', Ha]. }
    subst b. f_equal. apply IH; [exact S|exact S'|]. apply Permutation_cons_inv in P. exact P.
  Qed.
End Sort.

Lemma pair_leb_total a b : pair_leb a b = true \/ pair_leb b a = true.
Proof. unfold pair_leb. lia. Qed.
Lemma pair_leb_trans a b c : pair_leb a b = true -> pair_leb b c = true -> pair_leb a c = true.
Proof. unfold pair_leb. lia. Qed.
Lemma pair_leb_antisym a b : pair_leb a b = true -> pair_leb b a = true -> a = b.
Proof. destruct a, b. unfold pair_leb. cbn [fst snd]. intros H1 H2. f_equal; lia. Qed.
Lemma entry_leb_total a b : entry_leb a b = true \/ entry_leb b a = true.
Proof. unfold entry_leb. destruct (pair_leb_total (snd a) (snd b)) as [H|H]; rewrite H; lia. Qed.
Lemma entry_leb_trans a b c : entry_leb a b = true -> entry_leb b c = true -> entry_leb a c = true.
Proof.
  unfold entry_leb. intros H1 H2. pose proof (pair_leb_trans (snd a) (snd b) (snd c)).
  destruct (pair_leb (snd a) (snd b)), (pair_leb (snd b) (snd c)); [rewrite H by reflexivity| | |]; lia.
Qed.
Lemma entry_leb_antisym a b : entry_leb a b = true -> entry_leb b a = true -> a = b.
Proof.
  destruct a as [a1 a2], b as [b1 b2]. unfold entry_leb. cbn [fst snd]. intros H1 H2.
  pose proof (pair_leb_antisym a2 b2). destruct (pair_leb a2 b2), (pair_leb b2 a2); f_equal; auto; lia.
Qed.

(* sorted by the key, and keys all different: strictly increasing keys *)
Lemma sorted_increasing {V} (leb : N * V -> N * V -> bool) l : (forall a b, leb a b = true -> fst a <= fst b) ->
  StronglySorted (fun a b => leb a b = true) l -> NoDup (map fst l) -> increasing l.
Proof.
  intros Hle H. induction H as [|a l Hs IH Ha]; intros Hn; [constructor|]. inversion Hn as [|? ? Hni Hn']; subst. constructor; [apply IH, Hn'|].
  apply Forall_forall. intros b Hb. rewrite Forall_forall in Ha. specialize (Hle a b (Ha b Hb)).
  assert (fst a <> fst b) by (intros E; apply Hni; rewrite E; apply in_map, Hb). lia.
Qed.

Lemma increasing_inv {V} (a : N * V) l : increasing (a :: l) -> increasing l /\ Forall (fun b => fst a < fst b) l.
Proof. intros H. apply StronglySorted_inv in H. exact H. Qed.

Lemma sort_index l : NoDup (map fst l) -> increasing (sort pair_leb l) /\ (forall x, In x (sort pair_leb l) <-> In x l).
Proof.
  intros H. destruct (sort_ok pair_leb pair_leb_total pair_leb_trans l) as [S P]. split.
  - eapply sorted_increasing; [|exact S|].
    + intros a b. unfold pair_leb. lia.
    + eapply Permutation_NoDup; [|exact H]. apply Permutation_map, P.
  - intros x. split; intros Hx; [eapply Permutation_in; [apply Permutation_sym; exact P|exact Hx]|eapply Permutation_in; [exact P|exact Hx]].
Qed.

(** ** The decode table *)

Lemma dec_fill_ok : forall table i, increasing table -> Forall (fun e => i <= fst e) table ->
  forall n c, nth_error (dec_fill i table) n = Some (Some c) <-> In (i + N.of_nat n, c) table.
Proof.
  induction table as [|[index cp] table IH]; intros i Hi Hge n c; cbn [dec_fill].
  - destruct n; cbn; split; [discriminate|tauto|discriminate|tauto].
  - apply increasing_inv in Hi. destruct Hi as [Hi Hlt]. inversion Hge as [|? ? Hge1 _]; subst. cbn [fst] in *.
    rewrite Forall_forall in Hlt. cbn [fst] in Hlt.
    replace (N.max i index + 1) with (index + 1) by lia.
    assert (Hge' : Forall (fun e => index + 1 <= fst e) table).
    { apply Forall_forall. intros e He. specialize (Hlt e He). lia. }
    destruct (Nat.lt_ge_cases n (N.to_nat (index - i))) as [L|L].
    + rewrite nth_error_app1 by (rewrite repeat_length; exact L). split.
      * intros H. apply nth_error_In, repeat_spec in H. discriminate.
      * intros [E|Hin]; [injection E; lia|]. specialize (Hlt _ Hin). cbn [fst] in Hlt. lia.
    + rewrite nth_error_app2 by (rewrite repeat_length; exact L). rewrite repeat_length.
      destruct (n - N.to_nat (index - i))%nat as [|m] eqn:Em.
      * cbn [nth_error]. split.
        -- intros E. injection E as ->. left. f_equal. lia.
        -- intros [E|Hin]; [congruence|]. specialize (Hlt _ Hin). cbn [fst] in Hlt. lia.
      * cbn [nth_error]. rewrite (IH (index + 1) Hi Hge'). replace (index + 1 + N.of_nat m) with (i + N.of_nat n) by lia. split.
        -- intros H. right. exact H.
        -- intros [E|H]; [injection E; lia|exact H].
Qed.

(** ** De-duplication *)

Lemma mem_add c d s : mem c (add d s) = (c =? d) || mem c s.
Proof.
  unfold mem, add. rewrite tget_set. destruct (Pos.eqb_spec (N.succ_pos d) (N.succ_pos c)); destruct (N.eqb_spec c d); try lia; reflexivity.
Qed.
Lemma mem_empty c : mem c empty = false.
Proof. reflexivity. Qed.

Lemma dedup_first_ok : forall table seen, increasing table -> forall p c,
  In (p, c) (dedup_first seen table) <-> In (p, c) table /\ mem c seen = false /\ forall q, In (q, c) table -> p <= q.
Proof.
  induction table as [|[i d] table IH]; intros seen Hi p c; cbn [dedup_first]; [cbn; tauto|].
  apply increasing_inv in Hi. destruct Hi as [Hi Hlt]. rewrite Forall_forall in Hlt. cbn [fst] in Hlt.
  assert (Hq : forall q c, In (q, c) table -> i < q) by (intros q c' H; exact (Hlt _ H)).
  destruct (mem d seen) eqn:Em.
  - rewrite (IH seen Hi). split.
    + intros (H1 & H2 & H3). split; [right; exact H1|]. split; [exact H2|]. intros q [E|Hin]; [|exact (H3 q Hin)].
      injection E as <- <-. congruence.
    + intros ([E|H1] & H2 & H3); [injection E as <- <-; congruence|]. split; [exact H1|]. split; [exact H2|].
      intros q Hin. apply H3. right. exact Hin.
  - cbn [In]. rewrite (IH (add d seen) Hi), mem_add. split.
    + intros [E|(H1 & H2 & H3)].
      * injection E as <- <-. split; [left; reflexivity|]. split; [exact Em|]. intros q [E|Hin]; [injection E as <-; lia|].
        specialize (Hq q d Hin). lia.
      * apply orb_false_elim in H2. destruct H2 as [H2 H2']. apply N.eqb_neq in H2.
        split; [right; exact H1|]. split; [exact H2'|]. intros q [E|Hin]; [injection E; congruence|exact (H3 q Hin)].
    + intros ([E|H1] & H2 & H3); [left; exact E|].
      destruct (N.eqb_spec c d) as [->|Hne].
      * exfalso. specialize (H3 i (or_introl eq_refl)). specialize (Hq p d H1). lia.
      * right. split; [exact H1|]. split; [exact H2|]. intros q Hin. apply H3. right. exact Hin.
Qed.

Lemma dedup_first_incl table : forall seen x, In x (dedup_first seen table) -> In x table /\ mem (snd x) seen = false.
Proof.
  induction table as [|[i d] table IH]; intros seen x; cbn [dedup_first]; [intros []|]. destruct (mem d seen) eqn:E.
  - intros H. destruct (IH seen x H). split; [right; assumption|assumption].
  - intros [<-|H]; [split; [left; reflexivity|exact E]|]. destruct (IH _ x H) as [H1 H2]. rewrite mem_add in H2. apply orb_false_elim in H2.
    split; [right; exact H1|apply H2].
Qed.

Lemma dedup_first_NoDup table : forall seen, NoDup (map snd (dedup_first seen table)).
Proof.
  induction table as [|[i d] table IH]; intros seen; cbn [dedup_first]; [constructor|]. destruct (mem d seen); [apply IH|].
  cbn [map snd]. constructor; [|apply IH]. intros H. apply in_map_iff in H. destruct H as ([p c] & E & H). cbn [snd] in E. subst c.
  apply dedup_first_incl in H. destruct H as [_ H]. rewrite mem_add in H. cbn [snd] in H. rewrite N.eqb_refl in H. discriminate.
Qed.

(* on a table with decreasing indices, dedup_last keeps the greatest index of the characters of keep_last *)
Definition decreasing {V} (t : list (N * V)) : Prop := StronglySorted (fun a b => fst b < fst a) t.

Lemma keep_last_spec c : existsb (N.eqb c) keep_last = true <-> In c keep_last.
Proof.
  rewrite existsb_exists. split; [intros (x & Hx & E); apply N.eqb_eq in E; subst; exact Hx|]. intros H. exists c. split; [exact H|apply N.eqb_refl].
Qed.

Lemma dedup_last_ok : forall table seen, decreasing table -> (forall c, mem c seen = true -> In c keep_last) -> forall p c,
  In (p, c) (dedup_last seen table) <->
  In (p, c) table /\ mem c seen = false /\ (In c keep_last -> forall q, In (q, c) table -> q <= p).
Proof.
  induction table as [|[i d] table IH]; intros seen Hi Hseen p c; cbn [dedup_last]; [cbn; tauto|].
  apply StronglySorted_inv in Hi. destruct Hi as [Hi Hlt]. rewrite Forall_forall in Hlt. cbn [fst] in Hlt.
  assert (Hq : forall q c, In (q, c) table -> q < i) by (intros q c' H; exact (Hlt _ H)).
  destruct (mem d seen) eqn:Em.
  - rewrite (IH seen Hi Hseen). split.
    + intros (H1 & H2 & H3). split; [right; exact H1|]. split; [exact H2|]. intros Hk q [E|Hin]; [|exact (H3 Hk q Hin)].
      injection E as <- <-. congruence.
    + intros ([E|H1] & H2 & H3); [injection E as <- <-; congruence|]. split; [exact H1|]. split; [exact H2|].
      intros Hk q Hin. apply (H3 Hk). right. exact Hin.
  - set (seen' := if existsb (N.eqb d) keep_last then add d seen else seen).
    assert (Hmem : forall x, mem x seen' = (existsb (N.eqb d) keep_last && (x =? d)) || mem x seen).
    { intros x. unfold seen'. destruct (existsb (N.eqb d) keep_last); [apply mem_add|reflexivity]. }
    assert (Hseen' : forall x, mem x seen' = true -> In x keep_last).
    { intros x Hx. rewrite Hmem in Hx. apply orb_prop in Hx. destruct Hx as [Hx|Hx]; [|exact (Hseen x Hx)].
      apply andb_prop in Hx. destruct Hx as [Hx1 Hx2]. apply N.eqb_eq in Hx2. subst x. apply keep_last_spec, Hx1. }
    clearbody seen'. cbn [In]. rewrite (IH seen' Hi Hseen'), Hmem. split.
    + intros [E|(H1 & H2 & H3)].
      * injection E as <- <-. split; [left; reflexivity|]. split; [exact Em|]. intros _ q [E|Hin]; [injection E as <-; lia|].
        specialize (Hq q d Hin). lia.
      * apply orb_false_elim in H2. destruct H2 as [H2 H2'].
        split; [right; exact H1|]. split; [exact H2'|]. intros Hk q [E|Hin]; [|exact (H3 Hk q Hin)].
        injection E as <- <-. apply keep_last_spec in Hk. rewrite Hk, N.eqb_refl in H2. discriminate.
    + intros ([E|H1] & H2 & H3); [left; exact E|]. right. split; [exact H1|]. split.
      * rewrite H2, orb_false_r. destruct (existsb (N.eqb d) keep_last) eqn:Ek; [|reflexivity].
        destruct (N.eqb_spec c d) as [->|]; [|reflexivity]. exfalso.
        specialize (H3 (proj1 (keep_last_spec d) Ek) i (or_introl eq_refl)). specialize (Hq p d H1). lia.
      * intros Hk q Hin. apply (H3 Hk). right. exact Hin.
Qed.

Lemma dedup_last_sub table : forall seen x, In x (dedup_last seen table) -> In x table.
Proof.
  induction table as [|[i d] table IH]; intros seen x; cbn [dedup_last]; [intros []|].
  destruct (mem d seen); [intros H; right; exact (IH _ _ H)|]. intros [<-|H]; [left; reflexivity|right; exact (IH _ _ H)].
Qed.

Lemma dedup_last_decreasing table : forall seen, decreasing table -> decreasing (dedup_last seen table).
Proof.
  induction table as [|[i d] table IH]; intros seen Hi; cbn [dedup_last]; [constructor|].
  apply StronglySorted_inv in Hi. destruct Hi as [Hi Hlt]. destruct (mem d seen); [apply IH, Hi|]. constructor; [apply IH, Hi|].
  rewrite Forall_forall in *. intros x Hx. apply Hlt. eapply dedup_last_sub, Hx.
Qed.

Lemma StronglySorted_snoc {A} (R : A -> A -> Prop) l x : StronglySorted R l -> Forall (fun y => R y x) l -> StronglySorted R (l ++ [x]).
Proof.
  intros H. induction H as [|a l Hs IH Ha]; intros F; cbn [app]; [repeat constructor|]. inversion F; subst. constructor; [auto|].
  apply Forall_app. split; [exact Ha|]. repeat constructor. assumption.
Qed.

Lemma rev_increasing {V} (l : list (N * V)) : increasing l -> decreasing (rev l).
Proof.
  intros H. induction H as [|a l Hs IH Ha]; cbn [rev]; [constructor|]. apply StronglySorted_snoc; [exact IH|]. apply Forall_rev, Ha.
Qed.
Lemma rev_decreasing {V} (l : list (N * V)) : decreasing l -> increasing (rev l).
Proof.
  intros H. induction H as [|a l Hs IH Ha]; cbn [rev]; [constructor|]. apply StronglySorted_snoc; [exact IH|]. apply Forall_rev, Ha.
Qed.

Lemma big5_deduped_ok table : increasing table -> forall p c,
  In (p, c) (big5_deduped_table table) <->
  In (p, c) table /\ (if in_dec N.eq_dec c keep_last then forall q, In (q, c) table -> q <= p else forall q, In (q, c) table -> p <= q).
Proof.
  intros Hi p c. unfold big5_deduped_table, rev'. rewrite <- !rev_alt.
  pose proof (rev_increasing _ Hi) as Hd.
  assert (Hl : forall p c, In (p, c) (dedup_last empty (rev table)) <-> In (p, c) table /\ (In c keep_last -> forall q, In (q, c) table -> q <= p)).
  { intros p' c'. rewrite (dedup_last_ok _ empty Hd) by discriminate. rewrite <- in_rev, mem_empty.
    split; [intros (H1 & _ & H2)|intros (H1 & H2)]; (split; [exact H1|]); [|split; [reflexivity|]];
    intros Hk q Hq; apply (H2 Hk q); [|apply in_rev in Hq]; [apply -> in_rev; exact Hq|exact Hq]. }
  rewrite dedup_first_ok by (apply rev_decreasing, dedup_last_decreasing, Hd).
  rewrite <- in_rev, Hl, mem_empty. split.
  - intros ((H1 & H2) & _ & H3). split; [exact H1|]. destruct (in_dec N.eq_dec c keep_last) as [Hk|Hk]; [exact (H2 Hk)|].
    intros q Hq. apply H3. rewrite <- in_rev. apply Hl. split; [exact Hq|]. intros Hk'. contradiction.
  - intros (H1 & H2). destruct (in_dec N.eq_dec c keep_last) as [Hk|Hk].
    + split; [split; [exact H1|intros _; exact H2]|]. split; [reflexivity|]. intros q Hq. rewrite <- in_rev in Hq. apply Hl in Hq.
      destruct Hq as [Hq1 Hq2]. exact (Hq2 Hk p H1).
    + split; [split; [exact H1|contradiction]|]. split; [reflexivity|]. intros q Hq. rewrite <- in_rev in Hq. apply Hl in Hq. apply H2, Hq.
Qed.

Lemma filter_increasing {V} f (l : list (N * V)) : increasing l -> increasing (filter f l).
Proof.
  intros H. induction H as [|a l Hs IH Ha]; cbn [filter]; [constructor|]. destruct (f a); [|exact IH]. constructor; [exact IH|].
  rewrite Forall_forall in *. intros x Hx. apply filter_In in Hx. apply Ha, Hx.
Qed.

Lemma sjis_deduped_ok table : increasing table -> forall p c,
  In (p, c) (sjis_deduped_table table) <->
  In (p, c) table /\ ~ (8272 <= p <= 8835) /\ (forall q, In (q, c) table -> ~ (8272 <= q <= 8835) -> p <= q).
Proof.
  intros Hi p c. unfold sjis_deduped_table. rewrite dedup_first_ok by (apply filter_increasing, Hi).
  assert (F : forall p, In (p, c) (filter (fun ic : N * N => (fst ic <? 8272) || (8835 <? fst ic)) table) <-> In (p, c) table /\ ~ (8272 <= p <= 8835)).
  { intros q. rewrite filter_In. cbn [fst]. split; intros [H1 H2]; (split; [exact H1|lia]). }
  rewrite F, mem_empty. split.
  - intros ((H1 & H2) & _ & H3). split; [exact H1|]. split; [exact H2|]. intros q Hq Hq'. apply H3, F. auto.
  - intros (H1 & H2 & H3). split; [auto|]. split; [reflexivity|]. intros q Hq. apply F in Hq. apply H3; apply Hq.
Qed.

(** ** The encode table *)

Lemma enc_table_ok (code : N -> N * N) l : NoDup (map snd l) ->
  let enc := sort entry_leb (map (fun ic => (snd ic, code (fst ic))) l) in
  increasing enc /\ forall c w, In (c, w) enc <-> exists p, In (p, c) l /\ w = code p.
Proof.
  intros Hn enc. destruct (sort_ok entry_leb entry_leb_total entry_leb_trans (map (fun ic => (snd ic, code (fst ic))) l)) as [S P].
  fold enc in S, P. split.
  - eapply sorted_increasing; [|exact S|].
    + intros a b. unfold entry_leb. lia.
    + eapply Permutation_NoDup; [apply Permutation_map, P|]. rewrite map_map. cbn [fst]. exact Hn.
  - intros c w. split.
    + intros H. apply (Permutation_in _ (Permutation_sym P)) in H. apply in_map_iff in H. destruct H as ([p d] & E & H).
      cbn [fst snd] in E. injection E as <- <-. eauto.
    + intros (p & H & ->). apply (Permutation_in _ P). apply in_map_iff. exists (p, c). auto.
Qed.

Lemma written_nth l n : nth_error (map written l) n = match nth_error l n with Some o => Some (written o) | None => None end.
Proof. rewrite nth_error_map. destruct (nth_error l n); reflexivity. Qed.

Lemma dec_fill_length : forall table i, increasing table -> Forall (fun e => i <= fst e) table ->
  (forall p c, In (p, c) table -> N.to_nat (p - i) < length (dec_fill i table))%nat /\
  (forall n, (n < length (dec_fill i table))%nat -> exists p c, In (p, c) table /\ i + N.of_nat n <= p).
Proof.
  intros table i Hi Hge. split.
  - intros p c Hin. apply nth_error_Some. assert (E : nth_error (dec_fill i table) (N.to_nat (p - i)) = Some (Some c)); [|congruence].
    apply (dec_fill_ok table i Hi Hge). rewrite Forall_forall in Hge. specialize (Hge _ Hin). cbn [fst] in Hge.
    replace (i + N.of_nat (N.to_nat (p - i))) with p by lia. exact Hin.
  - revert i Hi Hge. induction table as [|[index cp] table IH]; intros i Hi Hge n Hn; cbn [dec_fill length] in Hn; [lia|].
    apply increasing_inv in Hi. destruct Hi as [Hi Hlt]. inversion Hge as [|? ? Hge1 _]; subst. cbn [fst] in *.
    rewrite Forall_forall in Hlt. cbn [fst] in Hlt. replace (N.max i index + 1) with (index + 1) in Hn by lia.
    rewrite app_length, repeat_length in Hn. cbn [length] in Hn.
    destruct (Nat.le_gt_cases n (N.to_nat (index - i))) as [L|L].
    + exists index, cp. split; [left; reflexivity|]. lia.
    + destruct (IH (index + 1) Hi) with (n := (n - N.to_nat (index - i) - 1)%nat) as (p & c & Hin & L').
      * apply Forall_forall. intros e He. specialize (Hlt e He). lia.
      * lia.
      * exists p, c. split; [right; exact Hin|]. lia.
Qed.

Lemma sort_perm_eq l l' : Permutation l l' -> sort pair_leb l = sort pair_leb l'.
Proof.
  intros P. destruct (sort_ok pair_leb pair_leb_total pair_leb_trans l) as [S1 P1], (sort_ok pair_leb pair_leb_total pair_leb_trans l') as [S2 P2].
  apply (sorted_unique pair_leb pair_leb_antisym _ _ S1 S2). rewrite <- P1, P. exact P2.
Qed.

(** ** Single-byte *)

(* `seen` never becomes non-empty *)
Lemma single_byte_enc_all : forall table, single_byte_enc empty table = map (fun bc => (snd bc, fst bc)) table.
Proof. induction table as [|[b c] table IH]; [reflexivity|]. cbn [single_byte_enc map fst snd]. rewrite mem_empty. unfold intersect1. rewrite mem_empty, IH. reflexivity. Qed.

Lemma check_ascii_ok : forall n i table, increasing table -> Forall (fun e => i <= fst e) table ->
  match check_ascii n i table with
  | Some rest => (forall j, i <= j < i + N.of_nat n -> In (j, j) table) /\ increasing rest /\
                 forall x, In x rest <-> In x table /\ i + N.of_nat n <= fst x
  | None => exists j, i <= j < i + N.of_nat n /\ ~ In (j, j) table
  end.
Proof.
  induction n as [|n IH]; intros i table Hi Hge; cbn [check_ascii].
  - split; [intros j Hj; lia|]. split; [exact Hi|]. intros x. rewrite Forall_forall in Hge. split; [|tauto]. intros Hx. split; [exact Hx|].
    specialize (Hge x Hx). lia.
  - destruct table as [|[b c] table]; [exists i; cbn; split; [lia|tauto]|].
    apply increasing_inv in Hi. destruct Hi as [Hi Hlt]. inversion Hge as [|? ? Hge1 _]; subst. cbn [fst] in *. rewrite Forall_forall in Hlt. cbn [fst] in Hlt.
    destruct ((b =? i) && (c =? i)) eqn:E.
    + assert (b = i /\ c = i) as [-> ->] by lia.
      specialize (IH (i + 1) table Hi). replace (i + 1 + N.of_nat n) with (i + N.of_nat (S n)) in IH by lia.
      assert (Hge' : Forall (fun e => i + 1 <= fst e) table) by (apply Forall_forall; intros e He; specialize (Hlt e He); lia).
      specialize (IH Hge'). destruct (check_ascii n (i + 1) table) as [rest|].
      * destruct IH as (H1 & H2 & H3). split; [|split; [exact H2|]].
        -- intros j Hj. destruct (N.eq_dec j i) as [->|]; [left; reflexivity|right; apply H1; lia].
        -- intros x. rewrite H3. split; [intros [A B]; split; [right; exact A|exact B]|]. intros [[<-|A] B]; [cbn [fst] in B; lia|auto].
      * destruct IH as (j & Hj & Hn). exists j. split; [lia|]. intros [E'|Hin]; [injection E'; lia|contradiction].
    + exists i. split; [lia|]. intros [E'|Hin]; [injection E' as -> ->; lia|]. specialize (Hlt _ Hin). cbn [fst] in Hlt. lia.
Qed.

Lemma map_sub_increasing {V} (l : list (N * V)) k : increasing l -> Forall (fun e => k <= fst e) l -> increasing (map (fun bc => (fst bc - k, snd bc)) l).
Proof.
  intros H. induction H as [|a l Hs IH Ha]; intros F; cbn [map]; [constructor|]. inversion F as [|? ? F1 F2]; subst. constructor; [apply IH, F2|].
  apply Forall_forall. intros x Hx. apply in_map_iff in Hx. destruct Hx as (y & <- & Hy). rewrite Forall_forall in Ha, F2.
  specialize (Ha y Hy). specialize (F2 y Hy). cbn [fst]. lia.
Qed.

Lemma increasing_NoDup {V} (l : list (N * V)) : increasing l -> NoDup (map fst l).
Proof.
  intros H. induction H as [|a l Hs IH Ha]; cbn [map]; [constructor|]. constructor; [|exact IH]. intros Hin. apply in_map_iff in Hin.
  destruct Hin as (x & E & Hx). rewrite Forall_forall in Ha. specialize (Ha x Hx). lia.
Qed.
