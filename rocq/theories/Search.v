(* binary_search_by_key on strictly increasing tables *)
From Coq Require Import List NArith Arith Bool Lia Sorted.
From Verif Require Import Tac Prelude RustCore.
Import ListNotations.

(* first value stored for a key *)
Fixpoint assoc {V} (t : list (N * V)) (key : N) : option V :=
  match t with
  | [] => None
  | (k, v) :: r => if (k =? key)%N then Some v else assoc r key
  end.

Definition increasing {V} (t : list (N * V)) : Prop := StronglySorted (fun x y => (fst x < fst y)%N) t.

Fixpoint increasingb {V} (t : list (N * V)) : bool :=
  match t with
  | [] => true
  | x :: r => match r with [] => true | y :: _ => (fst x <? fst y)%N && increasingb r end
  end.

Lemma increasingb_ok {V} (t : list (N * V)) : increasingb t = true -> increasing t.
Proof.
  intros H. apply Sorted_StronglySorted. { intros x y z. lia. }
  induction t as [|x r IH]; constructor.
  - apply IH. destruct r; [reflexivity|]. cbn in H. apply andb_prop in H. apply H.
  - destruct r; constructor. cbn in H. apply andb_prop in H. lia.
Qed.

Lemma increasing_nth {V} (t : list (N * V)) : increasing t ->
  forall i j x y, nth_error t i = Some x -> nth_error t j = Some y -> i < j -> (fst x < fst y)%N.
Proof.
  induction 1 as [|a t Hs IH Hf]; intros i j x y Hi Hj Hij.
  - destruct i; discriminate.
  - destruct j as [|j]; [lia|]. destruct i as [|i]; cbn in Hi, Hj.
    + injection Hi as <-. rewrite Forall_forall in Hf. apply Hf. apply nth_error_In in Hj. exact Hj.
    + apply (IH i j); auto. lia.
Qed.

Lemma increasing_nth_inj {V} (t : list (N * V)) : increasing t ->
  forall i j x y, nth_error t i = Some x -> nth_error t j = Some y -> fst x = fst y -> i = j.
Proof.
  intros Ht i j x y Hi Hj E. destruct (Nat.lt_trichotomy i j) as [L|[L|L]]; auto.
  - pose proof (increasing_nth t Ht i j x y Hi Hj L). lia.
  - pose proof (increasing_nth t Ht j i y x Hj Hi L). lia.
Qed.

Lemma bsearch_loop_ok {V} (t : list (N * V)) key : increasing t -> forall fuel base size,
  size < fuel -> 1 <= size -> base + size <= length t ->
  (base = 0 \/ exists x, nth_error t base = Some x /\ (fst x <= key)%N) ->
  (forall j x, nth_error t j = Some x -> base + size <= j -> (key < fst x)%N) ->
  exists b, bsearch_loop fuel t key base size = Ret b /\ b < length t /\
    (b = 0 \/ exists x, nth_error t b = Some x /\ (fst x <= key)%N) /\
    (forall j x, nth_error t j = Some x -> b + 1 <= j -> (key < fst x)%N).
Proof.
  intros Ht. induction fuel as [|fuel IH]; intros base size Hf Hs Hl Hlo Hhi; [lia|].
  cbn [bsearch_loop]. destruct (Nat.ltb_spec 1 size).
  - assert (Hd : 1 <= Nat.div2 size < size).
    { destruct size as [|[|size]]; try lia. split; [cbn; lia|]. apply Nat.lt_div2. lia. }
    destruct (nth_error t (base + Nat.div2 size)) as [x|] eqn:E.
    2: { apply nth_error_None in E. lia. }
    unfold idx_unchecked. rewrite E. cbn [bind].
    destruct (N.ltb_spec key (fst x)).
    + apply IH; try lia; auto.
      intros j y Hj Hge. destruct (Nat.lt_trichotomy (base + Nat.div2 size) j) as [L|[L|L]]; try lia.
      * pose proof (increasing_nth t Ht _ _ _ _ E Hj L). lia.
      * subst j. rewrite E in Hj. injection Hj as <-. assumption.
      * exfalso. assert (size - Nat.div2 size >= Nat.div2 size).
        { pose proof (Nat.div2_odd size). destruct (Nat.odd size); cbn in *; lia. }
        (* base + (size - half) <= j < base + half is impossible since half <= size - half *)
        lia.
    + apply IH; try lia.
      * right. exists x. split; auto.
      * intros j y Hj Hge. apply Hhi with (j := j); auto. lia.
  - assert (size = 1) by lia. subst size. exists base. repeat split; auto; lia.
Qed.

Lemma binary_search_spec {V} (t : list (N * V)) key : increasing t ->
  (exists i v, binary_search_by_key t key = Ret (Some i) /\ nth_error t i = Some (key, v) /\ assoc t key = Some v)
  \/ (binary_search_by_key t key = Ret None /\ assoc t key = None).
Proof.
  intros Ht.
  assert (Hassoc : forall v, assoc t key = Some v -> In (key, v) t).
  { clear Ht. induction t as [|[k w] t IH]; cbn; intros v H; [discriminate|].
    destruct (N.eqb_spec k key); [injection H as ->; subst; auto|auto]. }
  assert (Hnone : assoc t key = None -> forall v, ~ In (key, v) t).
  { clear. induction t as [|[k w] t IH]; cbn; intros H v; [tauto|].
    destruct (N.eqb_spec k key); [discriminate|]. intros [E|E]; [congruence|]. exact (IH H v E). }
  unfold binary_search_by_key. destruct (Nat.eqb_spec (length t) 0) as [E0|E0].
  { right. destruct t; [auto|discriminate]. }
  destruct (bsearch_loop_ok t key Ht (S (length t)) 0 (length t)) as (b & Hb & Hlt & Hlo & Hhi); try lia.
  { intros j x Hj Hge. assert (nth_error t j <> None) by congruence. apply nth_error_Some in H. lia. }
  rewrite Hb. cbn [bind]. unfold idx_unchecked.
  destruct (nth_error t b) as [[k v]|] eqn:E. 2: { apply nth_error_None in E. lia. }
  cbn [bind fst]. destruct (N.eqb_spec k key) as [->|Hne].
  - left. exists b, v. repeat split; auto.
    destruct (assoc t key) as [v'|] eqn:Ea.
    + pose proof (Hassoc _ eq_refl) as Hin. apply In_nth_error in Hin. destruct Hin as [j Ej].
      assert (j = b) by (apply (increasing_nth_inj t Ht j b _ _ Ej E); reflexivity). subst. congruence.
    + exfalso. apply (Hnone eq_refl v). eapply nth_error_In; eauto.
  - right. split; [reflexivity|]. destruct (assoc t key) as [v'|] eqn:Ea; [|reflexivity]. exfalso.
    pose proof (Hassoc _ eq_refl) as Hin. apply In_nth_error in Hin. destruct Hin as [j Ej].
    destruct (Nat.lt_trichotomy j b) as [L|[L|L]].
    + destruct Hlo as [->|(x & Ex & Hx)]; [lia|].
      rewrite <- E in Ex. pose proof (increasing_nth t Ht _ _ _ _ Ej Ex L) as Hlt'. cbn in Hlt'. lia.
    + subst. congruence.
    + pose proof (Hhi j _ Ej ltac:(lia)) as Hlt'. cbn in Hlt'. lia.
Qed.

(* the form used by the encoders: search and fetch *)
Lemma search_fetch {V} (t : list (N * V)) key : increasing t ->
  match assoc t key with
  | Some v => exists i, binary_search_by_key t key = Ret (Some i) /\ idx t i = Ret (key, v)
  | None => binary_search_by_key t key = Ret None
  end.
Proof.
  intros Ht. destruct (binary_search_spec t key Ht) as [(i & v & H1 & H2 & H3)|[H1 H2]].
  - rewrite H3. exists i. split; auto. unfold idx. rewrite H2. reflexivity.
  - rewrite H2. exact H1.
Qed.

Lemma assoc_In {V} (t : list (N * V)) k v : assoc t k = Some v -> In (k, v) t.
Proof.
  induction t as [|[k' w] t IH]; cbn; intros H; [discriminate|].
  destruct (N.eqb_spec k' k); [injection H as ->; subst; auto|auto].
Qed.

Lemma In_assoc {V} (t : list (N * V)) k v : increasing t -> In (k, v) t -> assoc t k = Some v.
Proof.
  induction 1 as [|[a w] t Hs IH Hf]; cbn; [tauto|]. intros [E|E].
  - injection E as -> ->. rewrite N.eqb_refl. reflexivity.
  - rewrite Forall_forall in Hf. pose proof (Hf _ E) as L. cbn in L.
    destruct (N.eqb_spec a k); [lia|auto].
Qed.
