(* What a run of a Rust program gives does not depend on the bounds on iterations and nesting, once they suffice. *)
From Coq Require Import List NArith Arith Bool String Lia.
From Verif Require Import Prelude RustSyntax RustEval RustProgram.
Import ListNotations.
Local Open Scope string_scope.
Local Open Scope list_scope.

(* the same, unless a bound was too small for the first *)
Definition below {A} (a b : outcome A) : Prop := a = Diverge \/ a = b.
Lemma below_refl {A} (a : outcome A) : below a a.
Proof. right. reflexivity. Qed.
Lemma below_trans {A} (a b c : outcome A) : below a b -> below b c -> below a c.
Proof. intros [->| ->] H; [left; reflexivity|exact H]. Qed.
Lemma bind_below {A B} (m m' : outcome A) (k k' : A -> outcome B) : below m m' -> (forall a, below (k a) (k' a)) -> below (bind m k) (bind m' k').
Proof. intros [->| ->] K; [left; reflexivity|]. destruct m'; cbn [bind]; [apply K|apply below_refl..]. Qed.
Lemma then_below m m' k k' : below m m' -> (forall r v, below (k r v) (k' r v)) -> below (then_ m k) (then_ m' k').
Proof. intros M K. unfold then_. apply bind_below; [exact M|]. intros [r []]; cbn [fst snd]; try apply below_refl. apply K. Qed.
Lemma scoped_below r m m' : below m m' -> below (scoped r m) (scoped r m').
Proof. intros M. unfold scoped. apply bind_below; [exact M|]. intros. apply below_refl. Qed.
Lemma loop_below {S R} (f g : S -> outcome (ctl S R)) : (forall s, below (f s) (g s)) -> forall n n', (n <= n')%nat -> forall s, below (loop n f s) (loop n' g s).
Proof.
  intros H. induction n as [|n IH]; intros n' L s; [left; reflexivity|]. destruct n' as [|n']; [inversion L|]. cbn [loop].
  apply bind_below; [apply H|]. intros []; try apply below_refl. apply IH. apply le_S_n. exact L.
Qed.
Lemma loop_end_below {S} (get : S -> env) m m' : below m m' -> below (loop_end get m) (loop_end get m').
Proof. intros M. unfold loop_end. apply bind_below; [exact M|]. intros. apply below_refl. Qed.
Lemma map_m_below {A B} (f g : A -> outcome B) l : (forall a, below (f a) (g a)) -> below (map_m f l) (map_m g l).
Proof. intros H. induction l as [|a l IH]; cbn [map_m]; [apply below_refl|]. apply bind_below; [apply H|]. intros. apply bind_below; [exact IH|]. intros. apply below_refl. Qed.

Section Parts.
Variable max : N.
Variables ev ev' : expr -> env -> outcome (env * sig).
Hypothesis ev_below : forall e r, below (ev e r) (ev' e r).

Lemma list_below es : forall r k k', (forall r vs, below (k r vs) (k' r vs)) -> below (eval_list ev es r k) (eval_list ev' es r k').
Proof. induction es as [|e es IH]; intros r k k' K; cbn [eval_list]; [apply K|]. apply then_below; [apply ev_below|]. intros. apply IH. intros. apply K. Qed.
Lemma opt_below o r k k' : (forall r v, below (k r v) (k' r v)) -> below (eval_opt ev o r k) (eval_opt ev' o r k').
Proof. intros K. destruct o; cbn [eval_opt]; [|apply K]. apply then_below; [apply ev_below|]. intros. apply K. Qed.
Lemma branch_below p v r e n n' : below n n' -> below (branch ev p v r e n) (branch ev' p v r e n').
Proof. intros N. unfold branch. apply bind_below; [apply below_refl|]. intros [|]; [|exact N]. apply scoped_below, ev_below. Qed.
Lemma else_below b r : below (else_ ev b r) (else_ ev' b r).
Proof. destruct b; cbn [else_]; [apply ev_below|apply below_refl]. Qed.
Lemma arms_below l v r : below (arms ev l v r) (arms ev' l v r).
Proof. induction l as [|[p e] l IH]; cbn [arms]; [apply below_refl|]. apply branch_below. exact IH. Qed.
Lemma statements_below tail ss : forall r, below (statements max ev tail ss r) (statements max ev' tail ss r).
Proof.
  induction ss as [|[p t e|e] ss IH]; intros r; cbn [statements].
  - apply else_below.
  - apply then_below; [apply ev_below|]. intros. do 3 (apply bind_below; [apply below_refl|]; intros ?). destruct a1; [apply IH|apply below_refl].
  - apply then_below; [apply ev_below|]. intros. apply IH.
Qed.
Lemma key_below p body r x : below (key_of ev p body r x) (key_of ev' p body r x).
Proof.
  unfold key_of. apply bind_below; [apply below_refl|]. intros [|]; [|apply below_refl]. apply bind_below; [apply ev_below|]. intros. apply below_refl.
Qed.
Lemma search_below p body v k r : below (search_by_key ev p body v k r) (search_by_key ev' p body v k r).
Proof.
  unfold search_by_key. destruct v; try apply below_refl. apply bind_below; [apply map_m_below, key_below|]. intros. apply below_refl.
Qed.
Lemma while_below c body r : below (while_body ev c body r) (while_body ev' c body r).
Proof.
  unfold while_body. apply bind_below; [|intros; apply below_refl]. apply then_below; [apply ev_below|].
  intros ? []; try apply below_refl. destruct b; [apply ev_below|apply below_refl].
Qed.
Lemma while_let_below p e body r : below (while_let_body ev p e body r) (while_let_body ev' p e body r).
Proof.
  unfold while_let_body. apply bind_below; [|intros; apply below_refl]. apply then_below; [apply ev_below|]. intros. apply branch_below, below_refl.
Qed.
Lemma for_below p body s : below (for_body ev p body s) (for_body ev' p body s).
Proof. unfold for_body. destruct (fst s); [apply below_refl|]. apply bind_below; [|intros; apply below_refl]. apply branch_below, below_refl. Qed.
Lemma for_mut_body_below y body s : below (for_mut_body ev y body s) (for_mut_body ev' y body s).
Proof. destruct s as [[done todo] r]. unfold for_mut_body. destruct todo; [apply below_refl|]. apply bind_below; [apply ev_below|]. intros. apply below_refl. Qed.
Lemma for_mut_below n n' x y body r : (n <= n')%nat -> below (for_mut n ev x y body r) (for_mut n' ev' x y body r).
Proof.
  intros L. unfold for_mut. destruct (lookup x r) as [[]|]; try apply below_refl. apply bind_below; [|intros; apply below_refl].
  apply loop_below; [apply for_mut_body_below|exact L].
Qed.
Lemma apply_below f vs : below (apply_fn max ev f vs) (apply_fn max ev' f vs).
Proof.
  unfold apply_fn. apply bind_below; [apply below_refl|]. intros. apply bind_below; [apply ev_below|]. intros. apply below_refl.
Qed.
End Parts.

Theorem eval_below max prog fuel fuel' : (fuel <= fuel')%nat -> forall d d', (d <= d')%nat -> forall m e r,
  below (eval max prog fuel d m e r) (eval max prog fuel' d' m e r).
Proof.
  intros L. induction d as [|d IH]; intros d' D m e r; [left; reflexivity|]. destruct d' as [|d']; [inversion D|]. apply le_S_n in D.
  pose proof (fun m => IH d' D m) as A. pose proof (A m) as H. clear IH.
  destruct e; cbn [eval]; try apply below_refl;
    repeat first
      [ apply below_refl
      | apply H
      | apply then_below; [|intros ? ?]
      | apply (list_below _ _ H); intros ? ?
      | apply (opt_below _ _ H); intros ? ?
      | apply (branch_below _ _ H)
      | apply (else_below _ _ H)
      | apply (arms_below _ _ H)
      | apply (search_below _ _ H)
      | apply (for_mut_below _ _ H); exact L
      | apply scoped_below
      | apply (statements_below max _ _ H)
      | apply loop_end_below
      | apply loop_below; [intros ?|exact L]
      | apply (while_below _ _ H)
      | apply (while_let_below _ _ H)
      | apply (for_below _ _ H)
      | apply (apply_below max _ _ (A _))
      | apply bind_below; [|intros ?]
      | match goal with |- below (match ?v with _ => _ end) (match ?v with _ => _ end) => destruct v end
      | match goal with |- below (if ?b then _ else _) (if ?b then _ else _) => destruct b end ].
Qed.
Theorem call_below max prog fuel fuel' d d' m f vs : (fuel <= fuel')%nat -> (d <= d')%nat ->
  below (call max prog fuel d m f vs) (call max prog fuel' d' m f vs).
Proof. intros L D. unfold call. apply apply_below. intros. apply eval_below; assumption. Qed.
