(* Code of another crate does the same in a program that is linked with it (RustLink.v). *)
From Coq Require Import List NArith Bool String.
From Verif Require Import Prelude RustSyntax RustEval RustProgram RustLink.
Import ListNotations.
Local Open Scope string_scope.
Local Open Scope list_scope.

Section Same.
Variable max : N.
Variables ev ev' : expr -> env -> outcome (env * sig).
Hypothesis same_ev : forall e r, ev e r = ev' e r.

Lemma then_same m m' k k' : m = m' -> (forall r v, k r v = k' r v) -> then_ m k = then_ m' k'.
Proof. intros -> K. unfold then_. destruct m' as [[r s]| | |]; try reflexivity. cbn. destruct s; try reflexivity. apply K. Qed.
Lemma bind_same {A B} (m m' : outcome A) (k k' : A -> outcome B) : m = m' -> (forall a, k a = k' a) -> bind m k = bind m' k'.
Proof. intros -> K. destruct m'; try reflexivity. apply K. Qed.
Lemma list_same es : forall r k k', (forall r vs, k r vs = k' r vs) -> eval_list ev es r k = eval_list ev' es r k'.
Proof. induction es as [|e es IH]; intros r k k' K; cbn; [apply K|]. apply then_same; [apply same_ev|]. intros. apply IH. intros. apply K. Qed.
Lemma opt_same o r k k' : (forall r v, k r v = k' r v) -> eval_opt ev o r k = eval_opt ev' o r k'.
Proof. intros K. destruct o; cbn; [|apply K]. apply then_same; [apply same_ev|]. intros. apply K. Qed.
Lemma branch_same p v r e n n' : n = n' -> branch ev p v r e n = branch ev' p v r e n'.
Proof. intros ->. unfold branch. apply bind_same; [reflexivity|]. intros [|]; [|reflexivity]. rewrite same_ev. reflexivity. Qed.
Lemma else_same b r : else_ ev b r = else_ ev' b r.
Proof. destruct b; cbn; [apply same_ev|reflexivity]. Qed.
Lemma arms_same l v r : arms ev l v r = arms ev' l v r.
Proof. induction l as [|[p e] l IH]; cbn [arms]; [reflexivity|]. apply branch_same. exact IH. Qed.
Lemma statements_same tail ss : forall r, statements max ev tail ss r = statements max ev' tail ss r.
Proof.
  induction ss as [|[p t e|e] ss IH]; intros r; cbn [statements].
  - apply else_same.
  - apply then_same; [apply same_ev|]. intros. repeat (apply bind_same; [reflexivity|intros]). destruct a1; [apply IH|reflexivity].
  - apply then_same; [apply same_ev|]. intros. apply IH.
Qed.
Lemma map_m_same {A B} (f g : A -> outcome B) l : (forall a, f a = g a) -> map_m f l = map_m g l.
Proof. intros H. induction l as [|a l IH]; cbn; [reflexivity|]. rewrite H, IH. reflexivity. Qed.
Lemma key_same p body r x : key_of ev p body r x = key_of ev' p body r x.
Proof. unfold key_of. apply bind_same; [reflexivity|]. intros [|]; [|reflexivity]. rewrite same_ev. reflexivity. Qed.
Lemma search_same p body v k r : search_by_key ev p body v k r = search_by_key ev' p body v k r.
Proof. unfold search_by_key. destruct v; try reflexivity. rewrite (map_m_same _ _ _ (key_same p body r)). reflexivity. Qed.
Lemma loop_same {S R} (f g : S -> outcome (ctl S R)) n : (forall s, f s = g s) -> forall s, loop n f s = loop n g s.
Proof. intros H. induction n as [|n IH]; intros s; cbn; [reflexivity|]. rewrite H. apply bind_same; [reflexivity|]. intros []; try reflexivity. apply IH. Qed.
Lemma while_same c body r : while_body ev c body r = while_body ev' c body r.
Proof.
  unfold while_body. apply bind_same; [|reflexivity]. apply then_same; [apply same_ev|]. intros ? []; try reflexivity. destruct b; [apply same_ev|reflexivity].
Qed.
Lemma while_let_same p e body r : while_let_body ev p e body r = while_let_body ev' p e body r.
Proof. unfold while_let_body. apply bind_same; [|reflexivity]. apply then_same; [apply same_ev|]. intros. apply branch_same. reflexivity. Qed.
Lemma for_same p body s : for_body ev p body s = for_body ev' p body s.
Proof. unfold for_body. destruct (fst s); [reflexivity|]. apply bind_same; [|reflexivity]. apply branch_same. reflexivity. Qed.
Lemma for_mut_body_same y body s : for_mut_body ev y body s = for_mut_body ev' y body s.
Proof. destruct s as [[done todo] r]. unfold for_mut_body. destruct todo; [reflexivity|]. rewrite same_ev. reflexivity. Qed.
Lemma for_mut_same fuel x y body r : for_mut fuel ev x y body r = for_mut fuel ev' x y body r.
Proof.
  unfold for_mut. destruct (lookup x r) as [[]|]; try reflexivity. rewrite (loop_same _ _ fuel (for_mut_body_same y body)). reflexivity.
Qed.
Lemma apply_same f vs : apply_fn max ev f vs = apply_fn max ev' f vs.
Proof. unfold apply_fn. apply bind_same; [reflexivity|]. intros. rewrite same_ev. reflexivity. Qed.
End Same.

Section Linked.
Variables (max : N) (x : string) (dep prog : program) (fuel : nat).
(* the program finds the same in the other crate, under the name x *)
Hypothesis same_fn : forall m p, find_fn prog (x :: m) p = moved x (find_fn dep m p).
Hypothesis same_const : forall m p, find_const prog (x :: m) p = find_const dep m p.

Theorem eval_linked : forall d m e r, eval max prog fuel d (x :: m) e r = eval max dep fuel d m e r.
Proof.
  induction d as [|d IH]; intros m e r; [reflexivity|].
  pose proof (IH m) as H.
  destruct e; cbn [eval]; rewrite ?same_const; try reflexivity;
    repeat first
      [ reflexivity
      | apply H
      | apply then_same; [|intros ? ?]
      | apply (list_same _ _ H); intros ? ?
      | apply (opt_same _ _ H); intros ? ?
      | apply (branch_same _ _ H)
      | apply (else_same _ _ H)
      | apply (arms_same _ _ H)
      | apply (search_same _ _ H)
      | apply (for_mut_same _ _ H)
      | progress (rewrite (statements_same max _ _ H))
      | progress (rewrite (loop_same _ _ fuel (while_same _ _ H _ _)))
      | progress (rewrite (loop_same _ _ fuel (while_let_same _ _ H _ _ _)))
      | apply bind_same; [reflexivity|intros ?]
      | progress (rewrite (loop_same _ _ fuel (for_same _ _ H _ _)))
      | match goal with |- match ?v with _ => _ end = match ?v with _ => _ end => destruct v end
      | match goal with |- (if ?b then _ else _) = (if ?b then _ else _) => destruct b end ].
  (* a call *)
  rewrite same_fn. unfold moved. destruct (find_fn dep m p) as [[m' f]|].
  - apply (list_same _ _ H). intros. rewrite (apply_same max _ _ (IH m')). reflexivity.
  - destruct (rev p) as [|f [|t l]]; [reflexivity| |]; apply (list_same _ _ H); reflexivity.
Qed.
Theorem call_linked d m f vs : call max prog fuel d (x :: m) f vs = call max dep fuel d m f vs.
Proof. unfold call. apply apply_same. apply eval_linked. Qed.
End Linked.

Section Link.
Variables (max : N) (x : string) (dep : program) (items : list item) (fuel : nat).
Theorem eval_link d m e r : eval max (link x dep items) fuel d (x :: m) e r = eval max dep fuel d m e r.
Proof. apply eval_linked; reflexivity. Qed.
Theorem call_link d m f vs : call max (link x dep items) fuel d (x :: m) f vs = call max dep fuel d m f vs.
Proof. apply call_linked; reflexivity. Qed.
End Link.
