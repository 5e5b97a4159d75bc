(* What a run of a script gives does not depend on the bound on iterations and calls, once it suffices. *)
From Coq Require Import List NArith ZArith Bool String Lia.
From Verif Require Import FileText ModelScripts ModelFiles PySyntax PyParse PyEval SourceScripts.
Import ListNotations.
Local Open Scope string_scope.
Local Open Scope list_scope.

(* the same, unless the bound was too small for the first *)
Definition under {A} (a b : res A) : Prop := a = Out \/ a = b.
Definition under_ (a b : outcome) : Prop := a = Spent \/ a = b.
Lemma under_refl {A} (a : res A) : under a a.
Proof. right. reflexivity. Qed.
Lemma under_refl_ a : under_ a a.
Proof. right. reflexivity. Qed.
Lemma bind_under {A B} (m m' : res A) (k k' : A -> world -> res B) : under m m' -> (forall a w, under (k a w) (k' a w)) -> under (bind m k) (bind m' k').
Proof. intros [->| ->] K; [left; reflexivity|]. destruct m'; cbn [bind]; [apply K|apply under_refl..]. Qed.
Lemma after_under {A} (m m' : res A) k k' : under m m' -> (forall a w, under_ (k a w) (k' a w)) -> under_ (after m k) (after m' k').
Proof. intros [->| ->] K; [left; reflexivity|]. destruct m'; cbn [after]; [apply K|apply under_refl_..]. Qed.
Lemma seq_under m m' k k' : under_ m m' -> (forall s w, under_ (k s w) (k' s w)) -> under_ (seq_ m k) (seq_ m' k').
Proof. intros [->| ->] K; [left; reflexivity|]. destruct m'; cbn [seq_]; [apply K|apply under_refl_..]. Qed.
Lemma returned_under o o' : under_ o o' -> under (returned o) (returned o').
Proof. intros [->| ->]; [left; reflexivity|apply under_refl]. Qed.

Section Calls.
Variable dir : path.
Variables call call' : string -> option (list value -> world -> res value).
Hypothesis call_under : forall f, match call f, call' f with
  | Some g, Some g' => forall vs w, under (g vs w) (g' vs w)
  | None, None => True
  | _, _ => False
  end.

Lemma list_under (ev ev' : expr -> world -> res value) es : Forall (fun e => forall w, under (ev e w) (ev' e w)) es -> forall w, under
    ((fix evals (es : list expr) (w : world) : res (list value) :=
      match es with [] => Val [] w | e :: r => bind (ev e w) (fun v w => bind (evals r w) (fun vs w => Val (v :: vs) w)) end) es w)
    ((fix evals (es : list expr) (w : world) : res (list value) :=
      match es with [] => Val [] w | e :: r => bind (ev' e w) (fun v w => bind (evals r w) (fun vs w => Val (v :: vs) w)) end) es w).
Proof.
  induction 1 as [|e es H _ IH]; intros w; [apply under_refl|]. apply bind_under; [apply H|]. intros. apply bind_under; [apply IH|]. intros. apply under_refl.
Qed.
Lemma kwargs_under (ev ev' : expr -> world -> res value) (l : list (string * expr)) : Forall (fun p => forall w, under (ev (snd p) w) (ev' (snd p) w)) l -> forall w, under
    ((fix go (l : list (string * expr)) (w : world) : res (list (string * value)) :=
      match l with [] => Val [] w | (k, e) :: r => bind (ev e w) (fun v w => bind (go r w) (fun vs w => Val ((k, v) :: vs) w)) end) l w)
    ((fix go (l : list (string * expr)) (w : world) : res (list (string * value)) :=
      match l with [] => Val [] w | (k, e) :: r => bind (ev' e w) (fun v w => bind (go r w) (fun vs w => Val ((k, v) :: vs) w)) end) l w).
Proof.
  induction 1 as [|[k e] es H _ IH]; intros w; [apply under_refl|]. apply bind_under; [apply H|]. intros. apply bind_under; [apply IH|]. intros. apply under_refl.
Qed.

Lemma eval_under : forall e s w, under (eval dir call e s w) (eval dir call' e s w).
Proof.
  fix IH 1.
  assert (L : forall s es, Forall (fun e => forall w, under (eval dir call e s w) (eval dir call' e s w)) es) by
    (intros s; fix F 1; intros [|e es]; constructor; [apply IH|apply F]).
  assert (K : forall s (l : list (string * expr)), Forall (fun p => forall w, under (eval dir call (snd p) s w) (eval dir call' (snd p) s w)) l) by
    (intros s; fix F 1; intros [|[k e] l]; constructor; [apply IH|apply F]).
  intros e s w. destruct e; cbn [eval]; try apply under_refl.
  all: repeat first [apply under_refl | apply IH | apply (list_under (fun e => eval dir call e s) (fun e => eval dir call' e s)), L
    | apply (kwargs_under (fun e => eval dir call e s) (fun e => eval dir call' e s)), K | apply bind_under; [|intros ? ?] | match goal with |- under (match ?v with _ => _ end) (match ?v with _ => _ end) => destruct v end].
  - (* a comprehension *)
    revert w0. induction l as [|v vs IHv]; intros w'; [apply under_refl|].
    repeat first [apply under_refl | apply IH | apply IHv | apply bind_under; [|intros ? ?] | match goal with |- under (match ?v with _ => _ end) (match ?v with _ => _ end) => destruct v end].
  - (* a call *)
    specialize (call_under f). destruct (call f) as [g|], (call' f) as [g'|]; try contradiction; [|apply under_refl]. destruct a0; [apply call_under|apply under_refl].
Qed.

Variables fuel fuel' : nat.
Hypothesis fuel_le : (fuel <= fuel')%nat.
Lemma block_under l : Forall (fun st => forall frozen s w, under_ (exec dir call fuel st frozen s w) (exec dir call' fuel' st frozen s w)) l ->
  forall frozen s w, under_ (block dir call fuel l frozen s w) (block dir call' fuel' l frozen s w).
Proof. induction 1 as [|st l H _ IH]; intros frozen s w; cbn [block]; [apply under_refl_|]. apply seq_under; [apply H|]. intros. apply IH. Qed.

Lemma while_under (c c' : env -> world -> res value) (body body' : env -> world -> outcome) :
  (forall s w, under (c s w) (c' s w)) -> (forall s w, under_ (body s w) (body' s w)) -> forall n n', (n <= n')%nat -> forall s w, under_
  ((fix loop (k : nat) (s : env) (w : world) : outcome :=
     match k with
     | O => Spent
     | S k => after (c s w) (fun v w => match v with
                                        | VBool true => match body s w with Next s w | Again s w => loop k s w | o => o end
                                        | VBool false => Next s w
                                        | _ => Stuck end)
     end) n s w)
  ((fix loop (k : nat) (s : env) (w : world) : outcome :=
     match k with
     | O => Spent
     | S k => after (c' s w) (fun v w => match v with
                                        | VBool true => match body' s w with Next s w | Again s w => loop k s w | o => o end
                                        | VBool false => Next s w
                                        | _ => Stuck end)
     end) n' s w).
Proof.
  intros Hc Hb. induction n as [|n IH]; intros n' L s w; [left; reflexivity|]. destruct n' as [|n']; [lia|].
  apply after_under; [apply Hc|]. intros v w'. destruct v; try apply under_refl_. destruct b; [|apply under_refl_].
  destruct (Hb s w') as [->| ->]; [left; reflexivity|]. destruct (body' s w'); try apply under_refl_; apply IH; lia.
Qed.
Lemma for_under t (body body' : env -> world -> outcome) : (forall s w, under_ (body s w) (body' s w)) -> forall vs s w, under_
  ((fix loop (vs : list value) (s : env) (w : world) : outcome :=
     match vs with
     | [] => Next s w
     | v :: r => after (bind_target t v s w) (fun s w => match body s w with Next s w | Again s w => loop r s w | o => o end)
     end) vs s w)
  ((fix loop (vs : list value) (s : env) (w : world) : outcome :=
     match vs with
     | [] => Next s w
     | v :: r => after (bind_target t v s w) (fun s w => match body' s w with Next s w | Again s w => loop r s w | o => o end)
     end) vs s w).
Proof.
  intros Hb. induction vs as [|v vs IH]; intros s w; [apply under_refl_|].
  apply after_under; [apply under_refl|]. intros s' w'. destruct (Hb s' w') as [->| ->]; [left; reflexivity|]. destruct (body' s' w'); try apply under_refl_; apply IH.
Qed.

Lemma exec_under : forall st frozen s w, under_ (exec dir call fuel st frozen s w) (exec dir call' fuel' st frozen s w).
Proof.
  fix IH 1.
  assert (B : forall l frozen s w, under_ (block dir call fuel l frozen s w) (block dir call' fuel' l frozen s w)).
  { intros l. apply block_under. revert l. fix F 1. intros [|st l]; constructor; [apply IH|apply F]. }
  intros st frozen s w. destruct st; cbn [exec]; try apply under_refl_.
  all: repeat first [apply under_refl_ | apply eval_under | apply B | apply after_under; [|intros ? ?]
    | apply (list_under (fun e => eval dir call e s) (fun e => eval dir call' e s)), Forall_forall; intros; apply eval_under
    | match goal with |- under_ (match ?v with _ => _ end) (match ?v with _ => _ end) => destruct v end].
  1: (* while *)
    apply (while_under (eval dir call c) (eval dir call' c) (block dir call fuel body frozen) (block dir call' fuel' body frozen)); [intros; apply eval_under|intros; apply B|exact fuel_le].
  all: first
       [ apply (for_under t (block dir call fuel body (names_in e ++ frozen)) (block dir call' fuel' body (names_in e ++ frozen))); intros; apply B
       | apply (for_under t (block dir call fuel body frozen) (block dir call' fuel' body frozen)); intros; apply B ].
Qed.
End Calls.

Theorem apply_under dir fs : forall n n', (n <= n')%nat -> forall d vs w, under (apply dir fs n d vs w) (apply dir fs n' d vs w).
Proof.
  induction n as [|n IH]; intros n' L d vs w; [left; reflexivity|]. destruct n' as [|n']; [lia|]. cbn [apply].
  destruct (bind_names (f_params d) vs no_env) as [s|]; [|apply under_refl]. apply returned_under, block_under, Forall_forall. intros st _.
  apply exec_under; [|lia]. intros f. destruct (lookup fs f); cbn [option_map]; [|exact I]. intros. apply IH. lia.
Qed.
Theorem script_under dir program n n' f : (n <= n')%nat -> under (run_script dir program n f) (run_script dir program n' f).
Proof.
  intros L. unfold run_script. destruct (split_defs program) as [fs main].
  assert (U : under_ (block dir (calls dir fs n) n main [] (upd "__name__" (VStr (str "__main__")) no_env) (World f [] []))
                     (block dir (calls dir fs n') n' main [] (upd "__name__" (VStr (str "__main__")) no_env) (World f [] []))).
  { apply block_under, Forall_forall. intros st _. apply exec_under; [|exact L]. intros g. unfold calls. destruct (lookup fs g); cbn [option_map]; [|exact I]. intros. apply apply_under, L. }
  destruct U as [->| ->]; [left; reflexivity|apply under_refl].
Qed.
Theorem file_under dir file n n' f : (n <= n')%nat -> under (run_file dir file n f) (run_file dir file n' f).
Proof. intros L. unfold run_file. destruct (program file); [apply script_under, L|apply under_refl]. Qed.
