(* Rules for the interpreter of PyEval.v. *)
From Coq Require Import List NArith ZArith Bool String Lia.
From Verif Require Import Prelude RustCore FileText ModelGen ModelScripts ModelFiles PySyntax PyEval ProofGen Tac.
Import ListNotations.
Local Open Scope string_scope.
Local Open Scope list_scope.

Arguments upd x v s y / : simpl nomatch.

(** ** Equations *)

Section Rules.
  Variable dir : path.
  Variable call : string -> option (list value -> world -> res value).
  Variable fuel : nat.
  Notation eval := (eval dir call).
  Notation exec := (exec dir call fuel).
  Notation block := (block dir call fuel).

  Definition for_loop (t : target) (body : list stmt) (frozen : list string) : list value -> env -> world -> outcome :=
    fix loop (vs : list value) (s : env) (w : world) : outcome :=
      match vs with
      | [] => Next s w
      | v :: r =>
          after (bind_target t v s w) (fun s w =>
            match block body frozen s w with
            | Next s w | Again s w => loop r s w
            | o => o
            end)
      end.
  Definition while_loop (c : expr) (body : list stmt) (frozen : list string) : nat -> env -> world -> outcome :=
    fix loop (k : nat) (s : env) (w : world) : outcome :=
      match k with
      | O => Spent
      | S k =>
          after (eval c s w) (fun v w =>
            match v with
            | VBool t =>
                if t then
                  match block body frozen s w with
                  | Next s w | Again s w => loop k s w
                  | o => o
                  end
                else Next s w
            | _ => Stuck
            end)
      end.

  Lemma exec_if c a b frozen s w : exec (SIf c a b) frozen s w =
    after (eval c s w) (fun v w => match v with VBool t => if t then block a frozen s w else block b frozen s w | _ => Stuck end).
  Proof. reflexivity. Qed.
  Lemma exec_while c body frozen s w : exec (SWhile c body) frozen s w = while_loop c body frozen fuel s w.
  Proof. reflexivity. Qed.
  Lemma exec_for t e body frozen s w : exec (SFor t e body) frozen s w =
    after (eval e s w) (fun v w =>
      match v, e with
      | VFile p MRead, EName x =>
          if frozen_in x frozen then Stuck
          else match disk w p with
               | None => Stuck
               | Some file =>
                   match read_lines file with
                   | None => Failed w
                   | Some vs => for_loop t body frozen vs (upd x (VFile p MDone) s) w
                   end
               end
      | _, _ => match iterable v with Some vs => for_loop t body (names_in e ++ frozen) vs s w | None => Stuck end
      end).
  Proof. reflexivity. Qed.
  Lemma block_cons st r frozen s w : block (st :: r) frozen s w = seq_ (exec st frozen s w) (block r frozen).
  Proof. reflexivity. Qed.
  Lemma block_app a b frozen : forall s w, block (a ++ b) frozen s w = seq_ (block a frozen s w) (block b frozen).
  Proof.
    induction a as [|st a IH]; intros s w; [reflexivity|]. cbn [app]. rewrite !block_cons.
    destruct (exec st frozen s w); cbn [seq_]; try reflexivity. apply IH.
  Qed.
  Lemma block_nil frozen s w : block [] frozen s w = Next s w.
  Proof. reflexivity. Qed.
  Lemma exec_assign x e frozen s w : exec (SAssign x e) frozen s w =
    after (eval e s w) (fun v w => if storable e v then Next (upd x v s) w else Stuck).
  Proof. reflexivity. Qed.
  Lemma exec_aug op x e frozen s w a : s x = Some a -> exec (SAug op x e) frozen s w =
    after (eval e s w) (fun v w => after (augment op a v w) (fun b w =>
      if snd b && frozen_in x frozen then Stuck else Next (upd x (fst b) s) w)).
  Proof. intros E. cbn [PyEval.exec]. rewrite E. reflexivity. Qed.
  Lemma exec_change0 x m frozen s w a b : s x = Some a -> changing m = true -> frozen_in x frozen = false -> change a m [] = Some b ->
    exec (SExpr (EMethod (EName x) m [])) frozen s w = Next (upd x b s) w.
  Proof. intros E C F H. cbn [PyEval.exec]. rewrite C, E, F. cbn [after]. rewrite H. reflexivity. Qed.
  Lemma exec_change1 x m e frozen s w a v b : s x = Some a -> changing m = true -> frozen_in x frozen = false -> eval e s w = Val v w ->
    change a m [v] = Some b -> exec (SExpr (EMethod (EName x) m [e])) frozen s w = Next (upd x b s) w.
  Proof. intros E C F V H. cbn [PyEval.exec]. rewrite C, E, F, V. cbn [bind after]. rewrite H. reflexivity. Qed.
  Lemma exec_method x m args frozen s w : changing m = false -> exec (SExpr (EMethod (EName x) m args)) frozen s w =
    after (eval (EMethod (EName x) m args) s w) (fun _ w => Next s w).
  Proof. intros C. cbn [PyEval.exec]. rewrite C. reflexivity. Qed.
  Lemma exec_call f args ks frozen s w : exec (SExpr (ECall f args ks)) frozen s w = after (eval (ECall f args ks) s w) (fun _ w => Next s w).
  Proof. reflexivity. Qed.
  Lemma exec_str cs frozen s w : exec (SExpr (EStr cs)) frozen s w = Next s w.
  Proof. reflexivity. Qed.
  Lemma exec_return e frozen s w : exec (SReturn e) frozen s w =
    after (eval e s w) (fun v w => if storable e v || match e with EName x => negb (frozen_in x frozen) | _ => false end then Return v w else Stuck).
  Proof. reflexivity. Qed.
  Lemma exec_raise e frozen s w : exec (SRaise e) frozen s w = after (eval e s w) (fun v w => match v with VExc => Failed w | _ => Stuck end).
  Proof. reflexivity. Qed.
  Lemma exec_continue frozen s w : exec SContinue frozen s w = Again s w.
  Proof. reflexivity. Qed.
  Lemma for_list t e body frozen s w v vs : eval e s w = Val v w -> iterable v = Some vs ->
    exec (SFor t e body) frozen s w = for_loop t body (names_in e ++ frozen) vs s w.
  Proof. intros E I. rewrite exec_for, E. cbn [after]. destruct v; try discriminate; rewrite I; reflexivity. Qed.
  Lemma for_cons t body frozen v r s w : for_loop t body frozen (v :: r) s w =
    after (bind_target t v s w) (fun s w =>
      match block body frozen s w with
      | Next s w | Again s w => for_loop t body frozen r s w
      | o => o
      end).
  Proof. reflexivity. Qed.

  (* a comprehension that changes nothing *)
  Lemma comp_ok {A} e t l c s w v (xs : list A) g test h : eval l s w = Val v w -> iterable v = Some (map g xs) ->
    (forall x, exists s', bind_target t (g x) s w = Val s' w /\
      match c with None => test x = true | Some c => eval c s' w = Val (VBool (test x)) w end /\
      eval e s' w = Val (h x) w /\ mutable (h x) = false) ->
    eval (EComp e t l c) s w = Val (VList (map h (filter test xs))) w.
  Proof.
    intros E I H. cbn [PyEval.eval]. rewrite E. cbn [bind]. rewrite I.
    match goal with |- bind ?a _ = _ => assert (G : a = Val (map h (filter test xs)) w) end.
    { clear E I. induction xs as [|x xs IH]; [reflexivity|]. destruct (H x) as (s' & B & C & X & _). cbn [map filter]. rewrite B. cbn [bind].
      destruct c as [c|]; cbn [bind] in IH |- *; rewrite C; cbn [bind]; [destruct (test x)|]; cbn [map]; rewrite ?X; cbn [bind]; rewrite ?IH; try reflexivity. }
    rewrite G. cbn [bind]. replace (elements (map h (filter test xs))) with true; [reflexivity|]. symmetry. unfold elements. apply forallb_forall.
    intros y Y. apply in_map_iff in Y. destruct Y as (x & <- & _). destruct (H x) as (s' & _ & _ & _ & M). rewrite M. reflexivity.
  Qed.
  Lemma while_S c body frozen k s w : while_loop c body frozen (S k) s w =
    after (eval c s w) (fun v w =>
      match v with
      | VBool t =>
          if t then
            match block body frozen s w with
            | Next s w | Again s w => while_loop c body frozen k s w
            | o => o
            end
          else Next s w
      | _ => Stuck
      end).
  Proof. reflexivity. Qed.

  (** ** Which variables a statement changes *)

  Definition is_read (v : option value) : bool := match v with Some (VFile _ MRead) => true | _ => false end.
  (* a file object that is read changes; all other variables that are not assigned to keep their values *)
  Definition keeps (xs : list string) (s s' : env) : Prop :=
    forall y, existsb (String.eqb y) xs = false -> s' y = s y \/ is_read (s y) = true.
  Definition o_keeps (xs : list string) (s : env) (o : outcome) : Prop :=
    match o with Next s' _ | Again s' _ => keeps xs s s' | _ => True end.

  Definition target_names (t : target) : list string := match t with TName x => [x] | TTuple xs => xs end.
  Fixpoint assigned (st : stmt) : list string :=
    let assigneds := fix assigneds l := match l with [] => [] | st :: r => assigned st ++ assigneds r end in
    match st with
    | SExpr (EMethod (EName x) m _) => if changing m then [x] else []
    | SAssign x _ | SAug _ x _ => [x]
    | SIf _ a b => assigneds a ++ assigneds b
    | SWhile _ b => assigneds b
    | SFor t _ b => target_names t ++ assigneds b
    | _ => []
    end.
  Fixpoint assigneds (l : list stmt) : list string := match l with [] => [] | st :: r => assigned st ++ assigneds r end.

  Lemma keeps_refl xs s : keeps xs s s.
  Proof. left. reflexivity. Qed.
  Lemma keeps_trans xs a b c : keeps xs a b -> keeps xs b c -> keeps xs a c.
  Proof.
    intros H K y Hy. destruct (H y Hy) as [E|E]; [|right; exact E]. destruct (K y Hy) as [E'|E']; [left; congruence|right; rewrite <- E; exact E'].
  Qed.
  Lemma keeps_more xs ys a b : (forall y, existsb (String.eqb y) ys = false -> existsb (String.eqb y) xs = false) -> keeps xs a b -> keeps ys a b.
  Proof. intros H K y Hy. exact (K y (H y Hy)). Qed.
  Lemma keeps_app_l xs ys a b : keeps xs a b -> keeps (xs ++ ys) a b.
  Proof. apply keeps_more. intros y. rewrite existsb_app. intros H. apply orb_false_elim in H. tauto. Qed.
  Lemma keeps_app_r xs ys a b : keeps ys a b -> keeps (xs ++ ys) a b.
  Proof. apply keeps_more. intros y. rewrite existsb_app. intros H. apply orb_false_elim in H. tauto. Qed.
  Lemma keeps_upd x v s : keeps [x] s (upd x v s).
  Proof.
    intros y. cbn [existsb]. rewrite orb_false_r. intros H. left. unfold upd. rewrite String.eqb_sym, H. reflexivity.
  Qed.
  Lemma keeps_names xs : forall vs s s', bind_names xs vs s = Some s' -> keeps xs s s'.
  Proof.
    induction xs as [|x xs IH]; intros [|v vs] s s' H; try discriminate; cbn [bind_names] in H.
    - injection H as <-. apply keeps_refl.
    - apply IH in H. apply (keeps_trans _ _ (upd x v s)); [apply (keeps_app_l [x] xs); apply keeps_upd|apply (keeps_app_r [x] xs); exact H].
  Qed.
  Lemma keeps_target t v s w s' w' : bind_target t v s w = Val s' w' -> keeps (target_names t) s s'.
  Proof.
    destruct t as [x|xs]; cbn [bind_target target_names].
    - intros H. injection H as <- <-. apply keeps_upd.
    - destruct v; try discriminate. unfold maybe. destruct (bind_names xs vs s) eqn:E; [|discriminate]. intros H. injection H as <- <-.
      exact (keeps_names _ _ _ _ E).
  Qed.
  Lemma o_trans xs s s' o : keeps xs s s' -> o_keeps xs s' o -> o_keeps xs s o.
  Proof. destruct o; cbn [o_keeps]; try tauto; intros; eapply keeps_trans; eassumption. Qed.
  Lemma o_app_l xs ys s o : o_keeps xs s o -> o_keeps (xs ++ ys) s o.
  Proof. destruct o; cbn [o_keeps]; try tauto; apply keeps_app_l. Qed.
  Lemma o_app_r xs ys s o : o_keeps ys s o -> o_keeps (xs ++ ys) s o.
  Proof. destruct o; cbn [o_keeps]; try tauto; apply keeps_app_r. Qed.
  Lemma o_after {A} xs s (r : res A) k : (forall a w, r = Val a w -> o_keeps xs s (k a w)) -> o_keeps xs s (after r k).
  Proof. destruct r; cbn [after o_keeps]; try tauto. intros H. apply H. reflexivity. Qed.
  Lemma o_for t body frozen : (forall s w, o_keeps (assigneds body) s (block body frozen s w)) ->
    forall vs s w, o_keeps (target_names t ++ assigneds body) s (for_loop t body frozen vs s w).
  Proof.
    intros H. induction vs as [|v r IH]; intros s w; [apply keeps_refl|]. rewrite for_cons. apply o_after. intros s1 w1 E.
    apply keeps_target in E. apply (o_trans _ _ s1); [apply keeps_app_l; exact E|]. pose proof (H s1 w1) as K.
    destruct (block body frozen s1 w1) as [s2 w2|s2 w2| | | |]; cbn [o_keeps] in *; try exact I;
      apply (o_trans _ _ s2); try apply IH; apply keeps_app_r; exact K.
  Qed.
  Lemma o_while c body frozen : (forall s w, o_keeps (assigneds body) s (block body frozen s w)) ->
    forall k s w, o_keeps (assigneds body) s (while_loop c body frozen k s w).
  Proof.
    intros H. induction k as [|k IH]; intros s w; [exact I|]. rewrite while_S. apply o_after. intros v w1 _.
    destruct v as [|[]| | | | | | | | |]; cbn [o_keeps]; try exact I; try apply keeps_refl. pose proof (H s w1) as K.
    destruct (block body frozen s w1) as [s2 w2|s2 w2| | | |]; cbn [o_keeps] in *; try exact I; (apply (o_trans _ _ s2); [exact K|apply IH]).
  Qed.

  Lemma exec_keeps : forall st frozen s w, o_keeps (assigned st) s (exec st frozen s w).
  Proof.
    fix IH 1.
    assert (BL : forall l, (fix all (l : list stmt) := match l with [] => True | st :: r =>
        (forall frozen s w, o_keeps (assigned st) s (exec st frozen s w)) /\ all r end) l ->
      forall frozen s w, o_keeps (assigneds l) s (block l frozen s w)).
    { induction l as [|st r IHl]; intros A frozen s w; [apply keeps_refl|]. destruct A as [A1 A2]. rewrite block_cons. cbn [assigneds].
      pose proof (A1 frozen s w) as K. destruct (exec st frozen s w) as [s1 w1|s1 w1| | | |]; cbn [seq_ o_keeps] in *; try exact I;
        [|apply keeps_app_l; exact K].
      apply (o_trans _ _ s1); [apply keeps_app_l; exact K|apply o_app_r, IHl; exact A2]. }
    assert (ALL : forall l, (fix all (l : list stmt) := match l with [] => True | st :: r =>
        (forall frozen s w, o_keeps (assigned st) s (exec st frozen s w)) /\ all r end) l -> True) by (intros; exact I).
    intros st frozen s w. destruct st as [e|x e|op x e|c a b|c body|t e body|e|e| |f ps b].
    - assert (G : o_keeps (assigned (SExpr e)) s (after (eval e s w) (fun _ w => Next s w))) by (apply o_after; intros; apply keeps_refl).
      destruct e as [| | | | | | | | | | | | | | | | |[] m args]; try exact G.
      cbn [PyEval.exec assigned] in *. destruct (changing m); [|exact G]. destruct (s x) as [a|]; [|exact I].
      destruct (frozen_in x frozen); [exact I|]. apply o_after. intros vs w1 _. destruct (change a m vs); [apply keeps_upd|exact I].
    - cbn [PyEval.exec assigned]. apply o_after. intros v w1 _. destruct (storable e v); [apply keeps_upd|exact I].
    - cbn [PyEval.exec assigned]. destruct (s x) as [a|]; [|exact I]. apply o_after. intros v w1 _. apply o_after. intros b w2 _.
      destruct (snd b && frozen_in x frozen); [exact I|apply keeps_upd].
    - rewrite exec_if. apply o_after. intros v w1 _. destruct v as [|[]| | | | | | | | |]; try exact I; [apply o_app_l|apply o_app_r]; apply BL;
        [induction a as [|st a IHa]|induction b as [|st b IHb]]; try exact I; split; try apply IH; assumption.
    - rewrite exec_while. apply o_while. intros s1 w1. apply BL. induction body as [|st b IHb]; [exact I|]. split; [apply IH|exact IHb].
    - rewrite exec_for. apply o_after. intros v w1 E.
      assert (B : forall frozen s w, o_keeps (assigneds body) s (block body frozen s w)).
      { intros fr s1 w2. apply BL. clear - IH. induction body as [|st b IHb]; [exact I|]. split; [apply IH|exact IHb]. }
      assert (L : o_keeps (assigned (SFor t e body)) s match iterable v with Some vs => for_loop t body (names_in e ++ frozen) vs s w1 | None => Stuck end).
      { destruct (iterable v); [|exact I]. apply o_for. intros s1 w2. apply B. }
      destruct v as [| | | | | | | | |p []|]; try exact L. destruct e; try exact L.
      destruct (frozen_in x frozen); [exact I|]. destruct (disk w1 p); [|exact I]. destruct (read_lines l); [|exact I].
      cbn [PyEval.eval] in E. destruct (s x) as [v|] eqn:Ex; [|discriminate]. injection E as -> <-.
      apply (o_trans _ _ (upd x (VFile p MDone) s)); [|apply o_for; intros s1 w2; apply B].
      intros y _. unfold upd. destruct (String.eqb_spec x y) as [<-|N]; [right; rewrite Ex; reflexivity|left; reflexivity].
    - cbn [PyEval.exec assigned]. apply o_after. intros v w1 _.
      destruct (storable e v || match e with EName x => negb (frozen_in x frozen) | _ => false end); exact I.
    - cbn [PyEval.exec assigned]. apply o_after. intros v w1 _. destruct v; exact I.
    - apply keeps_refl.
    - exact I.
  Qed.
  Lemma for_keeps t body frozen vs s w s' w' : for_loop t body frozen vs s w = Next s' w' -> keeps (target_names t ++ assigneds body) s s'.
  Proof.
    intros H. assert (B : forall s w, o_keeps (assigneds body) s (block body frozen s w)).
    { induction body as [|st r IH]; intros s1 w1; [apply keeps_refl|]. rewrite block_cons. cbn [assigneds]. pose proof (exec_keeps st frozen s1 w1) as K.
      assert (B' : forall s w, o_keeps (assigneds r) s (block r frozen s w)).
      { clear - r dir call fuel frozen. induction r as [|st r IH]; intros s1 w1; [apply keeps_refl|]. rewrite block_cons. cbn [assigneds].
        pose proof (exec_keeps st frozen s1 w1) as K. destruct (exec st frozen s1 w1) as [s2 w2|s2 w2| | | |]; cbn [seq_ o_keeps] in *; try exact I;
          [|apply keeps_app_l; exact K].
        apply (o_trans _ _ s2); [apply keeps_app_l; exact K|apply o_app_r, IH]. }
      destruct (exec st frozen s1 w1) as [s2 w2|s2 w2| | | |]; cbn [seq_ o_keeps] in *; try exact I; [|apply keeps_app_l; exact K].
      apply (o_trans _ _ s2); [apply keeps_app_l; exact K|apply o_app_r, B']. }
    pose proof (o_for t body frozen B vs s w) as K. rewrite H in K. exact K.
  Qed.
  Lemma keeps_get xs s s' y v : keeps xs s s' -> s y = Some v -> existsb (String.eqb y) xs = false -> is_read (Some v) = false -> s' y = Some v.
  Proof. intros K E X R. destruct (K y X) as [H|H]; [congruence|]. rewrite E, R in H. discriminate. Qed.
End Rules.

(** ** Calls *)

Lemma apply_S dir fs n d vs w s : bind_names (f_params d) vs no_env = Some s ->
  apply dir fs (S n) d vs w = returned (block dir (calls dir fs n) n (f_body d) (f_params d) s w).
Proof. intros E. cbn [apply]. rewrite E. reflexivity. Qed.
Lemma calls_none dir fs n f : lookup fs f = None -> calls dir fs n f = None.
Proof. intros E. unfold calls. rewrite E. reflexivity. Qed.
Lemma calls_some dir fs n f d : lookup fs f = Some d -> calls dir fs n f = Some (apply dir fs n d).
Proof. intros E. unfold calls. rewrite E. reflexivity. Qed.

(** ** Values *)

Definition vint (n : N) : value := VInt (Z.of_N n).
Definition vpair (e : N * N) : value := VTuple [vint (fst e); vint (snd e)].
Definition ventry (e : N * (N * N)) : value := VTuple [vint (fst e); vpair (snd e)].
Definition vopt (c : option N) : value := match c with Some c => vint c | None => VNone end.

(* evaluation; every statement has its own rule *)
Ltac py_step := cbn [vint eval after seq_ bind upd bind_target bind_names maybe storable fresh mutable elements forallb negb andb orb
  String.eqb Ascii.eqb Bool.eqb builtin method changing existsb index slice_from augment binary compare iterable app
  nth_error option_map fst snd names_in ints Z.of_N str_is ascii_string Z.to_nat Pos.to_nat Pos.iter_op Nat.add
  Z.ltb Z.compare Z.eqb Z.leb Pos.compare Pos.compare_cont Pos.eqb].
Ltac py := py_step; change (Pos.to_nat 1) with 1%nat; py_step.

Lemma merge_map {A B} (g : A -> B) lea leb : (forall x y, leb (g x) (g y) = lea x y) ->
  forall l m, merge leb (map g l) (map g m) = map g (merge lea l m).
Proof.
  intros H. induction l as [|a l IHl]; [destruct m; reflexivity|]. induction m as [|b m IHm]; [reflexivity|]. cbn [map merge] in *.
  rewrite H. destruct (lea a b); cbn [map]; f_equal; [exact (IHl (b :: m))|exact IHm].
Qed.
Lemma push_map {A B} (g : A -> B) lea leb : (forall x y, leb (g x) (g y) = lea x y) ->
  forall s l, push leb (map (option_map (map g)) s) (map g l) = map (option_map (map g)) (push lea s l).
Proof.
  intros H. induction s as [|[l'|] s IH]; intros l; cbn [map push option_map]; try reflexivity. rewrite (merge_map g lea leb H), IH. reflexivity.
Qed.
Lemma merge_stack_map {A B} (g : A -> B) lea leb : (forall x y, leb (g x) (g y) = lea x y) ->
  forall s, merge_stack leb (map (option_map (map g)) s) = map g (merge_stack lea s).
Proof. intros H. induction s as [|[l|] s IH]; cbn [map merge_stack option_map]; try rewrite IH; try reflexivity. apply merge_map. exact H. Qed.
Lemma sort_map {A B} (g : A -> B) lea leb : (forall x y, leb (g x) (g y) = lea x y) -> forall l, sort leb (map g l) = map g (sort lea l).
Proof.
  intros H l. unfold sort. rewrite <- (merge_stack_map g lea leb H). f_equal. change (@nil (option (list B))) with (map (option_map (map g)) []) at 1.
  generalize (@nil (option (list A))). induction l as [|a l IH]; intros s; [reflexivity|]. cbn [map fold_left].
  change [g a] with (map g [a]). rewrite (push_map g lea leb H). apply IH.
Qed.

Lemma compare_N a b : Z.compare (Z.of_N a) (Z.of_N b) = N.compare a b.
Proof. apply N2Z.inj_compare. Qed.
Lemma vpair_leb a b : value_leb (vpair a) (vpair b) = pair_leb a b.
Proof.
  destruct a as [a1 a2], b as [b1 b2]. unfold value_leb, pair_leb, vpair, vint. cbn [value_compare fst snd]. rewrite !compare_N.
  destruct (N.compare_spec a1 b1); destruct (N.compare_spec a2 b2); lia.
Qed.
Lemma ventry_leb a b : value_leb (ventry a) (ventry b) = entry_leb a b.
Proof.
  destruct a as [a0 [a1 a2]], b as [b0 [b1 b2]]. unfold value_leb, entry_leb, pair_leb, ventry, vpair, vint. cbn [value_compare fst snd].
  rewrite !compare_N. destruct (N.compare_spec a0 b0); destruct (N.compare_spec a1 b1); destruct (N.compare_spec a2 b2); lia.
Qed.
Lemma sortable_pairs l : sortable (map vpair l) = true.
Proof.
  destruct l as [|e l]; [reflexivity|]. cbn [map sortable shape_of vpair vint option_map]. rewrite forallb_forall. intros v H.
  apply in_map_iff in H. destruct H as (x & <- & _). reflexivity.
Qed.
Lemma sortable_entries l : sortable (map ventry l) = true.
Proof.
  destruct l as [|e l]; [reflexivity|]. cbn [map sortable shape_of ventry vpair vint option_map]. rewrite forallb_forall. intros v H.
  apply in_map_iff in H. destruct H as (x & <- & _). reflexivity.
Qed.
Lemma elements_map {A} (g : A -> value) l : (forall x, mutable (g x) = false) -> elements (map g l) = true.
Proof. intros H. unfold elements. rewrite forallb_forall. intros v K. apply in_map_iff in K. destruct K as (x & <- & _). rewrite H. reflexivity. Qed.

(* a set and its model *)
Definition same_set (zs : list Z) (s : pyset) : Prop := forall c, has (Z.of_N c) zs = mem c s.
Lemma same_empty : same_set [] empty.
Proof. intros c. rewrite mem_empty. reflexivity. Qed.
Lemma same_add zs s c : same_set zs s -> same_set (if has (Z.of_N c) zs then zs else Z.of_N c :: zs) (add c s).
Proof.
  intros H d. rewrite mem_add, <- (H d). destruct (has (Z.of_N c) zs) eqn:E.
  - destruct (N.eqb_spec d c) as [->|]; [rewrite E|]; reflexivity.
  - unfold has. cbn [existsb]. f_equal. lia.
Qed.

(* lines *)
Lemma lines_split cs : forall line, map py_split (lines_from line cs) = map py_split (py_lines_from line cs).
Proof.
  assert (S : forall word cs, py_split_from word (cs ++ [10%N]) = py_split_from word cs).
  { intros word l. revert word. induction l as [|c l IH]; intros word; cbn [app py_split_from].
    - cbn. destruct word; reflexivity.
    - destruct (py_isspace c); [destruct word|]; rewrite ?IH; reflexivity. }
  induction cs as [|c cs IH]; intros line; cbn [lines_from py_lines_from]; [destruct line; reflexivity|].
  destruct (c =? 10)%N eqn:E; [|apply IH]. cbn [map]. rewrite IH. f_equal. apply N.eqb_eq in E. subst c. unfold py_split, rev'.
  rewrite !rev_append_rev. cbn [rev]. rewrite !app_nil_r. apply S.
Qed.

(* files *)
Lemma write_same f p c : write f p c p = Some c.
Proof. unfold write. destruct (list_eq_dec string_dec p p); congruence. Qed.
Lemma write_other f p q c : p <> q -> write f p c q = f q.
Proof. unfold write. destruct (list_eq_dec string_dec p q); congruence. Qed.
