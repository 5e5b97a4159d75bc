(* The decoder of UTF-8 in the source does not end, if the iterations are fewer than the bytes of the error. *)
From Coq Require Import List NArith Arith Bool String Lia.
From Verif Require Import Prelude RustCore Types RustSyntax RustEval RustProgram SourceCrate SourceAst RustRules ModelUtf8 ModelWord Tac ProofSrc ProofSrcUtf8 ProofUtf8 ProofIter.
From Verif Require Import Spec.
Import ListNotations.
Local Open Scope string_scope.
Local Open Scope N_scope.
Local Open Scope list_scope.

(** ** Sequencing, if a part does not end *)

Lemma scoped_diverges r m : m = Diverge -> scoped r m = Diverge.
Proof. intros ->. reflexivity. Qed.
Lemma expr_diverges max ev tail e ss r : ev e r = Diverge -> statements max ev tail (SExpr e :: ss) r = Diverge.
Proof. intros H. cbn [statements]. rewrite H. reflexivity. Qed.
Lemma bind_diverges {A B} (m : outcome A) (k : A -> outcome B) : m = Diverge -> bind m k = Diverge.
Proof. intros ->. reflexivity. Qed.

(* a loop that does the same as one that does not end *)
Lemma loop_sim_diverges {S S' R R'} (rel : S -> S' -> Prop) (ret : R -> R' -> Prop)
    (body : S -> outcome (ctl S R)) (body' : S' -> outcome (ctl S' R')) :
  (forall s s' c, rel s s' -> body s = Ret c -> exists c', body' s' = Ret c' /\ sim rel ret c c') ->
  forall N res n s s', loop N body s = Ret res -> loop n body s = Diverge -> rel s s' -> loop n body' s' = Diverge.
Proof.
  intros H N. induction N as [|N IH]; intros res n s s' E D Rs; [discriminate E|].
  destruct n as [|n]; [reflexivity|]. cbn [loop] in *. destruct (body s) as [c| | |] eqn:B; try discriminate E. cbn [bind] in *.
  destruct (H s s' c Rs B) as (c' & -> & Rc). cbn [bind].
  destruct c as [t|t|x], c' as [t'|t'|x']; try contradiction; try discriminate D.
  exact (IH res n t t' E D Rc).
Qed.

Lemma error_end_needs max s n : forall fuel i j, loop n (error_body max s) i = Ret (inl j) -> (fuel <= j - i)%nat ->
  loop fuel (error_body max s) i = Diverge.
Proof.
  induction n as [|n IH]; intros fuel i j H F; [discriminate H|]. destruct fuel as [|fuel]; [reflexivity|]. cbn [loop] in *.
  unfold error_body at 1 in H. unfold error_body at 1.
  destruct (i <? List.length s)%nat; cbn [bind] in *.
  2: { apply Ret_inj in H. assert (i = j) by congruence. lia. }
  destruct (idx s i) as [b| | |]; cbn [bind] in *; try discriminate H.
  destruct (_ || _); cbn [bind] in *.
  - destruct (add_usz max i 1) as [k| | |] eqn:A; cbn [bind] in *; try discriminate H.
    pose proof (proj1 (add_usz_inv _ _ _ _ A)) as ->. apply (IH fuel _ j H). lia.
  - apply Ret_inj in H. assert (i = j) by congruence. lia.
Qed.

Lemma error_while_diverges max prog fuel d m (rr : nat -> env) input i j :
  (forall i, lookup "input" (rr i) = Some (VBytes input)) ->
  (forall i, lookup "i" (rr i) = Some (usize i)) ->
  (forall i j, assign "i" (usize j) (rr i) = Ret (rr j)) ->
  (forall i j, leave (rr i) (rr j) = rr j) ->
  65535 <= max -> w_utf8_error_end max input i = Ret j -> (fuel <= j - i)%nat ->
  eval max prog fuel (12 + d) m error_while (rr i) = Diverge.
Proof.
  intros H1 H2 H3 H4 M W F. unfold w_utf8_error_end in W.
  destruct (loop _ _ _) as [[k|[]]| | |] eqn:L; try discriminate W. cbn [bind] in W. apply Ret_inj in W. subst k.
  pose proof (error_end_needs max input _ fuel i j L F) as D.
  unfold error_while. cbn [Nat.add]. rewrite ev_while. apply bind_diverges.
  refine (loop_sim_diverges (R := Empty_set) (fun i r => r = rr i) (fun _ _ => False) _ _ _ _ _ _ _ _ L D eq_refl).
  clear F L D. clear i j. intros i r x -> H. paths H; while_path.
Qed.

(* runs a function up to the loop that does not end *)
Ltac go_to loop_tac :=
  lazymatch goal with
  | |- statements _ _ _ (SLet _ _ _ :: _) _ = _ => eapply let_go; [go | go_to loop_tac]
  | |- after _ (SVal _) _ = _ => apply after_val; cbv beta; go_to loop_tac
  | |- let_k _ _ _ _ _ _ _ _ _ = _ =>
      eapply let_rest;
        [ first [ eapply let_usz; [cbv; reflexivity | num] | reflexivity ] | first [ reflexivity | compute_env; reflexivity ] | env_tac | go_to loop_tac ]
  | |- statements _ _ _ (SExpr (EIf _ _ _) :: _) _ = _ => apply expr_diverges; go_to loop_tac
  | |- statements _ _ _ (SExpr (EWhile _ _) :: _) _ = _ => apply expr_diverges; loop_tac
  | |- statements _ _ _ (SExpr _ :: _) _ = _ => eapply expr_go; [go | go_to loop_tac]
  | |- statements _ _ (Some _) [] _ = _ => cbn [statements]; go_to loop_tac
  | |- scoped _ _ = _ => apply scoped_diverges; go_to loop_tac
  | |- eval _ _ _ _ _ (EBlock _ _) _ = _ => refine (eq_trans (ev_block _ _ _ _ _ _ _ _) _); go_to loop_tac
  | |- eval _ _ _ _ _ (EIf _ _ _) _ = _ => eapply ev_if; [go | first [eapply if_true; [yes | ] | eapply if_false; [yes | ]]; go_to loop_tac]
  | |- else_ _ (Some _) _ = _ => unfold else_; go_to loop_tac
  end.

Lemma utf8_decode_diverges max fuel d input is_end out cause a b n buf : 65535 <= max ->
  copy_within fuel (firstn (utf8_valid_up_to input) input) (List.length out) ->
  (4 <= fuel < b - a)%nat ->
  w_utf8_decode_to_str max input out is_end = Ret (Err (DecodeError cause (a, b) n), buf) ->
  call max (source max) fuel (40 + d) m_utf8 utf8_decode [VBytes input; VBytes out; VBool is_end] = Diverge.
Proof.
  intros M Fc F H. unfold call, apply_fn, utf8_decode, w_utf8_decode_to_str in *. cbn [fn_params fn_body fn_ret Nat.add] in *.
  destruct (slice_to input _) as [valid| | |] eqn:V; try discriminate H. cbn [bind] in H.
  destruct (w_copy_len _ _) as [cl| | |] eqn:C; try discriminate H. cbn [bind] in H.
  assert (L : valid = firstn (utf8_valid_up_to input) input).
  { unfold slice_to in V. destruct (_ <=? _)%nat; [|discriminate V]. apply Ret_inj in V. subst. reflexivity. }
  rewrite <- L in Fc.
  pose proof (fun d => copy_len_ok max fuel d valid (List.length out) cl M Fc C) as W. cbn [Nat.add] in W.
  destruct (Nat.eq_dec (utf8_valid_up_to input) (List.length input)) as [U|U]; [rewrite U in *|].
  all: paths H; try (exfalso; lia); try discriminate.
  2: { unfold invalid_data in H. injection H as <- <- <- <- <-. exfalso. apply negb_false_iff in E4. repeat (apply orb_prop in E4; destruct E4 as [E4|E4]); apply andb_prop in E4; destruct E4 as [_ E4]; apply Nat.ltb_lt in E4; lia. }
  unfold invalid_data in H. injection H as <- <- <- <- <-.
  assert (F' : (fuel <= a3 - (utf8_valid_up_to input + 1))%nat) by lia.
  pose proof (fun v d => error_while_diverges max (source max) fuel d m_utf8
    (fun n => [("i", usize n); ("is_truncated", VBool v); ("byte", VInt U8 a2); ("trailing_bytes", usize (List.length input - utf8_valid_up_to input)%nat);
               ("bytes_copied", usize cl); ("valid_up_to", usize (utf8_valid_up_to input)); ("input", VBytes input); ("out_buffer", VBytes a1);
               ("is_end", VBool is_end)]) input (utf8_valid_up_to input + 1)%nat a3
    (fun _ => eq_refl) (fun _ => eq_refl) (fun _ _ => eq_refl) (fun _ _ => eq_refl) M E6 F') as X.
  unfold error_while in X. cbn [Nat.add] in X.
  eapply bind_go; [compute_env; reflexivity|]. apply bind_diverges.
  go_to ltac:(first [eassumption | any_hyp]).
Qed.

Lemma copy_within_valid bs n fuel : bytes bs -> (4 <= fuel)%nat -> copy_within fuel (firstn (utf8_valid_up_to bs) bs) n.
Proof.
  intros B F. destruct (valid_up_to_split bs B) as (cs & t & T & E & V & _). rewrite V, E, firstn_app, firstn_all, Nat.sub_diag. cbn [firstn]. rewrite app_nil_r.
  apply copy_within_text; assumption.
Qed.
