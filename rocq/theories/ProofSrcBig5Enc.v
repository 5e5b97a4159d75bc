(* The encoder of Big5 in the source does what ModelWord.v says. *)
From Coq Require Import List NArith Arith Bool String Lia.
From Verif Require Import Prelude RustCore Types RustSyntax RustEval RustProgram SourceCrate SourceAst RustRules ModelBig5 ModelWord Tac ProofSrc.
Import ListNotations.
Local Open Scope string_scope.
Local Open Scope N_scope.
Local Open Scope list_scope.

Ltac field_tac ::= lazy beta iota delta [is String.eqb Ascii.eqb Bool.eqb eqb encode_entry]; reflexivity.
Ltac bounds_tac ::= repeat match goal with H : context [if ?b then _ else _] |- _ => let E := fresh "E" in destruct b eqn:E end; try (exfalso; lia).


Lemma find_map_grapheme max : find_fn (source max) m_big5 ["map_grapheme"] = Some (m_big5, big5_map_grapheme).
Proof. vm_cast_no_check (eq_refl (Some (m_big5, big5_map_grapheme))). Qed.
Definition grapheme_value (o : option (N * N)) : value :=
  match o with Some p => VCon "Some" [VBytes [fst p; snd p]] | None => VCon "None" [] end.
Lemma map_grapheme_ok max fuel d a b :
  apply_fn max (eval max (source max) fuel (S (S (S (S (S (S (S (S d)))))))) m_big5) big5_map_grapheme [VInt U32 a; VInt U32 b] =
    Ret (grapheme_value (map_grapheme a b), [("a", VInt U32 a); ("b", VInt U32 b)]).
Proof.
  unfold apply_fn, map_grapheme, big5_map_grapheme. cbn [fn_params fn_body fn_ret].
  destruct (a =? 0xCA) eqn:E1, (a =? 0xEA) eqn:E2, (b =? 0x304) eqn:E3, (b =? 0x30C) eqn:E4; try (exfalso; lia); cbn [andb].
  all: eapply bind_go; [compute_env; reflexivity | eapply bind_go; [go|]].
  all: eapply bind_go; [reflexivity|]; eapply bind_go; reflexivity.
Qed.
Ltac call_tac ::=
  lazymatch goal with
  | |- eval _ _ _ _ _ (ECall ["map_grapheme"] _) _ = _ => eapply eq_trans; [eapply ev_call; eapply find_map_grapheme | go]
  | |- eval _ _ _ _ _ (ECall [_] _) _ = _ => eapply eq_trans; [eapply ev_con; no_name | go]
  end.
(* the call of map_grapheme in the goal, if any *)
Ltac apply_tac ::=
  lazymatch goal with
  | |- apply_fn ?max (eval _ _ ?fuel (S (S (S (S (S (S (S (S ?d)))))))) _) big5_map_grapheme [VInt U32 ?a; VInt U32 ?b] = _ =>
      eapply eq_trans; [eapply map_grapheme_ok | match goal with E : map_grapheme a b = _ |- _ => rewrite E end; cbn [grapheme_value fst snd]; reflexivity]
  end.

Definition b5e_vars (input : list N) (is_end : bool) (its : list value) (i o : nat) (buf : list N) : env :=
  [("itr", VIter its); ("output_i", usize o); ("input_i", usize i); ("input", VStr input); ("out_buffer", VBytes buf); ("is_end", VBool is_end)].
Definition b5e_rel (input : list N) (is_end : bool) (st : enc_state) (s : env) : Prop :=
  scalar_items (es_itr st) /\ s = b5e_vars input is_end (map item (es_itr st)) (es_in st) (es_out st) (es_buf st).
Definition b5e_ret (input : list N) (is_end : bool) (x : encode_error * list N) (x' : env * value) : Prop :=
  exists its i o, x' = (b5e_vars input is_end its i o (snd x), VCon "Err" [encode_error_value (fst x)]).
Ltac unfold_vars ::= cbv delta [b5e_vars b5e_rel b5e_ret] beta.

Lemma big5_encode_loop max table fuel d input is_end st s c :
  65535 <= max -> const_is (source max) m_big5 ["ENCODE_TABLE"] (VArr (map encode_entry table)) ->
  b5e_rel input is_end st s -> w_big5_encode_body max table is_end st = Ret c ->
  exists c', while_let_body (eval max (source max) fuel (30 + d) m_big5) (loop_pat (loop_of big5_encode)) (loop_expr (loop_of big5_encode))
    (loop_body (loop_of big5_encode)) s = Ret c' /\ sim (b5e_rel input is_end) (b5e_ret input is_end) c c'.
Proof.
  intros M T [F ->] H. destruct st as [itr i o buf]; unfold w_big5_encode_body in H. read_loop.
  body_paths H.
  unfold scalar_items. constructor; assumption.
Qed.

Lemma big5_encode_ok max table fuel d input is_end out res :
  65535 <= max -> const_is (source max) m_big5 ["ENCODE_TABLE"] (VArr (map encode_entry table)) ->
  enc_within max fuel (w_big5_encode_body max table is_end) input out -> (forall itr, char_indices input = Ret itr -> scalar_items itr) ->
  w_run_encoder max (w_big5_encode_body max table is_end) input out = Ret res ->
  returns (encode_value (fst res)) "out_buffer" (snd res)
    (call max (source max) fuel (50 + d) m_big5 big5_encode [VStr input; VBytes out; VBool is_end]).
Proof.
  intros M T F C H. unfold w_run_encoder in H.
  destruct (char_indices input) as [itr| | |] eqn:Ei; try discriminate H. cbn [bind] in H. specialize (C _ eq_refl).
  destruct (loop _ _ _) as [r| | |] eqn:El; try discriminate H. cbn [bind] in H.
  destruct (loop_sim _ _ _ _ (fun st s c => big5_encode_loop max table fuel (18 + d)%nat input is_end st s c M T) fuel fuel
    (EncState itr 0 0 out) _ r (le_n fuel) (conj C eq_refl) (proj1 F _ _ El)) as (r' & L & Rr). clear El.
  cbn [loop_of big5_encode fn_body first_loop is_loop] in L.
  unfold returns, call, apply_fn, big5_encode, b5e_vars, b5e_rel, b5e_ret in *.
  cbn [fn_params fn_body fn_ret es_itr es_in es_out es_buf Nat.add loop_of first_loop is_loop loop_pat loop_body loop_expr] in *.
  destruct r as [st|[e buf]], r' as [s'|[s' v']]; try contradiction; cbn [sim_end] in Rr.
  - destruct Rr as [_ ->]. unfold w_finish_input in *. paths H.
    + run_fn.
    + finish_loop (fun i => b5e_vars input is_end (map item (es_itr st)) i (es_out st) (es_buf st)) input F. unfold b5e_vars in *. run_fn.
  - destruct Rr as (its & i & o & Rr). cbn [snd fst] in Rr.
    assert (s' = b5e_vars input is_end its i o buf) by congruence.
    assert (v' = VCon "Err" [encode_error_value e]) by congruence. subst s' v'. clear Rr. unfold b5e_vars in *.
    paths H. run_fn.
Qed.
