(* The encoders and decoders of UTF-16 and UTF-32 in the source do what ModelWord.v says. *)
From Coq Require Import List NArith Arith Bool String Lia.
From Verif Require Import Prelude RustCore Types RustSyntax RustEval RustProgram SourceCrate SourceAst RustRules ModelWord Tac ProofSrc.
Import ListNotations.
Local Open Scope string_scope.
Local Open Scope N_scope.
Local Open Scope list_scope.

(** ** Encoders *)

Definition enc_vars (input : list N) (i o : nat) (buf : list N) : env :=
  [("output_i", usize o); ("input_i", usize i); ("input", VStr input); ("out_buffer", VBytes buf)].
Definition enc_rel (input : list N) (st : enc_state) (s : list value * env) : Prop :=
  scalar_items (es_itr st) /\ s = (map item (es_itr st), enc_vars input (es_in st) (es_out st) (es_buf st)).
Definition enc_ret (input : list N) (x : encode_error * list N) (x' : env * value) : Prop :=
  exists i o, x' = (enc_vars input i o (snd x), VCon "Err" [encode_error_value (fst x)]).
Ltac unfold_vars ::= cbv delta [enc_vars enc_rel enc_ret] beta.

(* f: a function with one `for` loop *)
Definition for_sim (max : N) (m : path) (f : fn) (wbody : enc_state -> outcome (ctl enc_state (encode_error * list N))) : Prop :=
  forall fuel d input st s c, enc_rel input st s -> wbody st = Ret c ->
  exists c', for_body (eval max (source max) fuel (20 + d) m) (loop_pat (loop_of f)) (loop_body (loop_of f)) s = Ret c' /\
    sim (enc_rel input) (enc_ret input) c c'.

Ltac enc_body w M :=
  intros M fuel d input st s c [F ->] H; destruct st as [itr i o buf]; unfold w in H;
  read_loop;
  body_paths H.

Lemma utf16_be_encode_loop max : 65535 <= max -> for_sim max m_utf16_be utf16_be_encode (w_utf16_encode_body max true).
Proof. enc_body w_utf16_encode_body M. Qed.
Lemma utf16_le_encode_loop max : 65535 <= max -> for_sim max m_utf16_le utf16_le_encode (w_utf16_encode_body max false).
Proof. enc_body w_utf16_encode_body M. Qed.
Lemma utf32_be_encode_loop max : 65535 <= max -> for_sim max m_utf32_be utf32_be_encode (w_utf32_encode_body max true).
Proof. enc_body w_utf32_encode_body M. Qed.
Lemma utf32_le_encode_loop max : 65535 <= max -> for_sim max m_utf32_le utf32_le_encode (w_utf32_encode_body max false).
Proof. enc_body w_utf32_encode_body M. Qed.

(* what these functions and that of Shift JIS have in common *)
Definition encoder (p : pat) (body : expr) : fn :=
  Fn [("input", TyRef false (TyPath ["str"] [])); ("out_buffer", TyRef true (TySlice (TyPath ["u8"] [])))]
    (Some (TyPath ["EncodeResult"] []))
    (EBlock
      [SLet (PVar "input_i") None (ELit (LInt 0 "")); SLet (PVar "output_i") None (ELit (LInt 0 ""));
       SExpr (EFor p (EMethod (EPath ["input"]) "char_indices" []) body);
       SExpr
         (EIf (EBin Gt (EPath ["input_i"]) (EMethod (EPath ["input"]) "len" []))
            (EBlock [SExpr (EAssign (EPath ["input_i"]) (EMethod (EPath ["input"]) "len" []))] None)
            (Some (EBlock [] (Some finish_while))))]
      (Some (ECall ["Ok"] [ETuple [ERef false (EIndex (EPath ["out_buffer"]) (ERange None (Some (EPath ["output_i"])) false)); EPath ["input_i"]]]))).

Lemma encoder_ok max m f wbody :
  65535 <= max -> f = encoder (loop_pat (loop_of f)) (loop_body (loop_of f)) -> find_fn (source max) m ["Ok"] = None ->
  for_sim max m f wbody ->
  forall fuel d input out res, enc_within max fuel wbody input out -> (forall itr, char_indices input = Ret itr -> scalar_items itr) ->
  w_run_encoder max wbody input out = Ret res ->
  returns (encode_value (fst res)) "out_buffer" (snd res) (call max (source max) fuel (40 + d) m f [VStr input; VBytes out]).
Proof.
  intros M Ef O B fuel d input out res F C H. unfold w_run_encoder in H.
  destruct (char_indices input) as [itr| | |] eqn:Ei; try discriminate H. cbn [bind] in H. specialize (C _ eq_refl).
  destruct (loop _ _ _) as [r| | |] eqn:El; try discriminate H. cbn [bind] in H.
  destruct (loop_sim _ _ _ _ (fun st s c => B fuel (18 + d)%nat input st s c) fuel fuel (EncState itr 0 0 out) _ r (le_n fuel)
    (conj C eq_refl) (proj1 F _ _ El)) as (r' & L & Rr). clear El B.
  rewrite Ef. set (p := loop_pat _) in *. set (b := loop_body _) in *. clearbody p b. clear Ef.
  unfold returns, call, apply_fn, encoder, finish_while, enc_vars, enc_rel, enc_ret in *.
  cbn [fn_params fn_body fn_ret es_itr es_in es_out es_buf Nat.add] in *.
  destruct r as [st|[e buf]], r' as [[its' s']|[s' v']]; try contradiction; cbn [sim_end] in Rr.
  - destruct Rr as [_ Rr]. assert (its' = map item (es_itr st)) by congruence. assert (s' = enc_vars input (es_in st) (es_out st) (es_buf st)) by congruence.
    subst. clear Rr. unfold w_finish_input, enc_vars in *. paths H.
    + run_fn.
    + finish_loop (fun i => enc_vars input i (es_out st) (es_buf st)) input F. unfold enc_vars in *. run_fn.
  - destruct Rr as (i & o & Rr). cbn [snd fst] in Rr.
    assert (s' = enc_vars input i o buf) by congruence.
    assert (v' = VCon "Err" [encode_error_value e]) by congruence. subst s' v'. clear Rr. unfold enc_vars in *.
    paths H. run_fn.
Qed.
