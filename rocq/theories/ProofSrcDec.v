(* What the decoders in the source have in common. *)
From Coq Require Import List NArith Arith Bool String Lia.
From Verif Require Import Prelude RustCore Types RustSyntax RustEval RustProgram SourceCrate SourceAst RustRules ModelWord Tac ProofSrc.
Import ListNotations.
Local Open Scope string_scope.
Local Open Scope N_scope.
Local Open Scope list_scope.

(* the result of a decoder *)
Definition ok_result : expr :=
  ECall ["Ok"]
    [ETuple
       [EBlock []
          (Some
             (ECall ["core"; "str"; "from_utf8_unchecked"] [ERef false (EIndex (EPath ["out_buffer"]) (ERange None (Some (EPath ["output_i"])) false))]));
        EPath ["input_i"]]].
Definition decoder_params : list (string * ty) :=
  [("input", TyRef false (TySlice (TyPath ["u8"] []))); ("out_buffer", TyRef true (TySlice (TyPath ["u8"] []))); ("is_end", TyPath ["bool"] [])].

(* Big5 and Shift JIS; b: the buffer for encoded characters *)
Definition dec_vars (input : list N) (is_end : bool) (its : list value) (b : list N) (i o : nat) (buf : list N) : env :=
  [("itr", VIter its); ("buf", VBytes b); ("output_i", usize o); ("input_i", usize i);
   ("input", VBytes input); ("out_buffer", VBytes buf); ("is_end", VBool is_end)].
Definition dec_rel (input : list N) (is_end : bool) (st : dec_state N) (s : env) : Prop :=
  byte_items (ds_itr st) /\ exists b, s = dec_vars input is_end (map (VInt U8) (ds_itr st)) b (ds_in st) (ds_out st) (ds_buf st) /\ List.length b = 4%nat.
Definition dec_ret (input : list N) (is_end : bool) (x : decode_error * list N) (x' : env * value) : Prop :=
  exists its b i o, x' = (dec_vars input is_end its b i o (snd x), VCon "Err" [decode_error_value (fst x)]).
Ltac unfold_vars ::= cbv delta [dec_vars dec_rel dec_ret] beta.
Definition while_sim (max : N) (m : path) (f : fn) (wbody : bool -> dec_state N -> outcome (ctl (dec_state N) (decode_error * list N))) : Prop :=
  forall fuel d input is_end st s c, dec_rel input is_end st s -> wbody is_end st = Ret c ->
  exists c', while_let_body (eval max (source max) fuel (20 + d) m) (loop_pat (loop_of f)) (loop_expr (loop_of f)) (loop_body (loop_of f)) s = Ret c' /\
    sim (dec_rel input is_end) (dec_ret input is_end) c c'.

Definition decoder (p : pat) (e body : expr) : fn :=
  Fn decoder_params (Some (TyPath ["DecodeResult"] []))
    (EBlock
      [SLet (PVar "input_i") None (ELit (LInt 0 "")); SLet (PVar "output_i") None (ELit (LInt 0 ""));
       SLet (PVar "buf") None (ERepeat (ELit (LInt 0 "u8")) (ELit (LInt 4 "")));
       SLet (PVar "itr") None (EMethod (EPath ["input"]) "iter" []);
       SExpr (EWhileLet p e body)] (Some ok_result)).

Lemma decoder_ok max m f wbody :
  65535 <= max -> f = decoder (loop_pat (loop_of f)) (loop_expr (loop_of f)) (loop_body (loop_of f)) ->
  find_fn (source max) m ["Ok"] = None -> find_fn (source max) m ["core"; "str"; "from_utf8_unchecked"] = None ->
  while_sim max m f wbody ->
  forall fuel d input is_end out res, dec_within fuel (S (List.length input)) (wbody is_end) input out -> byte_items input ->
  run_decoder (wbody is_end) (S (List.length input)) input out = Ret res ->
  returns (decode_value (fst res)) "out_buffer" (snd res) (call max (source max) fuel (40 + d) m f [VBytes input; VBytes out; VBool is_end]).
Proof.
  intros M Ef O1 O2 B fuel d input is_end out res F C H. unfold run_decoder in H.
  destruct (loop _ _ _) as [r| | |] eqn:El; try discriminate H. cbn [bind] in H.
  destruct (loop_sim _ _ _ _ (fun st s c => B fuel (18 + d)%nat input is_end st s c) fuel fuel (DecState input 0 0 out)
    (dec_vars input is_end (map (VInt U8) input) [0; 0; 0; 0] 0 0 out) r (le_n fuel)
    (conj C (ex_intro _ [0; 0; 0; 0] (conj eq_refl eq_refl))) (F _ El)) as (r' & L & Rr). clear El B.
  rewrite Ef. set (p := loop_pat _) in *. set (b := loop_body _) in *. set (e0 := loop_expr _) in *. clearbody p b e0. clear Ef.
  unfold returns, call, apply_fn, decoder, decoder_params, ok_result, dec_vars, dec_rel, dec_ret in *.
  cbn [fn_params fn_body fn_ret ds_itr ds_in ds_out ds_buf Nat.add] in *.
  destruct r as [st|[e buf]], r' as [s'|[s' v']]; try contradiction; cbn [sim_end] in Rr.
  - destruct Rr as (_ & b' & -> & _). paths H. run_fn.
  - destruct Rr as (its & b' & i & o & Rr). cbn [snd fst] in Rr.
    assert (s' = dec_vars input is_end its b' i o buf) by congruence.
    assert (v' = VCon "Err" [decode_error_value e]) by congruence. subst s' v'. clear Rr. unfold dec_vars in *.
    paths H. run_fn.
Qed.
