(* The decoders of UTF-16 and UTF-32 in the source do what ModelWord.v says. *)
From Coq Require Import List NArith Arith Bool String Lia.
From Verif Require Import Prelude RustCore Types RustSyntax RustEval RustProgram SourceCrate SourceAst RustRules ModelWord Tac ProofSrc ProofSrcDec.
Import ListNotations.
Local Open Scope string_scope.
Local Open Scope N_scope.
Local Open Scope list_scope.

Ltac bounds_tac ::=
  repeat match goal with
  | E : idx ?l ?k = Ret ?b, F : Forall (fun b => b < 256) ?l |- _ =>
      lazymatch goal with H : b < 256 |- _ => fail | _ => pose proof (idx_byte l k b F E) end
  end;
  repeat match goal with
  | H1 : ?a < 256, H2 : ?b < 256 |- _ =>
      lazymatch goal with
      | H : context [u16_from_le_bytes a b] |- _ => lazymatch goal with H : u16_from_le_bytes a b < 65536 |- _ => fail | _ =>
          assert (u16_from_le_bytes a b < 65536) by (unfold u16_from_le_bytes; lia) end
      | H : context [u16_from_be_bytes a b] |- _ => lazymatch goal with H : u16_from_be_bytes a b < 65536 |- _ => fail | _ =>
          assert (u16_from_be_bytes a b < 65536) by (unfold u16_from_be_bytes; lia) end
      end
  end.

Definition chunk_items (l : list (list N)) : Prop := Forall (fun c => Forall (fun b => b < 256) c) l.

(** ** UTF-32 *)

Definition dec32_vars (input : list N) (is_end : bool) (i o : nat) (buf : list N) : env :=
  [("output_i", usize o); ("input_i", usize i); ("input", VBytes input); ("out_buffer", VBytes buf); ("is_end", VBool is_end)].
Definition dec32_rel (input : list N) (is_end : bool) (st : dec_state (list N)) (s : list value * env) : Prop :=
  chunk_items (ds_itr st) /\ s = (map VBytes (ds_itr st), dec32_vars input is_end (ds_in st) (ds_out st) (ds_buf st)).
Definition dec32_ret (input : list N) (is_end : bool) (x : decode_error * list N) (x' : env * value) : Prop :=
  exists i o, x' = (dec32_vars input is_end i o (snd x), VCon "Err" [decode_error_value (fst x)]).
Ltac unfold_vars ::= cbv delta [dec32_vars dec32_rel dec32_ret] beta.

Definition for32_sim (max : N) (m : path) (f : fn) (wbody : list N -> bool -> dec_state (list N) -> outcome (ctl (dec_state (list N)) (decode_error * list N))) : Prop :=
  forall fuel d input is_end st s c, dec32_rel input is_end st s -> wbody input is_end st = Ret c ->
  exists c', for_body (eval max (source max) fuel (20 + d) m) (loop_pat (loop_of f)) (loop_body (loop_of f)) s = Ret c' /\
    sim (dec32_rel input is_end) (dec32_ret input is_end) c c'.

Lemma utf32_le_decode_loop max : 65535 <= max -> for32_sim max m_utf32_le utf32_le_decode (w_utf32_decode_body max false).
Proof.
  intros M fuel d input is_end st s c [F ->] H; destruct st as [itr i o buf]; unfold w_utf32_decode_body, w_copy_string, u32_from_bytes, chunk_items in *.
  read_loop. body_paths H.
Qed.
Lemma utf32_be_decode_loop max : 65535 <= max -> for32_sim max m_utf32_be utf32_be_decode (w_utf32_decode_body max true).
Proof.
  intros M fuel d input is_end st s c [F ->] H; destruct st as [itr i o buf]; unfold w_utf32_decode_body, w_copy_string, u32_from_bytes, chunk_items in *.
  read_loop. body_paths H.
Qed.

(** ** UTF-16 *)

Definition dec16_vars (input : list N) (is_end : bool) (itr : list (list N)) (i o : nat) (buf : list N) : env :=
  [("itr", VIter (map VBytes itr)); ("output_i", usize o); ("input_i", usize i); ("input", VBytes input); ("out_buffer", VBytes buf); ("is_end", VBool is_end)].
Definition dec16_rel (input : list N) (is_end : bool) (st : dec_state (list N)) (s : env) : Prop :=
  chunk_items (ds_itr st) /\ s = dec16_vars input is_end (ds_itr st) (ds_in st) (ds_out st) (ds_buf st).
Definition dec16_ret (input : list N) (is_end : bool) (x : decode_error * list N) (x' : env * value) : Prop :=
  exists itr i o, x' = (dec16_vars input is_end itr i o (snd x), VCon "Err" [decode_error_value (fst x)]).
Ltac unfold_vars ::= cbv delta [dec16_vars dec16_rel dec16_ret] beta.
Definition while16_sim (max : N) (m : path) (f : fn) (wbody : list N -> bool -> dec_state (list N) -> outcome (ctl (dec_state (list N)) (decode_error * list N))) : Prop :=
  forall fuel d input is_end st s c, dec16_rel input is_end st s -> wbody input is_end st = Ret c ->
  exists c', while_let_body (eval max (source max) fuel (20 + d) m) (loop_pat (loop_of f)) (loop_expr (loop_of f)) (loop_body (loop_of f)) s = Ret c' /\
    sim (dec16_rel input is_end) (dec16_ret input is_end) c c'.
Lemma utf16_le_decode_loop max : 65535 <= max -> while16_sim max m_utf16_le utf16_le_decode (w_utf16_decode_body max false).
Proof.
  intros M fuel d input is_end st s c [F ->] H; destruct st as [itr i o buf]; unfold w_utf16_decode_body, w_copy_string, u16_from_bytes, chunk_items in *.
  read_loop. body_paths H.
Qed.
Lemma utf16_be_decode_loop max : 65535 <= max -> while16_sim max m_utf16_be utf16_be_decode (w_utf16_decode_body max true).
Proof.
  intros M fuel d input is_end st s c [F ->] H; destruct st as [itr i o buf]; unfold w_utf16_decode_body, w_copy_string, u16_from_bytes, chunk_items in *.
  read_loop. body_paths H.
Qed.

(** ** Whole functions *)

Definition decoder32 (p : pat) (body : expr) : fn :=
  Fn decoder_params (Some (TyPath ["DecodeResult"] []))
    (EBlock
      [SLet (PVar "input_i") None (ELit (LInt 0 "")); SLet (PVar "output_i") None (ELit (LInt 0 ""));
       SExpr (EFor p (EMethod (EPath ["input"]) "chunks" [ELit (LInt 4 "")]) body)] (Some ok_result)).
Definition decoder16 (p : pat) (e body : expr) : fn :=
  Fn decoder_params (Some (TyPath ["DecodeResult"] []))
    (EBlock
      [SLet (PVar "input_i") None (ELit (LInt 0 "")); SLet (PVar "output_i") None (ELit (LInt 0 ""));
       SLet (PVar "itr") None (EMethod (EPath ["input"]) "chunks" [ELit (LInt 2 "")]);
       SExpr (EWhileLet p e body)] (Some ok_result)).

Lemma decoder32_ok max m f wbody :
  65535 <= max -> f = decoder32 (loop_pat (loop_of f)) (loop_body (loop_of f)) ->
  find_fn (source max) m ["Ok"] = None -> find_fn (source max) m ["core"; "str"; "from_utf8_unchecked"] = None ->
  for32_sim max m f wbody ->
  forall fuel d input is_end out res, dec_within fuel (S (List.length input)) (wbody input is_end) (chunks 4 input) out -> chunk_items (chunks 4 input) ->
  run_decoder (wbody input is_end) (S (List.length input)) (chunks 4 input) out = Ret res ->
  returns (decode_value (fst res)) "out_buffer" (snd res) (call max (source max) fuel (40 + d) m f [VBytes input; VBytes out; VBool is_end]).
Proof.
  intros M Ef O1 O2 B fuel d input is_end out res F C H. unfold run_decoder in H.
  destruct (loop _ _ _) as [r| | |] eqn:El; try discriminate H. cbn [bind] in H.
  destruct (loop_sim _ _ _ _ (fun st s c => B fuel (18 + d)%nat input is_end st s c) fuel fuel (DecState (chunks 4 input) 0 0 out) _ r (le_n fuel)
    (conj C eq_refl) (F _ El)) as (r' & L & Rr). clear El B.
  rewrite Ef. set (p := loop_pat _) in *. set (b := loop_body _) in *. clearbody p b. clear Ef.
  unfold returns, call, apply_fn, decoder32, decoder_params, ok_result, dec32_vars, dec32_rel, dec32_ret in *.
  cbn [fn_params fn_body fn_ret ds_itr ds_in ds_out ds_buf Nat.add] in *.
  destruct r as [st|[e buf]], r' as [[its' s']|[s' v']]; try contradiction; cbn [sim_end] in Rr.
  - destruct Rr as [_ Rr]. assert (its' = map VBytes (ds_itr st)) by congruence.
    assert (s' = dec32_vars input is_end (ds_in st) (ds_out st) (ds_buf st)) by congruence.
    subst. clear Rr. unfold dec32_vars in *. paths H. run_fn.
  - destruct Rr as (i & o & Rr). cbn [snd fst] in Rr.
    assert (s' = dec32_vars input is_end i o buf) by congruence.
    assert (v' = VCon "Err" [decode_error_value e]) by congruence. subst s' v'. clear Rr. unfold dec32_vars in *.
    paths H. run_fn.
Qed.

Lemma decoder16_ok max m f wbody :
  65535 <= max -> f = decoder16 (loop_pat (loop_of f)) (loop_expr (loop_of f)) (loop_body (loop_of f)) ->
  find_fn (source max) m ["Ok"] = None -> find_fn (source max) m ["core"; "str"; "from_utf8_unchecked"] = None ->
  while16_sim max m f wbody ->
  forall fuel d input is_end out res, dec_within fuel (S (List.length input)) (wbody input is_end) (chunks 2 input) out -> chunk_items (chunks 2 input) ->
  run_decoder (wbody input is_end) (S (List.length input)) (chunks 2 input) out = Ret res ->
  returns (decode_value (fst res)) "out_buffer" (snd res) (call max (source max) fuel (40 + d) m f [VBytes input; VBytes out; VBool is_end]).
Proof.
  intros M Ef O1 O2 B fuel d input is_end out res F C H. unfold run_decoder in H.
  destruct (loop _ _ _) as [r| | |] eqn:El; try discriminate H. cbn [bind] in H.
  destruct (loop_sim _ _ _ _ (fun st s c => B fuel (18 + d)%nat input is_end st s c) fuel fuel (DecState (chunks 2 input) 0 0 out) _ r (le_n fuel)
    (conj C eq_refl) (F _ El)) as (r' & L & Rr). clear El B.
  rewrite Ef. set (p := loop_pat _) in *. set (b := loop_body _) in *. set (e0 := loop_expr _) in *. clearbody p b e0. clear Ef.
  unfold returns, call, apply_fn, decoder16, decoder_params, ok_result, dec16_vars, dec16_rel, dec16_ret in *.
  cbn [fn_params fn_body fn_ret ds_itr ds_in ds_out ds_buf Nat.add] in *.
  destruct r as [st|[e buf]], r' as [s'|[s' v']]; try contradiction; cbn [sim_end] in Rr.
  - destruct Rr as [_ ->]. paths H. run_fn.
  - destruct Rr as (itr & i & o & Rr). cbn [snd fst] in Rr.
    assert (s' = dec16_vars input is_end itr i o buf) by congruence.
    assert (v' = VCon "Err" [decode_error_value e]) by congruence. subst s' v'. clear Rr. unfold dec16_vars in *.
    paths H. run_fn.
Qed.
