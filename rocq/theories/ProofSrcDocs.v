(* The examples in the documentation of the crate run to their ends. *)
From Coq Require Import List NArith Arith Bool String Lia.
From Verif Require Import Prelude Encodings Types ModelApi ModelWord FileText FileSource.
From Verif Require Import RustSyntax RustEval RustProgram RustLink SourceCrate SourceWhatwg SourceAst SourceApi SourceDocs RustRules.
From Verif Require Import ProofApi ProofWord ProofSrc ProofSrcAll ProofSrcLink ProofSrcTests ProofSrcTestsRun ProofSrcFiles TabBig5 TabSjis.
From Verif Require Import Spec.
Import ListNotations.
Local Open Scope string_scope.
Local Open Scope N_scope.
Local Open Scope list_scope.

Definition doc_list : list (list RustSyntax.item) := Eval vm_compute in doc_programs lib_rs.
Lemma doc_list_ok : doc_programs lib_rs = doc_list.
Proof. vm_cast_no_check (eq_refl doc_list). Qed.

Definition zeros100 : expr := ERepeat (ELit (LInt 0 "u8")) (ELit (LInt 100 "")).
Definition enc_doc_call : expr := ECall ["encode_from_str"] [EPath ["text"]; ERef true (EPath ["out_buffer"])].
Definition dec_doc_call : expr := ECall ["decode_to_str"] [EPath ["bytes"]; ERef true (EPath ["out_buffer"])].
Definition enc_doc (s : list N) : fn :=
  Fn [] None (EBlock [SLet (PVar "text") None (ELit (LStr s)); SLet (PVar "out_buffer") None zeros100;
    SLet (PTuple [PVar "encoded_text"; PWild]) None (EMethod enc_doc_call "unwrap" [])] None).
Definition dec_doc (s : list N) : fn :=
  Fn [] None (EBlock [SLet (PVar "bytes") None (EMethod (ELit (LStr s)) "as_bytes" []); SLet (PVar "out_buffer") None zeros100;
    SLet (PTuple [PVar "decoded_text"; PWild]) None (EMethod dec_doc_call "unwrap" [])] None).
Definition enc_items s : list RustSyntax.item := [IUse [Import ["text_encoding"; "single_byte"; "ascii"; "encode_from_str"]]; IFn false "main" (enc_doc s)].
Definition dec_items s : list RustSyntax.item := [IUse [Import ["text_encoding"; "single_byte"; "ascii"; "decode_to_str"]]; IFn false "main" (dec_doc s)].
Definition doc_text : list N := Eval compute in str "Hi, I'm some string.".
Definition doc_bytes : list N := Eval compute in str "Some bytes of text data.".
Lemma doc_items : doc_list = [enc_items doc_text; dec_items doc_bytes].
Proof. reflexivity. Qed.

Section Names.
Variables d1 : list N.
Variables e1 : list (N * (N * N)).
Variables d2 : list N.
Variables e2 : list (N * (N * N)).
Variable max : N.
Let prog items := link "text_encoding" (program_of max (crate_with (whatwg_items d1 e1) (whatwg_items d2 e2))) items.
Lemma doc_find s : find_fn (prog (enc_items s)) [] ["encode_from_str"] = Some ("text_encoding" :: module_of (Single ascii), encode_fn (Single ascii)) /\
  find_fn (prog (dec_items s)) [] ["decode_to_str"] = Some ("text_encoding" :: module_of (Single ascii), decode_fn (Single ascii)).
Proof. repeat split; vm_compute; reflexivity. Qed.
End Names.

Section Run.
Variables (max : N) (prog : program) (fuel d : nat).
Hypothesis M : 65535 <= max.
Hypothesis U : uses_crate max prog.
Notation ev d := (eval max prog fuel d []).
Definition hundred : list N := repeat 0 100.
Lemma hundred_ok d' r : ev (S (S d')) zeros100 r = Ret (r, SVal (VBytes hundred)).
Proof. unfold zeros100. rewrite ev_repeat, !ev_lit. reflexivity. Qed.
Lemma unwrap_ok d' e0 r r1 v w : ev d' e0 r = Ret (r1, SVal (VCon "Ok" [VTuple [v; w]])) -> ev (S d') (EMethod e0 "unwrap" []) r = Ret (r1, SVal (VTuple [v; w])).
Proof. intros H. rewrite ev_method by reflexivity. rewrite H. reflexivity. Qed.

Lemma enc_doc_ev e t cs s n buf : e = Single t -> find_fn prog [] ["encode_from_str"] = Some ("text_encoding" :: module_of e, encode_fn e) ->
  text cs -> N.of_nat (List.length (utf8 cs)) + 4 <= max -> (List.length (utf8 cs) < fuel)%nat ->
  encode_from_str e (utf8 cs) hundred true = Ret (Ok (s, n), buf) ->
  forall r r2, lookup "text" r = Some (VStr (utf8 cs)) -> lookup "out_buffer" r = Some (VBytes hundred) -> assign "out_buffer" (VBytes buf) r = Ret r2 ->
  ev (61 + d) enc_doc_call r = Ret (r2, SVal (encode_value (Ok (s, n)))).
Proof.
  intros S0 N T L F E r r2 X B A. rewrite <- (encode_word_same max) in E; [|assumption..|change (N.of_nat (List.length hundred)) with 100; lia].
  destruct (encode_call max fuel d e (utf8 cs) hundred true (Ok (s, n), buf) M F (text_items cs T) E) as (r' & C & Lb).
  rewrite <- (call_linked max "text_encoding" (source max) prog fuel (proj1 U) (proj2 U)) in C. unfold call in C.
  unfold enc_doc_call. change (61 + d)%nat with (S (60 + d)). rewrite (ev_call _ _ _ _ _ _ _ _ _ _ N).
  eapply list_cons; [exact (ev_var _ _ _ (59 + d) _ _ _ _ X)|]. apply after_val.
  eapply list_cons; [exact (eq_trans (ev_ref _ _ _ (59 + d) _ _ _ _) (ev_var _ _ _ (58 + d) _ _ _ _ B))|]. apply after_val.
  assert (G : encode_args e (utf8 cs) hundred true = [VStr (utf8 cs); VBytes hundred]) by (rewrite S0; reflexivity). rewrite G in C.
  remember (encode_fn e) as f eqn:Hf. cbn [eval_list].
  cbv beta. eapply bind_go; [exact C|]. cbv beta. subst f.
  eapply bind_go; [|reflexivity].
  rewrite S0. cbn [encode_fn sb_wrap_encode wrap buffer_ty str_ty bytes_ty fn_params app write_backs snd]. rewrite Lb. unfold write_back. cbn [referent snd]. rewrite A. reflexivity.
Qed.
Lemma dec_doc_ev e t bs s n buf : e = Single t -> find_fn prog [] ["decode_to_str"] = Some ("text_encoding" :: module_of e, decode_fn e) ->
  bytes bs -> N.of_nat (List.length bs) + 4 <= max -> (List.length bs < fuel)%nat ->
  decode_to_str e bs hundred true = Ret (Ok (s, n), buf) ->
  forall r r2, lookup "bytes" r = Some (VBytes bs) -> lookup "out_buffer" r = Some (VBytes hundred) -> assign "out_buffer" (VBytes buf) r = Ret r2 ->
  ev (61 + d) dec_doc_call r = Ret (r2, SVal (decode_value (Ok (s, n)))).
Proof.
  intros S0 N T L F E r r2 X B A. rewrite <- (decode_word_same max) in E; [|assumption..|change (N.of_nat (List.length hundred)) with 100; lia].
  destruct (decode_call max fuel d e bs hundred true (Ok (s, n), buf) M F T E) as (r' & C & Lb).
  rewrite <- (call_linked max "text_encoding" (source max) prog fuel (proj1 U) (proj2 U)) in C. unfold call in C.
  unfold dec_doc_call. change (61 + d)%nat with (S (60 + d)). rewrite (ev_call _ _ _ _ _ _ _ _ _ _ N).
  eapply list_cons; [exact (ev_var _ _ _ (59 + d) _ _ _ _ X)|]. apply after_val.
  eapply list_cons; [exact (eq_trans (ev_ref _ _ _ (59 + d) _ _ _ _) (ev_var _ _ _ (58 + d) _ _ _ _ B))|]. apply after_val.
  assert (G : decode_args e (bs) hundred true = [VBytes bs; VBytes hundred]) by (rewrite S0; reflexivity). rewrite G in C.
  remember (decode_fn e) as f eqn:Hf. cbn [eval_list].
  cbv beta. eapply bind_go; [exact C|]. cbv beta. subst f.
  eapply bind_go; [|reflexivity].
  rewrite S0. cbn [decode_fn sb_wrap_decode wrap buffer_ty str_ty bytes_ty fn_params app write_backs snd]. rewrite Lb. unfold write_back. cbn [referent snd]. rewrite A. reflexivity.
Qed.
Lemma enc_doc_runs cs s n buf : find_fn prog [] ["encode_from_str"] = Some ("text_encoding" :: module_of (Single ascii), encode_fn (Single ascii)) ->
  text cs -> N.of_nat (List.length (utf8 cs)) + 4 <= max -> (List.length (utf8 cs) < fuel)%nat ->
  encode_from_str (Single ascii) (utf8 cs) hundred true = Ret (Ok (s, n), buf) ->
  exists r, call max prog fuel (63 + d) [] (enc_doc (utf8 cs)) [] = Ret (unit_value, r).
Proof.
  intros N T L F E. eexists. unfold call, apply_fn, enc_doc. cbn [fn_params fn_body fn_ret bind_params bind]. match goal with |- bind ?x ?k = _ => refine (bind_go x k (_, SVal unit_value) _ _ eq_refl) end.
  change (63 + d)%nat with (S (S (61 + d))). rewrite ev_block. eapply scoped_go; [|reflexivity|reflexivity].
  eapply let_go; [rewrite ev_lit; reflexivity|]. apply after_val. eapply let_rest; [reflexivity|reflexivity|reflexivity|].
  eapply let_go; [apply (hundred_ok (60 + d))|]. apply after_val. eapply let_rest; [reflexivity|reflexivity|reflexivity|].
  eapply let_go; [eapply unwrap_ok; refine (enc_doc_ev (Single ascii) ascii cs s n buf eq_refl N T L F E _ _ _ _ _); reflexivity|]. apply after_val. eapply let_rest; [reflexivity|reflexivity|reflexivity|].
  reflexivity.
Qed.
Lemma dec_doc_runs bs s n buf : find_fn prog [] ["decode_to_str"] = Some ("text_encoding" :: module_of (Single ascii), decode_fn (Single ascii)) ->
  bytes bs -> N.of_nat (List.length bs) + 4 <= max -> (List.length bs < fuel)%nat ->
  decode_to_str (Single ascii) bs hundred true = Ret (Ok (s, n), buf) ->
  exists r, call max prog fuel (63 + d) [] (dec_doc bs) [] = Ret (unit_value, r).
Proof.
  intros N T L F E. eexists. unfold call, apply_fn, dec_doc. cbn [fn_params fn_body fn_ret bind_params bind]. match goal with |- bind ?x ?k = _ => refine (bind_go x k (_, SVal unit_value) _ _ eq_refl) end.
  change (63 + d)%nat with (S (S (61 + d))). rewrite ev_block. eapply scoped_go; [|reflexivity|reflexivity].
  eapply let_go; [rewrite ev_method by reflexivity; change (61 + d)%nat with (S (60 + d)); rewrite ev_lit; reflexivity|]. apply after_val. eapply let_rest; [reflexivity|reflexivity|reflexivity|].
  eapply let_go; [apply (hundred_ok (60 + d))|]. apply after_val. eapply let_rest; [reflexivity|reflexivity|reflexivity|].
  eapply let_go; [eapply unwrap_ok; refine (dec_doc_ev (Single ascii) ascii bs s n buf eq_refl N T L F E _ _ _ _ _); reflexivity|]. apply after_val. eapply let_rest; [reflexivity|reflexivity|reflexivity|].
  reflexivity.
Qed.
End Run.

Lemma link_uses_crate max items : uses_crate max (link "text_encoding" (source max) items).
Proof. split; reflexivity. Qed.

Theorem docs_ok max fuel d items : 65535 <= max -> (25 <= fuel)%nat -> In items (doc_programs lib_rs) -> doc_passes max fuel (63 + d) items.
Proof.
  intros M F H. rewrite doc_list_ok, doc_items in H. unfold doc_passes. rewrite source_ok.
  pose proof (doc_find big5_decode_table big5_encode_table sjis_decode_table sjis_encode_table max) as N.
  destruct H as [<-|[<-|[]]].
  - exists (enc_doc doc_text). edestruct (enc_doc_runs max (link "text_encoding" (source max) (enc_items doc_text)) fuel d M (link_uses_crate max _) doc_text) as [r R].
    + exact (proj1 (N doc_text)).
    + repeat constructor; unfold scalar; lia.
    + change (N.of_nat (List.length (utf8 doc_text))) with 20. lia.
    + change (List.length (utf8 doc_text)) with 20%nat. lia.
    + vm_compute. reflexivity.
    + exists r. split; [reflexivity|exact R].
  - exists (dec_doc doc_bytes). edestruct (dec_doc_runs max (link "text_encoding" (source max) (dec_items doc_bytes)) fuel d M (link_uses_crate max _) doc_bytes) as [r R].
    + exact (proj2 (N doc_bytes)).
    + repeat constructor; lia.
    + change (N.of_nat (List.length doc_bytes)) with 24. lia.
    + change (List.length doc_bytes) with 24%nat. lia.
    + vm_compute. reflexivity.
    + exists r. split; [reflexivity|exact R].
Qed.
