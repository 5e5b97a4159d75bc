(* The two functions of /repo/examples/wrapper.rs call the functions of the crate. *)
From Coq Require Import List NArith Arith Bool String Lia.
From Verif Require Spec.
From Verif Require Import Prelude RustCore Encodings Types TabBig5 TabSjis ModelWord FileSource.
From Verif Require Import RustSyntax RustEval RustProgram RustLink SourceCrate SourceWhatwg SourceAst SourceApi SourceWrapper RustRules Tac.
From Verif Require Import ProofWord ProofSrc ProofSrcAll ProofSrcLink.
Import ListNotations.
Local Open Scope string_scope.
Local Open Scope N_scope.
Local Open Scope list_scope.

Definition wrapper_items : list RustSyntax.item := Eval vm_compute in read wrapper_rs.
Lemma wrapper_items_ok : read wrapper_rs = wrapper_items.
Proof. vm_cast_no_check (eq_refl wrapper_items). Qed.
Definition get (f : string) : fn := match first (get_fn f) wrapper_items with Some g => g | None => no_fn end.
Definition w_encode : fn := Eval vm_compute in get "encode_from_str".
Definition w_decode : fn := Eval vm_compute in get "decode_to_str".
Definition w_main : fn := Eval vm_compute in get "main".

Definition linked (max : N) : program := link "text_encoding" (source max) wrapper_items.
Lemma wrapper_ok max : wrapper max = linked max.
Proof. unfold wrapper. rewrite source_ok, wrapper_items_ok. reflexivity. Qed.

(** ** Names *)

(* the path by which wrapper.rs calls the functions of a module *)
Definition short (e : encoding) : path := [last (module_of e) ""].
Section Names.
Variables d1 : list N.
Variables e1 : list (N * (N * N)).
Variables d2 : list N.
Variables e2 : list (N * (N * N)).
Variable max : N.
Let prog := link "text_encoding" (program_of max (crate_with (whatwg_items d1 e1) (whatwg_items d2 e2))) wrapper_items.
Lemma wrapper_encode_names e : find_fn prog [] (short e ++ ["encode_from_str"]) = Some ("text_encoding" :: module_of e, encode_fn e).
Proof. destruct e as [| | | | | | | []]; vm_compute; reflexivity. Qed.
Lemma wrapper_decode_names e : find_fn prog [] (short e ++ ["decode_to_str"]) = Some ("text_encoding" :: module_of e, decode_fn e).
Proof. destruct e as [| | | | | | | []]; vm_compute; reflexivity. Qed.
Lemma wrapper_variant : find_const prog [] ["Encoding"; "Utf16BE"] = None.
Proof. vm_compute. reflexivity. Qed.
End Names.

(** ** The calls *)

Definition e_args (e : encoding) : list expr := [EPath ["input"]; EPath ["output"]] ++ match e with Big5WHATWG => [EPath ["is_end"]] | _ => [] end.
Definition d_args (e : encoding) : list expr := [EPath ["input"]; EPath ["output"]] ++ match e with Single _ => [] | _ => [EPath ["is_end"]] end.
Definition arms_of (f : fn) : list (pat * expr) := match fn_body f with EBlock _ (Some (EMatch _ l)) => l | _ => [] end.
Lemma encode_arms ev e v r : v = VCon (variant e) [] ->
  arms ev (arms_of w_encode) v r = scoped r (ev (ECall (short e ++ ["encode_from_str"]) (e_args e)) r).
Proof. intros ->. destruct e as [| | | | | | | []]; reflexivity. Qed.
Lemma decode_arms ev e v r : v = VCon (variant e) [] ->
  arms ev (arms_of w_decode) v r = scoped r (ev (ECall (short e ++ ["decode_to_str"]) (d_args e)) r).
Proof. intros ->. destruct e as [| | | | | | | []]; reflexivity. Qed.

Lemma encode_write_backs e final v input out buf is_end : lookup "out_buffer" final = Some (VBytes buf) ->
  write_backs (fn_params (encode_fn e)) (e_args e) final
    [("output_encoding", v); ("input", input); ("output", VBytes out); ("is_end", VBool is_end)] =
  Ret [("output_encoding", v); ("input", input); ("output", VBytes buf); ("is_end", VBool is_end)].
Proof.
  intros L. destruct e; cbn [encode_fn utf8_encode utf16_be_encode utf16_le_encode utf32_be_encode utf32_le_encode big5_encode sjis_encode sb_wrap_encode wrap buffer_ty str_ty bytes_ty fn_params e_args app write_backs]; rewrite L; reflexivity.
Qed.
Lemma wrapper_encode_call max fuel d e input out is_end res :
  65535 <= max -> (List.length input < fuel)%nat -> (forall itr, char_indices input = Ret itr -> scalar_items itr) ->
  encode_word max e input out is_end = Ret res ->
  returns (encode_value (fst res)) "output" (snd res)
    (call max (linked max) fuel (63 + d) [] w_encode [VCon (variant e) []; VStr input; VBytes out; VBool is_end]).
Proof.
  intros M F I W. destruct (encode_call max fuel d e input out is_end res M F I W) as (r & E & L).
  rewrite <- (call_link max "text_encoding" (source max) wrapper_items) in E.
  pose proof (wrapper_encode_names big5_decode_table big5_encode_table sjis_decode_table sjis_encode_table max e) as N.
  set (v := VCon (variant e) []).
  exists [("output_encoding", v); ("input", VStr input); ("output", VBytes (snd res)); ("is_end", VBool is_end)]. split; [|reflexivity].
  unfold call, apply_fn at 1. change (fn_ret w_encode) with (Some (TyPath ["EncodeResult"] [])).
  replace (bind_params max (fn_params w_encode) [v; VStr input; VBytes out; VBool is_end])
    with (Ret [("output_encoding", v); ("input", VStr input); ("output", VBytes out); ("is_end", VBool is_end)]) by reflexivity.
  cbn [bind]. change (fn_body w_encode) with (EBlock [] (Some (EMatch (EPath ["output_encoding"]) (arms_of w_encode)))).
  change (63 + d)%nat with (S (S (S (60 + d)))). rewrite ev_block. cbn [statements]. unfold else_. rewrite ev_match.
  rewrite (ev_var _ _ _ _ _ _ _ v) by reflexivity. cbn [then_ bind fst snd]. rewrite (encode_arms _ e) by reflexivity.
  rewrite (ev_call _ _ _ _ _ _ _ _ _ _ N). unfold call in E. change (60 + d)%nat with (S (59 + d)) in *.
  pose proof (encode_write_backs e r v (VStr input) out (snd res) is_end L) as B.
  remember (encode_fn e) as f eqn:Hf.
  match goal with |- context [eval_list ?ev ?es ?r ?k] =>
    assert (A : eval_list ev es r k = k r (encode_args e input out is_end)) by
      (destruct e; cbn [e_args app eval_list encode_args]; repeat (erewrite ev_var by reflexivity; cbn [then_ bind fst snd]); reflexivity) end.
  rewrite A. clear A. cbv beta.
  match goal with |- context [apply_fn ?a ?b ?c ?d] => replace (apply_fn a b c d) with (Ret (encode_value (fst res), r)) by (symmetry; exact E) end.
  cbn [bind snd fst]. rewrite B. cbn [bind snd fst]. unfold scoped. cbn [bind snd fst leave same_size].
  rewrite encode_result_ty. reflexivity.
Qed.
Lemma decode_write_backs e final v input out buf is_end : lookup "out_buffer" final = Some (VBytes buf) ->
  write_backs (fn_params (decode_fn e)) (d_args e) final
    [("input_encoding", v); ("input", input); ("output", VBytes out); ("is_end", VBool is_end)] =
  Ret [("input_encoding", v); ("input", input); ("output", VBytes buf); ("is_end", VBool is_end)].
Proof.
  intros L. destruct e; cbn [decode_fn utf8_decode utf16_be_decode utf16_le_decode utf32_be_decode utf32_le_decode big5_decode sjis_decode sb_wrap_decode wrap buffer_ty str_ty bytes_ty fn_params d_args app write_backs]; rewrite L; reflexivity.
Qed.
Lemma wrapper_decode_call max fuel d e input out is_end res :
  65535 <= max -> (List.length input < fuel)%nat -> byte_items input ->
  decode_word max e input out is_end = Ret res ->
  returns (decode_value (fst res)) "output" (snd res)
    (call max (linked max) fuel (63 + d) [] w_decode [VCon (variant e) []; VBytes input; VBytes out; VBool is_end]).
Proof.
  intros M F I W. destruct (decode_call max fuel d e input out is_end res M F I W) as (r & E & L).
  rewrite <- (call_link max "text_encoding" (source max) wrapper_items) in E.
  pose proof (wrapper_decode_names big5_decode_table big5_encode_table sjis_decode_table sjis_encode_table max e) as N.
  set (v := VCon (variant e) []).
  exists [("input_encoding", v); ("input", VBytes input); ("output", VBytes (snd res)); ("is_end", VBool is_end)]. split; [|reflexivity].
  unfold call, apply_fn at 1. change (fn_ret w_decode) with (Some (TyPath ["DecodeResult"] [])).
  replace (bind_params max (fn_params w_decode) [v; VBytes input; VBytes out; VBool is_end])
    with (Ret [("input_encoding", v); ("input", VBytes input); ("output", VBytes out); ("is_end", VBool is_end)]) by reflexivity.
  cbn [bind]. change (fn_body w_decode) with (EBlock [] (Some (EMatch (EPath ["input_encoding"]) (arms_of w_decode)))).
  change (63 + d)%nat with (S (S (S (60 + d)))). rewrite ev_block. cbn [statements]. unfold else_. rewrite ev_match.
  rewrite (ev_var _ _ _ _ _ _ _ v) by reflexivity. cbn [then_ bind fst snd]. rewrite (decode_arms _ e) by reflexivity.
  rewrite (ev_call _ _ _ _ _ _ _ _ _ _ N). unfold call in E. change (60 + d)%nat with (S (59 + d)) in *.
  pose proof (decode_write_backs e r v (VBytes input) out (snd res) is_end L) as B.
  remember (decode_fn e) as f eqn:Hf.
  match goal with |- context [eval_list ?ev ?es ?r ?k] =>
    assert (A : eval_list ev es r k = k r (decode_args e input out is_end)) by
      (destruct e; cbn [d_args app eval_list decode_args]; repeat (erewrite ev_var by reflexivity; cbn [then_ bind fst snd]); reflexivity) end.
  rewrite A. clear A. cbv beta.
  match goal with |- context [apply_fn ?a ?b ?c ?d] => replace (apply_fn a b c d) with (Ret (decode_value (fst res), r)) by (symmetry; exact E) end.
  cbn [bind snd fst]. rewrite B. cbn [bind snd fst]. unfold scoped. cbn [bind snd fst leave same_size].
  rewrite decode_result_ty. reflexivity.
Qed.

(** ** main *)

Lemma main_names max : find_fn (linked max) [] ["main"] = Some ([], w_main) /\
  find_fn (linked max) [] ["encode_from_str"] = Some ([], w_encode) /\
  find_fn (linked max) [] ["decode_to_str"] = Some ([], w_decode).
Proof. repeat split; reflexivity. Qed.
Lemma main_variant max : find_const (linked max) [] ["Encoding"; "Utf16BE"] = None.
Proof. exact (wrapper_variant _ _ _ _ max). Qed.

Definition hello : list N := [72; 101; 108; 108; 111; 32; 119; 111; 114; 108; 100; 33].
Definition hello_utf16 : list N := flat_map (fun b => [0; b]) hello.
Definition zeros : list N := repeat 0 100.
Definition buffer (bs : list N) : list N := bs ++ repeat 0 (100 - List.length bs).

Lemma hello_text : Spec.text hello.
Proof. repeat constructor; unfold Spec.scalar; lia. Qed.
Lemma hello_encode max : 65535 <= max -> encode_word max Utf16BE hello zeros true = Ret (Ok (hello_utf16, 12%nat), buffer hello_utf16).
Proof.
  intros M. change (encode_word max Utf16BE hello zeros true) with (encode_word max Utf16BE (Spec.utf8 hello) zeros true).
  rewrite encode_word_same; [reflexivity|exact M|exact hello_text| |].
  - change (N.of_nat (List.length (Spec.utf8 hello))) with 12. lia.
  - change (N.of_nat (List.length zeros)) with 100. lia.
Qed.
Lemma hello_decode max : 65535 <= max -> decode_word max Utf16BE hello_utf16 zeros true = Ret (Ok (hello, 24%nat), buffer hello).
Proof.
  intros M. rewrite decode_word_same; [reflexivity|exact M| | |].
  - repeat constructor; lia.
  - change (N.of_nat (List.length hello_utf16)) with 24. lia.
  - change (N.of_nat (List.length zeros)) with 100. lia.
Qed.

Lemma call_is max prog fuel d m f vs : call max prog fuel d m f vs = apply_fn max (eval max prog fuel d m) f vs.
Proof. reflexivity. Qed.
(* for a program in which the two functions return the right values *)
Section Main.
Variables (max : N) (prog : program) (fuel d : nat).
Hypothesis encode_name : find_fn prog [] ["encode_from_str"] = Some ([], w_encode).
Hypothesis decode_name : find_fn prog [] ["decode_to_str"] = Some ([], w_decode).
Hypothesis variant_name : find_const prog [] ["Encoding"; "Utf16BE"] = None.
Hypothesis encodes : forall d, returns (encode_value (Ok (hello_utf16, 12%nat))) "output" (buffer hello_utf16)
  (call max prog fuel (63 + d) [] w_encode [VCon "Utf16BE" []; VStr hello; VBytes zeros; VBool true]).
Hypothesis decodes : forall d, returns (decode_value (Ok (hello, 24%nat))) "output" (buffer hello)
  (call max prog fuel (63 + d) [] w_decode [VCon "Utf16BE" []; VBytes hello_utf16; VBytes zeros; VBool true]).

Lemma main_encode d' r : lookup "text" r = Some (VStr hello) -> lookup "buf" r = Some (VBytes zeros) ->
  eval max prog fuel (S (63 + d')) [] (ECall ["encode_from_str"]
    [EPath ["Encoding"; "Utf16BE"]; EPath ["text"]; ERef true (EPath ["buf"]); ELit (LBool true)]) r =
  (let* r := assign "buf" (VBytes (buffer hello_utf16)) r in
   Ret (r, SVal (encode_value (Ok (hello_utf16, 12%nat))))).
Proof.
  intros T B. destruct (encodes d') as (r' & E & L). rewrite (ev_call _ _ _ _ _ _ _ _ _ _ encode_name). rewrite call_is in E.
  eapply list_cons; [exact (ev_unit _ _ _ (62 + d') _ ["Encoding"; "Utf16BE"] r eq_refl variant_name)|]. apply after_val.
  eapply list_cons; [exact (ev_var _ _ _ (62 + d') _ _ _ _ T)|]. apply after_val.
  eapply list_cons; [exact (eq_trans (ev_ref _ _ _ (62 + d') _ _ _ _) (ev_var _ _ _ (61 + d') _ _ _ _ B))|]. apply after_val.
  eapply list_cons; [exact (ev_lit _ _ _ (62 + d') _ _ _)|]. apply after_val. apply list_nil.
  eapply bind_go; [exact E|].
  change (fn_params w_encode) with [("output_encoding", TyPath ["Encoding"] []); ("input", str_ty); ("output", buffer_ty); ("is_end", TyPath ["bool"] [])].
  unfold str_ty, buffer_ty. cbn [write_backs snd fst]. rewrite L. unfold write_back. cbn [referent].
  destruct (assign "buf" _ r); reflexivity.
Qed.
Lemma main_decode d' r : lookup "utf16" r = Some (VBytes hello_utf16) -> lookup "buf_2" r = Some (VBytes zeros) ->
  eval max prog fuel (S (63 + d')) [] (ECall ["decode_to_str"]
    [EPath ["Encoding"; "Utf16BE"]; EPath ["utf16"]; ERef true (EPath ["buf_2"]); ELit (LBool true)]) r =
  (let* r := assign "buf_2" (VBytes (buffer hello)) r in
   Ret (r, SVal (decode_value (Ok (hello, 24%nat))))).
Proof.
  intros T B. destruct (decodes d') as (r' & E & L). rewrite (ev_call _ _ _ _ _ _ _ _ _ _ decode_name). rewrite call_is in E.
  eapply list_cons; [exact (ev_unit _ _ _ (62 + d') _ ["Encoding"; "Utf16BE"] r eq_refl variant_name)|]. apply after_val.
  eapply list_cons; [exact (ev_var _ _ _ (62 + d') _ _ _ _ T)|]. apply after_val.
  eapply list_cons; [exact (eq_trans (ev_ref _ _ _ (62 + d') _ _ _ _) (ev_var _ _ _ (61 + d') _ _ _ _ B))|]. apply after_val.
  eapply list_cons; [exact (ev_lit _ _ _ (62 + d') _ _ _)|]. apply after_val. apply list_nil.
  eapply bind_go; [exact E|].
  change (fn_params w_decode) with [("input_encoding", TyPath ["Encoding"] []); ("input", bytes_ty); ("output", buffer_ty); ("is_end", TyPath ["bool"] [])].
  unfold bytes_ty, buffer_ty. cbn [write_backs snd fst]. rewrite L. unfold write_back. cbn [referent].
  destruct (assign "buf_2" _ r); reflexivity.
Qed.
Lemma first_of_ok e r r' v w d' :
  eval max prog fuel d' [] e r = Ret (r', SVal (VCon "Ok" [VTuple [v; w]])) ->
  eval max prog fuel (S (S d')) [] (EField (EMethod e "unwrap" []) "0") r = Ret (r', SVal v).
Proof.
  intros E. rewrite ev_field, ev_method by reflexivity. rewrite E. reflexivity.
Qed.
Lemma zeros_ok d' r : eval max prog fuel (S (S d')) [] (ERepeat (ELit (LInt 0 "u8")) (ELit (LInt 100 ""))) r = Ret (r, SVal (VBytes zeros)).
Proof. rewrite ev_repeat, !ev_lit. reflexivity. Qed.
Lemma main_runs : exists r, call max prog fuel (70 + d) [] w_main [] = Ret (unit_value, r).
Proof.
  eexists. unfold call, apply_fn, w_main. cbn [fn_params fn_body fn_ret bind_params bind].
  eapply bind_go.
  - change (70 + d)%nat with (S (S (S (S (63 + (3 + d)))))). rewrite ev_block. eapply scoped_go; [|reflexivity|reflexivity].
    eapply let_go; [rewrite ev_lit; reflexivity|]. apply after_val. eapply let_rest; [reflexivity|reflexivity|reflexivity|].
    eapply let_go; [apply (zeros_ok (64 + (3 + d)))|]. apply after_val. eapply let_rest; [reflexivity|reflexivity|reflexivity|].
    eapply let_go; [eapply (first_of_ok _ _ _ _ _ (S (63 + (3 + d)))); rewrite main_encode by reflexivity; reflexivity|]. apply after_val. eapply let_rest; [reflexivity|reflexivity|reflexivity|].
    eapply let_go; [apply (zeros_ok (64 + (3 + d)))|]. apply after_val. eapply let_rest; [reflexivity|reflexivity|reflexivity|].
    eapply let_go; [eapply (first_of_ok _ _ _ _ _ (S (63 + (3 + d)))); rewrite main_decode by reflexivity; reflexivity|]. apply after_val. eapply let_rest; [reflexivity|reflexivity|reflexivity|].
    reflexivity.
  - reflexivity.
Qed.
End Main.

Lemma main_ok max fuel d : 65535 <= max -> (24 < fuel)%nat ->
  exists r, call max (linked max) fuel (70 + d) [] w_main [] = Ret (unit_value, r).
Proof.
  intros M F. destruct (main_names max) as (_ & N1 & N2). apply main_runs; try assumption.
  - apply main_variant.
  - intros d'. apply (wrapper_encode_call max fuel d' Utf16BE hello zeros true (Ok (hello_utf16, 12%nat), buffer hello_utf16)).
    + exact M.
    + change (List.length hello) with 12%nat. lia.
    + intros itr I. vm_compute in I. apply Ret_inj in I. subst. repeat constructor.
    + apply hello_encode. exact M.
  - intros d'. apply (wrapper_decode_call max fuel d' Utf16BE hello_utf16 zeros true (Ok (hello, 24%nat), buffer hello)).
    + exact M.
    + change (List.length hello_utf16) with 24%nat. lia.
    + repeat constructor; lia.
    + apply hello_decode. exact M.
Qed.
