(* The single-byte encoders and decoders in the source do what ModelWord.v says. *)
From Coq Require Import List NArith Arith Bool String Lia.
From Verif Require Import Prelude RustCore Types RustSyntax RustEval RustProgram SourceCrate SourceAst RustRules ModelWord Tac ProofSrc.
Import ListNotations.
Local Open Scope string_scope.
Local Open Scope N_scope.
Local Open Scope list_scope.

Definition sb_entry (e : N * N) : value := VTuple [VChar (fst e); VInt U8 (snd e)].
Ltac field_tac ::= lazy beta iota delta [is String.eqb Ascii.eqb Bool.eqb eqb sb_entry]; reflexivity.

(** ** Encoder *)

Definition sbe_vars (table : list (N * N)) (input : list N) (i o : nat) (buf : list N) : env :=
  [("output_i", usize o); ("input_i", usize i); ("table", VArr (map sb_entry table)); ("input", VStr input); ("output", VBytes buf)].
Definition sbe_rel (table : list (N * N)) (input : list N) (st : enc_state) (s : list value * env) : Prop :=
  scalar_items (es_itr st) /\ s = (map item (es_itr st), sbe_vars table input (es_in st) (es_out st) (es_buf st)).
Definition sbe_ret (table : list (N * N)) (input : list N) (x : encode_error * list N) (x' : env * value) : Prop :=
  exists i o, x' = (sbe_vars table input i o (snd x), VCon "Err" [encode_error_value (fst x)]).
Ltac unfold_vars ::= cbv delta [sbe_vars sbe_rel sbe_ret] beta.

Lemma sb_encode_loop max fuel d table input st s c : 65535 <= max -> sbe_rel table input st s -> w_ascii_ext_encode_body max table st = Ret c ->
  exists c', for_body (eval max (source max) fuel (20 + d) m_single_byte) (loop_pat (loop_of sb_encode)) (loop_body (loop_of sb_encode)) s = Ret c' /\
    sim (sbe_rel table input) (sbe_ret table input) c c'.
Proof.
  intros M [F ->] H. destruct st as [itr i o buf]; unfold w_ascii_ext_encode_body in H. read_loop.
  body_paths H.
Qed.

(* the table is of the type of the parameter *)
Lemma sb_table_type max t :
  coerce max (TyRef false (TySlice (TyTuple [TyPath ["char"] []; TyPath ["u8"] []]))) (VArr (map sb_entry t)) = Ret (VArr (map sb_entry t)).
Proof.
  cbn [coerce is_u8].
  match goal with |- bind (?f _) _ = _ => assert (H : f (map sb_entry t) = Ret (map sb_entry t)) end.
  { induction t as [|e t IH]; [reflexivity|]. cbn [map]. unfold sb_entry at 1. cbn [bind]. fold (sb_entry e). rewrite IH. reflexivity. }
  rewrite H. reflexivity.
Qed.

Lemma sb_encode_ok max fuel d table input out res :
  65535 <= max -> enc_within max fuel (w_ascii_ext_encode_body max table) input out -> (forall itr, char_indices input = Ret itr -> scalar_items itr) ->
  w_run_encoder max (w_ascii_ext_encode_body max table) input out = Ret res ->
  returns (encode_value (fst res)) "output" (snd res)
    (apply_fn max (eval max (source max) fuel (40 + d) m_single_byte) sb_encode [VArr (map sb_entry table); VStr input; VBytes out]).
Proof.
  intros M F C H. unfold w_run_encoder in H.
  destruct (char_indices input) as [itr| | |] eqn:Ei; try discriminate H. cbn [bind] in H. specialize (C _ eq_refl).
  destruct (loop _ _ _) as [r| | |] eqn:El; try discriminate H. cbn [bind] in H.
  destruct (loop_sim _ _ _ _ (fun st s c => sb_encode_loop max fuel (18 + d)%nat table input st s c M) fuel fuel
    (EncState itr 0 0 out) _ r (le_n fuel) (conj C eq_refl) (proj1 F _ _ El)) as (r' & L & Rr). clear El.
  unfold returns, apply_fn, sbe_vars, sbe_rel, sbe_ret in *.
  assert (B : bind_params max (fn_params sb_encode) [VArr (map sb_entry table); VStr input; VBytes out] =
    Ret [("table", VArr (map sb_entry table)); ("input", VStr input); ("output", VBytes out)]).
  { unfold sb_encode. cbn [fn_params bind_params]. rewrite sb_table_type. reflexivity. }
  rewrite B. cbn [bind]. clear B. unfold sb_encode in *. cbn [fn_params fn_body fn_ret es_itr es_in es_out es_buf Nat.add] in *.
  destruct r as [st|[e buf]], r' as [[its' s']|[s' v']]; try contradiction; cbn [sim_end] in Rr.
  - destruct Rr as [_ Rr]. assert (its' = map item (es_itr st)) by congruence. assert (s' = sbe_vars table input (es_in st) (es_out st) (es_buf st)) by congruence.
    subst. clear Rr. unfold w_finish_input, sbe_vars in *. paths H.
    + run_body.
    + finish_loop (fun i => sbe_vars table input i (es_out st) (es_buf st)) input F. unfold sbe_vars in *. run_body.
  - destruct Rr as (i & o & Rr). cbn [snd fst] in Rr.
    assert (s' = sbe_vars table input i o buf) by congruence.
    assert (v' = VCon "Err" [encode_error_value e]) by congruence. subst s' v'. clear Rr. unfold sbe_vars in *.
    paths H. run_body.
Qed.

(** ** Decoder *)

Definition sbd_vars (table : list N) (input : list N) (i o : nat) (buf : list N) : env :=
  [("output_i", usize o); ("input_i", usize i); ("table", VArr (map VChar table)); ("input", VBytes input); ("output", VBytes buf)].
Definition sbd_rel (table : list N) (input : list N) (st : dec_state N) (s : list value * env) : Prop :=
  byte_items (ds_itr st) /\ s = (map (VInt U8) (ds_itr st), sbd_vars table input (ds_in st) (ds_out st) (ds_buf st)).
Definition sbd_ret (table : list N) (input : list N) (x : decode_error * list N) (x' : env * value) : Prop :=
  exists i o, x' = (sbd_vars table input i o (snd x), VCon "Err" [decode_error_value (fst x)]).
Ltac unfold_vars ::= cbv delta [sbd_vars sbd_rel sbd_ret] beta.

Lemma sb_decode_loop max fuel d table input st s c : 65535 <= max -> sbd_rel table input st s -> w_ascii_ext_decode_body max table st = Ret c ->
  exists c', for_body (eval max (source max) fuel (20 + d) m_single_byte) (loop_pat (loop_of sb_decode)) (loop_body (loop_of sb_decode)) s = Ret c' /\
    sim (sbd_rel table input) (sbd_ret table input) c c'.
Proof.
  intros M [F ->] H. destruct st as [itr i o buf]; unfold w_ascii_ext_decode_body, w_copy_string in H. read_loop.
  body_paths H.
Qed.

Lemma sb_chars_type max t : coerce max (TyRef false (TyArr (TyPath ["char"] []) 128)) (VArr (map VChar t)) = Ret (VArr (map VChar t)).
Proof.
  cbn [coerce is_u8]. change (String.eqb "char" "u8") with false. cbv iota.
  match goal with |- bind (?f _) _ = _ => assert (H : f (map VChar t) = Ret (map VChar t)) end.
  { induction t as [|e t IH]; [reflexivity|]. cbn [map bind]. rewrite IH. reflexivity. }
  rewrite H. reflexivity.
Qed.

Lemma sb_decode_ok max fuel d table input out res :
  65535 <= max -> dec_within fuel (S (List.length input)) (w_ascii_ext_decode_body max table) input out -> byte_items input ->
  run_decoder (w_ascii_ext_decode_body max table) (S (List.length input)) input out = Ret res ->
  returns (decode_value (fst res)) "output" (snd res)
    (apply_fn max (eval max (source max) fuel (40 + d) m_single_byte) sb_decode [VArr (map VChar table); VBytes input; VBytes out]).
Proof.
  intros M F C H. unfold run_decoder in H.
  destruct (loop _ _ _) as [r| | |] eqn:El; try discriminate H. cbn [bind] in H.
  destruct (loop_sim _ _ _ _ (fun st s c => sb_decode_loop max fuel (18 + d)%nat table input st s c M) fuel fuel
    (DecState input 0 0 out) _ r (le_n fuel) (conj C eq_refl) (F _ El)) as (r' & L & Rr). clear El.
  unfold returns, apply_fn, sbd_vars, sbd_rel, sbd_ret in *.
  assert (B : bind_params max (fn_params sb_decode) [VArr (map VChar table); VBytes input; VBytes out] =
    Ret [("table", VArr (map VChar table)); ("input", VBytes input); ("output", VBytes out)]).
  { unfold sb_decode. cbn [fn_params bind_params]. rewrite sb_chars_type. reflexivity. }
  rewrite B. cbn [bind]. clear B. unfold sb_decode in *. cbn [fn_params fn_body fn_ret ds_itr ds_in ds_out ds_buf Nat.add] in *.
  destruct r as [st|[e buf]], r' as [[its' s']|[s' v']]; try contradiction; cbn [sim_end] in Rr.
  - destruct Rr as [_ Rr]. assert (its' = map (VInt U8) (ds_itr st)) by congruence.
    assert (s' = sbd_vars table input (ds_in st) (ds_out st) (ds_buf st)) by congruence.
    subst. clear Rr. unfold sbd_vars in *. paths H. run_body.
  - destruct Rr as (i & o & Rr). cbn [snd fst] in Rr.
    assert (s' = sbd_vars table input i o buf) by congruence.
    assert (v' = VCon "Err" [decode_error_value e]) by congruence. subst s' v'. clear Rr. unfold sbd_vars in *.
    paths H. run_body.
Qed.
