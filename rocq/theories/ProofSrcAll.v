(* Every function of the crate, called by its public path, does what the model says. *)
From Coq Require Import List NArith Arith Bool String Lia.
From Verif Require Import Prelude RustCore Encodings Types TabBig5 TabSjis ModelSingleByte ModelWord.
From Verif Require Import RustSyntax RustEval RustProgram SourceCrate SourceWhatwg SourceAst SourceApi RustRules Tac.
From Verif Require Import ProofSrc ProofSrcUtf ProofSrcUtfDec ProofSrcSb ProofSrcSjisEnc ProofSrcSjisDec ProofSrcBig5Enc ProofSrcBig5Dec
  ProofSrcUtf8 ProofSrcTables.
Import ListNotations.
Local Open Scope string_scope.
Local Open Scope N_scope.
Local Open Scope list_scope.

(** ** The functions *)

Definition str_ty : ty := TyRef false (TyPath ["str"] []).
Definition bytes_ty : ty := TyRef false (TySlice (TyPath ["u8"] [])).
Definition buffer_ty : ty := TyRef true (TySlice (TyPath ["u8"] [])).
(* in the modules of the single-byte encodings: f(&table, input, out_buffer) *)
Definition wrap (input ret : ty) (f : path) (table : expr) : fn :=
  Fn [("input", input); ("out_buffer", buffer_ty)] (Some ret)
    (EBlock [] (Some (ECall f [ERef false table; EPath ["input"]; EPath ["out_buffer"]]))).
Definition sb_wrap_encode (m : sb_module) : fn :=
  wrap str_ty (TyPath ["EncodeResult"] [])
    (match m with ascii => ["ascii_ext_encode_from_str"] | _ => ["super"; "ascii_ext_encode_from_str"] end)
    (match m with ascii => EArr [] | _ => EPath ["ENCODE_TABLE"] end).
Definition sb_wrap_decode (m : sb_module) : fn :=
  wrap bytes_ty (TyPath ["DecodeResult"] [])
    (match m with ascii => ["ascii_ext_decode_to_str"] | _ => ["super"; "ascii_ext_decode_to_str"] end)
    (match m with ascii => ERepeat (ELit (LChar 0xFFFD)) (ELit (LInt 128 "")) | _ => EPath ["DECODE_TABLE"] end).
Definition encode_fn (e : encoding) : fn :=
  match e with
  | Utf8 => utf8_encode
  | Utf16BE => utf16_be_encode
  | Utf16LE => utf16_le_encode
  | Utf32BE => utf32_be_encode
  | Utf32LE => utf32_le_encode
  | Big5WHATWG => big5_encode
  | ShiftJISWHATWG => sjis_encode
  | Single m => sb_wrap_encode m
  end.
Definition decode_fn (e : encoding) : fn :=
  match e with
  | Utf8 => utf8_decode
  | Utf16BE => utf16_be_decode
  | Utf16LE => utf16_le_decode
  | Utf32BE => utf32_be_decode
  | Utf32LE => utf32_le_decode
  | Big5WHATWG => big5_decode
  | ShiftJISWHATWG => sjis_decode
  | Single m => sb_wrap_decode m
  end.

Section Names.
Variables d1 : list N.
Variables e1 : list (N * (N * N)).
Variables d2 : list N.
Variables e2 : list (N * (N * N)).
Let mods := crate_with (whatwg_items d1 e1) (whatwg_items d2 e2).
Lemma encode_names e : resolve mods get_fn steps [] (module_of e ++ ["encode_from_str"]) = Some (module_of e, encode_fn e).
Proof. destruct e as [| | | | | | | []]; vm_compute; reflexivity. Qed.
Lemma decode_names e : resolve mods get_fn steps [] (module_of e ++ ["decode_to_str"]) = Some (module_of e, decode_fn e).
Proof. destruct e as [| | | | | | | []]; vm_compute; reflexivity. Qed.
End Names.

(** ** The tables of the single-byte encodings *)

Definition sb_array (t : list (N * N)) : value := VArr (map sb_entry t).
Definition char_array (t : list N) : value := VArr (map VChar t).
Section Consts.
Variables d1 : list N.
Variables e1 : list (N * (N * N)).
Variables d2 : list N.
Variables e2 : list (N * (N * N)).
Variable max : N.
Let prog := program_of max (crate_with (whatwg_items d1 e1) (whatwg_items d2 e2)).
Lemma sb_encode_names m : m = ascii \/
  find_const prog ["single_byte"; sb_name m] ["ENCODE_TABLE"] = Some (sb_array (sb_encode_table m)).
Proof. destruct m; (left; reflexivity) || (right; vm_compute; reflexivity). Qed.
Lemma sb_decode_names m : m = ascii \/
  find_const prog ["single_byte"; sb_name m] ["DECODE_TABLE"] = Some (char_array (sb_decode_table m)).
Proof. destruct m; (left; reflexivity) || (right; vm_compute; reflexivity). Qed.
Lemma sb_encode_callee m : find_fn prog ["single_byte"; sb_name m] (match m with ascii => ["ascii_ext_encode_from_str"] | _ => ["super"; "ascii_ext_encode_from_str"] end) =
  Some (m_single_byte, sb_encode).
Proof. destruct m; vm_compute; reflexivity. Qed.
Lemma sb_decode_callee m : find_fn prog ["single_byte"; sb_name m] (match m with ascii => ["ascii_ext_decode_to_str"] | _ => ["super"; "ascii_ext_decode_to_str"] end) =
  Some (m_single_byte, sb_decode).
Proof. destruct m; vm_compute; reflexivity. Qed.
End Consts.

Lemma wrap_ok max fuel d prog m m' input_ty ret f g table tv input out v buf tt it tr te :
  find_fn prog m f = Some (m', g) -> fn_params g = [("table", TyRef false tt); ("input", TyRef false it); ("output", TyRef true tr)] ->
  coerce max input_ty input = Ret input -> coerce max ret v = Ret v ->
  te = [("input", input); ("out_buffer", VBytes out)] ->
  eval max prog fuel (39 + d) m table te = Ret (te, SVal tv) ->
  returns v "output" buf (apply_fn max (eval max prog fuel (40 + d) m') g [tv; input; VBytes out]) ->
  returns v "out_buffer" buf (call max prog fuel (42 + d) m (wrap input_ty ret f table) [input; VBytes out]).
Proof.
  intros F P I C Te T (r & E & L). unfold returns, call, apply_fn at 1, wrap, buffer_ty. cbn [fn_params fn_body fn_ret bind_params coerce].
  rewrite I. cbn [bind is_u8]. rewrite <- Te.
  exists [("input", input); ("out_buffer", VBytes buf)]. split; [|reflexivity].
  change (42 + d)%nat with (S (S (S (39 + d)))). change (40 + d)%nat with (S (39 + d)) in E. rewrite ev_block. cbn [statements]. unfold else_. rewrite (ev_call _ _ _ _ _ _ _ _ _ _ F). cbn [eval_list].
  rewrite ev_ref, T. cbn [then_ after bind fst snd].
  rewrite (ev_var _ _ _ _ _ _ _ input) by (rewrite Te; reflexivity). cbn [then_ after bind fst snd].
  rewrite (ev_var _ _ _ _ _ _ _ (VBytes out)) by (rewrite Te; reflexivity). cbn [then_ after bind fst snd].
  rewrite E. cbn [bind snd fst]. rewrite P. cbn [write_backs]. rewrite L. rewrite Te. remember (coerce max ret) as co. compute_env. unfold scoped. compute_env. rewrite C. reflexivity.
Qed.

Lemma encode_result_ty max r : coerce max (TyPath ["EncodeResult"] []) (encode_value r) = Ret (encode_value r).
Proof. destruct r as [[]|]; reflexivity. Qed.
Lemma decode_result_ty max r : coerce max (TyPath ["DecodeResult"] []) (decode_value r) = Ret (decode_value r).
Proof. destruct r as [[]|]; reflexivity. Qed.
Lemma sb_wrap_encode_ok max fuel d m input out res :
  65535 <= max -> enc_within max fuel (w_ascii_ext_encode_body max (sb_encode_table m)) input out -> (forall itr, char_indices input = Ret itr -> scalar_items itr) ->
  w_run_encoder max (w_ascii_ext_encode_body max (sb_encode_table m)) input out = Ret res ->
  returns (encode_value (fst res)) "out_buffer" (snd res)
    (call max (source max) fuel (42 + d) ["single_byte"; sb_name m] (sb_wrap_encode m) [VStr input; VBytes out]).
Proof.
  intros M F I W. eapply wrap_ok;
    [exact (sb_encode_callee _ _ _ _ _ m) | reflexivity | reflexivity | apply encode_result_ty | reflexivity | | apply (sb_encode_ok max fuel d _ input out res M F I W)].
  change (39 + d)%nat with (S (38 + d)). destruct (sb_encode_names big5_decode_table big5_encode_table sjis_decode_table sjis_encode_table max m) as [->|E].
  - reflexivity.
  - destruct m; try (apply ev_const; [reflexivity | exact E]). reflexivity.
Qed.
Lemma sb_wrap_decode_ok max fuel d m input out res :
  65535 <= max -> dec_within fuel (S (List.length input)) (w_ascii_ext_decode_body max (sb_decode_table m)) input out -> byte_items input ->
  run_decoder (w_ascii_ext_decode_body max (sb_decode_table m)) (S (List.length input)) input out = Ret res ->
  returns (decode_value (fst res)) "out_buffer" (snd res)
    (call max (source max) fuel (42 + d) ["single_byte"; sb_name m] (sb_wrap_decode m) [VBytes input; VBytes out]).
Proof.
  intros M F I W. eapply wrap_ok;
    [exact (sb_decode_callee _ _ _ _ _ m) | reflexivity | reflexivity | apply decode_result_ty | reflexivity | | apply (sb_decode_ok max fuel d _ input out res M F I W)].
  change (39 + d)%nat with (S (38 + d)). destruct (sb_decode_names big5_decode_table big5_encode_table sjis_decode_table sjis_encode_table max m) as [->|E].
  - rewrite ev_repeat. change (38 + d)%nat with (S (37 + d)). rewrite !ev_lit. reflexivity.
  - destruct m; try (apply ev_const; [reflexivity | exact E]).
    rewrite ev_repeat. change (38 + d)%nat with (S (37 + d)). rewrite !ev_lit. reflexivity.
Qed.

(** ** Results *)

Lemma read_usize_ok n : read_usize (usize n) = Some n.
Proof. unfold read_usize, usize. rewrite Nat2N.id. reflexivity. Qed.
Lemma read_encode_ok r : read_encode_result (encode_value r) = Some r.
Proof.
  destruct r as [[s n]|[c [a b] n]]; cbn.
  - rewrite Nat2N.id. reflexivity.
  - rewrite !Nat2N.id. reflexivity.
Qed.
Lemma read_decode_ok r : read_decode_result (decode_value r) = Some r.
Proof.
  destruct r as [[s n]|[[] [a b] n]]; cbn; rewrite ?Nat2N.id; reflexivity.
Qed.
Lemma observe_ok {A} max prog fuel depth (read : value -> option A) k p args m f x t v a buf :
  find_fn prog [] p = Some (m, f) -> nth_error (fn_params f) k = Some (x, t) -> read v = Some a ->
  returns v x buf (call max prog fuel depth m f args) -> observe max prog fuel depth read k p args = Ret (a, buf).
Proof. intros F P R (r & E & L). unfold observe. rewrite F, E. cbn [bind fst snd]. rewrite R, P, L. reflexivity. Qed.

Lemma encode_found max e : find_fn (source max) [] (module_of e ++ ["encode_from_str"]) = Some (module_of e, encode_fn e).
Proof. exact (encode_names _ _ _ _ e). Qed.
Lemma decode_found max e : find_fn (source max) [] (module_of e ++ ["decode_to_str"]) = Some (module_of e, decode_fn e).
Proof. exact (decode_names _ _ _ _ e). Qed.
Lemma encode_buffer e : exists t, nth_error (fn_params (encode_fn e)) 1 = Some ("out_buffer", t).
Proof. destruct e; eexists; reflexivity. Qed.
Lemma decode_buffer e : exists t, nth_error (fn_params (decode_fn e)) 1 = Some ("out_buffer", t).
Proof. destruct e; eexists; reflexivity. Qed.

Lemma chunk_bytes n l : byte_items l -> chunk_items (chunks n l).
Proof.
  unfold chunks. generalize (List.length l). intros k. revert l. induction k as [|k IH]; intros l H; destruct l as [|b l]; cbn [chunks_fuel];
    try constructor.
  - unfold byte_items in *. rewrite Forall_forall in *. intros x Hx. apply H. rewrite <- (firstn_skipn n (b :: l)). apply in_or_app. left. exact Hx.
  - apply IH. unfold byte_items in *. rewrite Forall_forall in *. intros x Hx. apply H. rewrite <- (firstn_skipn n (b :: l)). apply in_or_app. right. exact Hx.
Qed.

(* the loops of a call end within fuel iterations *)
Definition encode_within (max : N) (fuel : nat) (e : encoding) (input out : list N) (is_end : bool) : Prop :=
  match e with
  | Utf8 => copy_within fuel input (List.length out)
  | Utf16BE => enc_within max fuel (w_utf16_encode_body max true) input out
  | Utf16LE => enc_within max fuel (w_utf16_encode_body max false) input out
  | Utf32BE => enc_within max fuel (w_utf32_encode_body max true) input out
  | Utf32LE => enc_within max fuel (w_utf32_encode_body max false) input out
  | Big5WHATWG => enc_within max fuel (w_big5_encode_body max big5_encode_table is_end) input out
  | ShiftJISWHATWG => enc_within max fuel (w_sjis_encode_body max sjis_encode_table) input out
  | Single m => enc_within max fuel (w_ascii_ext_encode_body max (sb_encode_table m)) input out
  end.
Definition decode_within (max : N) (fuel : nat) (e : encoding) (input out : list N) (is_end : bool) (res : decode_result * list N) : Prop :=
  let n := S (List.length input) in
  match e with
  | Utf8 => copy_within fuel (firstn (utf8_valid_up_to input) input) (List.length out) /\
      forall e buf, res = (Err e, buf) -> within n fuel (error_body max input) (utf8_valid_up_to input + 1)
  | Utf16BE => dec_within fuel n (w_utf16_decode_body max true input is_end) (chunks 2 input) out
  | Utf16LE => dec_within fuel n (w_utf16_decode_body max false input is_end) (chunks 2 input) out
  | Utf32BE => dec_within fuel n (w_utf32_decode_body max true input is_end) (chunks 4 input) out
  | Utf32LE => dec_within fuel n (w_utf32_decode_body max false input is_end) (chunks 4 input) out
  | Big5WHATWG => dec_within fuel n (w_big5_decode_body max big5_decode_table is_end) input out
  | ShiftJISWHATWG => dec_within fuel n (w_sjis_decode_body max sjis_decode_table is_end) input out
  | Single m => dec_within fuel n (w_ascii_ext_decode_body max (sb_decode_table m)) input out
  end%nat.
Lemma within_le {S R} n fuel (body : S -> outcome (ctl S R)) s : (n <= fuel)%nat -> within n fuel body s.
Proof.
  revert fuel s. induction n as [|n IH]; intros fuel s L r E; [discriminate E|]. destruct fuel as [|fuel]; [lia|]. cbn [loop] in *.
  destruct (body s) as [[t|t|x]| | |]; cbn [bind] in *; try exact E. apply IH; [lia|exact E].
Qed.
Lemma encode_within_le max fuel e input out is_end : (List.length input < fuel)%nat -> encode_within max fuel e input out is_end.
Proof. intros L. destruct e; try (split; intros; apply within_le; exact L). intros H. apply within_le. lia. Qed.
Lemma decode_within_le max fuel e input out is_end res : (List.length input < fuel)%nat -> decode_within max fuel e input out is_end res.
Proof.
  intros L. destruct e; try (apply within_le; exact L). split; [|intros; apply within_le; exact L].
  intros H. apply within_le. rewrite firstn_length in H. lia.
Qed.

Lemma encode_call_within max fuel d e input out is_end res :
  65535 <= max -> encode_within max fuel e input out is_end -> (forall itr, char_indices input = Ret itr -> scalar_items itr) ->
  encode_word max e input out is_end = Ret res ->
  returns (encode_value (fst res)) "out_buffer" (snd res)
    (call max (source max) fuel (60 + d) (module_of e) (encode_fn e) (encode_args e input out is_end)).
Proof.
  intros M F I W. destruct e; cbn [encode_word] in W; cbn [encode_within] in F; cbn [module_of encode_fn encode_args app].
  - apply (utf8_encode_ok max fuel (20 + d)); assumption.
  - apply (encoder_ok max m_utf16_be utf16_be_encode (w_utf16_encode_body max true) M eq_refl ltac:(no_name) (utf16_be_encode_loop max M) fuel (20 + d)); assumption.
  - apply (encoder_ok max m_utf16_le utf16_le_encode (w_utf16_encode_body max false) M eq_refl ltac:(no_name) (utf16_le_encode_loop max M) fuel (20 + d)); assumption.
  - apply (encoder_ok max m_utf32_be utf32_be_encode (w_utf32_encode_body max true) M eq_refl ltac:(no_name) (utf32_be_encode_loop max M) fuel (20 + d)); assumption.
  - apply (encoder_ok max m_utf32_le utf32_le_encode (w_utf32_encode_body max false) M eq_refl ltac:(no_name) (utf32_le_encode_loop max M) fuel (20 + d)); assumption.
  - apply (big5_encode_ok max big5_encode_table fuel (10 + d)); try assumption. exact (big5_encode_const max).
  - apply (sjis_encode_ok max sjis_encode_table fuel (20 + d)); try assumption. exact (sjis_encode_const max).
  - apply (sb_wrap_encode_ok max fuel (18 + d)); assumption.
Qed.
Lemma decode_call_within max fuel d e input out is_end res :
  65535 <= max -> decode_within max fuel e input out is_end res -> byte_items input ->
  decode_word max e input out is_end = Ret res ->
  returns (decode_value (fst res)) "out_buffer" (snd res)
    (call max (source max) fuel (60 + d) (module_of e) (decode_fn e) (decode_args e input out is_end)).
Proof.
  intros M F I W. pose proof (chunk_bytes 2 input I) as I2. pose proof (chunk_bytes 4 input I) as I4.
  destruct e; cbn [decode_word] in W; cbn [decode_within] in F; cbn [module_of decode_fn decode_args app].
  - apply (utf8_decode_ok max fuel (20 + d)); try assumption; apply F.
  - apply (decoder16_ok max m_utf16_be utf16_be_decode (w_utf16_decode_body max true) M eq_refl ltac:(no_name) ltac:(no_name) (utf16_be_decode_loop max M) fuel (20 + d)); assumption.
  - apply (decoder16_ok max m_utf16_le utf16_le_decode (w_utf16_decode_body max false) M eq_refl ltac:(no_name) ltac:(no_name) (utf16_le_decode_loop max M) fuel (20 + d)); assumption.
  - apply (decoder32_ok max m_utf32_be utf32_be_decode (w_utf32_decode_body max true) M eq_refl ltac:(no_name) ltac:(no_name) (utf32_be_decode_loop max M) fuel (20 + d)); assumption.
  - apply (decoder32_ok max m_utf32_le utf32_le_decode (w_utf32_decode_body max false) M eq_refl ltac:(no_name) ltac:(no_name) (utf32_le_decode_loop max M) fuel (20 + d)); assumption.
  - apply (big5_decode_ok max big5_decode_table fuel (20 + d)); try assumption. exact (big5_decode_const max).
  - apply (sjis_decode_ok max sjis_decode_table fuel (20 + d)); try assumption. exact (sjis_decode_const max).
  - apply (sb_wrap_decode_ok max fuel (18 + d)); assumption.
Qed.
Lemma encode_call max fuel d e input out is_end res :
  65535 <= max -> (List.length input < fuel)%nat -> (forall itr, char_indices input = Ret itr -> scalar_items itr) ->
  encode_word max e input out is_end = Ret res ->
  returns (encode_value (fst res)) "out_buffer" (snd res)
    (call max (source max) fuel (60 + d) (module_of e) (encode_fn e) (encode_args e input out is_end)).
Proof. intros M F. apply encode_call_within; [exact M|apply encode_within_le, F]. Qed.
Lemma decode_call max fuel d e input out is_end res :
  65535 <= max -> (List.length input < fuel)%nat -> byte_items input ->
  decode_word max e input out is_end = Ret res ->
  returns (decode_value (fst res)) "out_buffer" (snd res)
    (call max (source max) fuel (60 + d) (module_of e) (decode_fn e) (decode_args e input out is_end)).
Proof. intros M F. apply decode_call_within; [exact M|apply decode_within_le, F]. Qed.
