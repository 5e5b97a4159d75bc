(* The tables in the source are those of the model. *)
From Coq Require Import List NArith Arith Bool String Lia.
From Verif Require Import Prelude TabBig5 TabSjis RustSyntax RustEval RustProgram SourceCrate SourceWhatwg SourceAst RustRules Tac ProofSrc.
Import ListNotations.
Local Open Scope string_scope.
Local Open Scope N_scope.
Local Open Scope list_scope.

(** ** Big5 and Shift JIS *)

(* the value of a constant: an array of elements whose values are known *)
Lemma eval_list_map {A} (ev : expr -> env -> outcome (env * sig)) (g : A -> expr) (v : A -> value) l r k :
  (forall a, In a l -> ev (g a) r = Ret (r, SVal (v a))) -> eval_list ev (map g l) r k = k r (map v l).
Proof.
  revert k. induction l as [|a l IH]; intros k H; [reflexivity|]. cbn [map eval_list]. rewrite (H a) by (left; reflexivity).
  cbn. apply (IH (fun r vs => k r (v a :: vs))). intros b Hb. apply H. right. exact Hb.
Qed.
Lemma each_coerce {A} max t (v w : A -> value) l : (forall a, In a l -> coerce max t (v a) = Ret (w a)) ->
  (fix each (vs : list value) : outcome (list value) :=
     match vs with
     | [] => Ret []
     | v :: vs => let* v := coerce max t v in let* vs := each vs in Ret (v :: vs)
     end) (map v l) = Ret (map w l).
Proof.
  induction l as [|a l IH]; intros H; [reflexivity|]. cbn [map]. rewrite (H a) by (left; reflexivity). cbn [bind].
  rewrite IH by (intros b Hb; apply H; right; exact Hb). reflexivity.
Qed.

Lemma decode_const max m n dec : dec <> [] ->
  const_value max m (TyArr char_ty n) (EArr (map lit_char dec)) = Some (VArr (map VChar dec)).
Proof.
  intros E. unfold const_value. rewrite (ev_arr max no_items 0 19 m).
  rewrite (eval_list_map _ _ VChar) by reflexivity.
  unfold array. replace (match map VChar dec with [] => false | _ => _ end) with false by (destruct dec; [contradiction|reflexivity]).
  cbn [value_of bind]. cbn [coerce]. change (is_u8 char_ty) with false. cbv iota.
  rewrite (each_coerce max char_ty VChar VChar) by reflexivity. reflexivity.
Qed.
Definition open_pair (e : N * (N * N)) : value := VTuple [VChar (fst e); VArr [VLit (fst (snd e)); VLit (snd (snd e))]].
Lemma encode_const max m n enc : enc <> [] -> (forall e, In e enc -> fst (snd e) <= 255 /\ snd (snd e) <= 255) ->
  const_value max m (TyArr pair_ty n) (EArr (map lit_pair enc)) = Some (VArr (map encode_entry enc)).
Proof.
  intros E B. unfold const_value. rewrite (ev_arr max no_items 0 19 m).
  rewrite (eval_list_map _ _ open_pair) by reflexivity.
  unfold array. replace (match map open_pair enc with [] => false | _ => _ end) with false by (destruct enc; [contradiction|reflexivity]).
  cbn [value_of bind]. cbn [coerce]. change (is_u8 pair_ty) with false. cbv iota.
  rewrite (each_coerce max pair_ty open_pair encode_entry); [reflexivity|].
  intros [c [b1 b2]] H. apply B in H. cbn [fst snd] in H. destruct H as [H1 H2]. apply N.leb_le in H1, H2.
  unfold open_pair, encode_entry, pair_ty, char_ty. cbn [fst snd]. cbn [coerce bind]. change (is_u8 (TyPath ["u8"] [])) with true. cbv iota.
  cbn [as_bytes]. unfold lit_as. change (ity_max max U8) with 255. rewrite H1, H2. reflexivity.
Qed.

Lemma whatwg_consts d1 e1 d2 e2 :
  let mods := crate_with (whatwg_items d1 e1) (whatwg_items d2 e2) in
  (resolve mods get_const steps ["big5_whatwg"] ["DECODE_TABLE"] =
     Some (["big5_whatwg"], (TyArr char_ty (N.of_nat (List.length d1)), EArr (map lit_char d1))) /\
   resolve mods get_const steps ["big5_whatwg"] ["ENCODE_TABLE"] =
     Some (["big5_whatwg"], (TyArr pair_ty (N.of_nat (List.length e1)), EArr (map lit_pair e1)))) /\
  (resolve mods get_const steps ["shiftjis_whatwg"] ["DECODE_TABLE"] =
     Some (["shiftjis_whatwg"], (TyArr char_ty (N.of_nat (List.length d2)), EArr (map lit_char d2))) /\
   resolve mods get_const steps ["shiftjis_whatwg"] ["ENCODE_TABLE"] =
     Some (["shiftjis_whatwg"], (TyArr pair_ty (N.of_nat (List.length e2)), EArr (map lit_pair e2)))).
Proof. split; split; vm_compute; reflexivity. Qed.

Definition byte_entries (enc : list (N * (N * N))) : bool := forallb (fun e => (fst (snd e) <=? 255) && (snd (snd e) <=? 255)) enc.
Lemma whatwg_bytes : byte_entries big5_encode_table && byte_entries sjis_encode_table = true.
Proof. vm_compute. reflexivity. Qed.
Lemma byte_entries_ok enc : byte_entries enc = true -> forall e, In e enc -> fst (snd e) <= 255 /\ snd (snd e) <= 255.
Proof. unfold byte_entries. rewrite forallb_forall. intros H e He. apply H in He. lia. Qed.

Lemma some_const max mods m p m' t e v : resolve mods get_const steps m p = Some (m', (t, e)) -> const_value max m' t e = Some v ->
  const_is (program_of max mods) m p v.
Proof. intros R V. split. unfold program_of. cbn [find_const]. rewrite R. exact V. Qed.

Lemma big5_decode_const max : const_is (source max) ["big5_whatwg"] ["DECODE_TABLE"] (VArr (map VChar big5_decode_table)).
Proof. eapply some_const; [apply whatwg_consts|]. apply decode_const. discriminate. Qed.
Lemma sjis_decode_const max : const_is (source max) ["shiftjis_whatwg"] ["DECODE_TABLE"] (VArr (map VChar sjis_decode_table)).
Proof. eapply some_const; [apply whatwg_consts|]. apply decode_const. discriminate. Qed.
Lemma big5_encode_const max : const_is (source max) ["big5_whatwg"] ["ENCODE_TABLE"] (VArr (map encode_entry big5_encode_table)).
Proof.
  eapply some_const; [apply whatwg_consts|]. apply encode_const; [discriminate|]. apply byte_entries_ok.
  pose proof whatwg_bytes as H. apply andb_prop in H. apply H.
Qed.
Lemma sjis_encode_const max : const_is (source max) ["shiftjis_whatwg"] ["ENCODE_TABLE"] (VArr (map encode_entry sjis_encode_table)).
Proof.
  eapply some_const; [apply whatwg_consts|]. apply encode_const; [discriminate|]. apply byte_entries_ok.
  pose proof whatwg_bytes as H. apply andb_prop in H. apply H.
Qed.
