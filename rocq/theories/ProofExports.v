(* The declarations in the source files, by computation; the tokens of the two large tables are those that SourceWhatwg.v says. *)
From Coq Require Import List NArith Arith Bool String Ascii Lia.
From Verif Require Import Prelude RustCore Tac FileText FileBig5 FileSjis TabBig5 TabSjis.
From Verif Require ModelGen ModelScripts ProofFiles PropScripts.
From Verif Require Import RustSyntax RustLex RustParse RustExports SourceCrate SourceWhatwg SourceExports.
Import ListNotations.
Local Open Scope string_scope.
Local Open Scope N_scope.
Local Open Scope list_scope.

(** ** Tokens of the files *)

Lemma table_tokens dec enc inc : in_bounds dec enc = true ->
  reads_count (N.of_nat (List.length dec)) -> reads_count (N.of_nat (List.length enc)) ->
  ProofFiles.same (ModelScripts.py_encode (ModelScripts.tables_text (map ProofFiles.undef dec) enc)) (contents inc) = true ->
  tokens (contents inc) = Some (file_tokens dec enc).
Proof.
  intros B Nd Ne S. apply ProofFiles.same_ok in S. rewrite <- S. clear S. unfold in_bounds in B. apply andb_prop in B. destruct B as [Bd Be].
  rewrite forallb_forall in Bd, Be.
  assert (W : map ModelGen.written (map ProofFiles.undef dec) = dec).
  { rewrite map_map. clear. induction dec as [|c dec IH]; [reflexivity|]. cbn [map]. rewrite IH. f_equal.
    unfold ProofFiles.undef. destruct (N.eqb_spec c 0xFFFD); [subst; reflexivity|reflexivity]. }
  rewrite <- W at 2. unfold tokens. eapply run_lex; [apply run_file| |apply Nat.lt_succ_diag_r].
  - apply Forall_forall. intros o Ho. apply in_map_iff in Ho. destruct Ho as (c & <- & Hc). apply Bd in Hc. apply N.ltb_lt in Hc.
    unfold ProofFiles.undef. destruct (c =? 0xFFFD); [exact I|exact Hc].
  - apply Forall_forall. intros e H. apply Be in H. lia.
  - rewrite map_length. exact Nd.
  - exact Ne.
  - reflexivity.
Qed.
Lemma big5_tokens : tokens (contents big5_inc) = Some (file_tokens big5_decode_table big5_encode_table).
Proof.
  pose proof whatwg_bounds as B. apply andb_prop in B. destruct B as [B _]. destruct whatwg_counts as [[C1 C2] _].
  apply table_tokens; [exact B| | |exact PropScripts.big5_tables_file].
  - rewrite C1. intros r. reflexivity.
  - rewrite C2. intros r. reflexivity.
Qed.
Lemma sjis_tokens : tokens (contents shiftjis_inc) = Some (file_tokens sjis_decode_table sjis_encode_table).
Proof.
  pose proof whatwg_bounds as B. apply andb_prop in B. destruct B as [_ B]. destruct whatwg_counts as [_ [C1 C2]].
  apply table_tokens; [exact B| | |exact PropScripts.sjis_tables_file].
  - rewrite C1. intros r. reflexivity.
  - rewrite C2. intros r. reflexivity.
Qed.

(** ** Declarations *)

Definition small_decls : list (string * list decl) := Eval vm_compute in
  match all_decls (rust_files ++ single_byte_files) with Some l => l | None => [] end.
Lemma small_decls_ok : all_decls (rust_files ++ single_byte_files) = Some small_decls.
Proof. vm_cast_no_check (eq_refl (Some small_decls)). Qed.
Definition table_decls : list decl := [Decl false "const" "DECODE_TABLE" [] []; Decl false "const" "ENCODE_TABLE" [] []].
Lemma big5_decls : file_decls (file_tokens big5_decode_table big5_encode_table) = Some table_decls.
Proof. vm_cast_no_check (eq_refl (Some table_decls)). Qed.
Lemma sjis_decls : file_decls (file_tokens sjis_decode_table sjis_encode_table) = Some table_decls.
Proof. vm_cast_no_check (eq_refl (Some table_decls)). Qed.
Lemma all_decls_app a b x y : all_decls a = Some x -> all_decls b = Some y -> all_decls (a ++ b) = Some (x ++ y).
Proof.
  revert x. induction a as [|[n t] a IH]; intros x Ha Hb; cbn [all_decls app] in *.
  - injection Ha as <-. exact Hb.
  - destruct (tokens (contents t)) as [ts|]; [|discriminate Ha]. destruct (file_decls ts); [|discriminate Ha].
    destruct (all_decls a); [|discriminate Ha]. injection Ha as <-. rewrite (IH _ eq_refl Hb). reflexivity.
Qed.
Lemma all_decls_cons n t ts l files r : tokens (contents t) = Some ts -> file_decls ts = Some l -> all_decls files = Some r ->
  all_decls ((n, t) :: files) = Some ((n, l) :: r).
Proof. intros T F A. cbn [all_decls]. rewrite T, F, A. reflexivity. Qed.
Lemma exports_from files main fs : all_decls files = Some fs -> exports_of files main = Some (exported (decls_in fs) 8 [] (decls_in fs main)).
Proof. unfold exports_of. intros ->. reflexivity. Qed.
Definition table_files : list (string * list decl) :=
  [("generated/whatwg/big5_whatwg_tables.rs.inc", table_decls); ("generated/whatwg/shiftjis_whatwg_tables.rs.inc", table_decls)].
Lemma whatwg_decls : all_decls whatwg_files = Some table_files.
Proof. exact (all_decls_cons _ _ _ _ _ _ big5_tokens big5_decls (all_decls_cons _ _ _ _ [] [] sjis_tokens sjis_decls eq_refl)). Qed.
Definition crate_decls : list (string * list decl) := small_decls ++ table_files.
Definition exports : list (string * path * list token) := Eval vm_compute in exported (decls_in crate_decls) 8 [] (decls_in crate_decls "lib.rs").
Lemma exports_of_decls : exported (decls_in crate_decls) 8 [] (decls_in crate_decls "lib.rs") = exports.
Proof. vm_cast_no_check (eq_refl exports). Qed.
Lemma exports_ok : source_exports = Some exports.
Proof.
  rewrite <- exports_of_decls. apply exports_from. unfold source_files. rewrite app_assoc.
  apply all_decls_app; [exact small_decls_ok | exact whatwg_decls].
Qed.

(** ** All files *)

Definition small_tokens : list (option (list token)) := Eval vm_compute in map (fun e => tokens (contents (snd e))) (rust_files ++ single_byte_files).
Lemma small_tokens_ok : map (fun e => tokens (contents (snd e))) (rust_files ++ single_byte_files) = small_tokens.
Proof. vm_cast_no_check (eq_refl small_tokens). Qed.
(* what a decision procedure finds in all files *)
Lemma all_tokens (check : list token -> bool) :
  forallb (fun o => match o with Some ts => check ts | None => false end) small_tokens = true ->
  check (file_tokens big5_decode_table big5_encode_table) = true -> check (file_tokens sjis_decode_table sjis_encode_table) = true ->
  forall name t, In (name, t) source_files -> exists ts, tokens (contents t) = Some ts /\ check ts = true.
Proof.
  intros S B J name t I. unfold source_files in I. rewrite app_assoc in I. apply in_app_or in I. destruct I as [I|I].
  - rewrite forallb_forall in S. specialize (S (tokens (contents t))). rewrite <- small_tokens_ok in S.
    specialize (S (in_map (fun e : string * list line => tokens (contents (snd e))) _ _ I)).
    destruct (tokens (contents t)) as [ts|]; [|discriminate S]. exists ts. split; [reflexivity|exact S].
  - unfold whatwg_files in I. cbn [In] in I. destruct I as [I|[I|[]]]; injection I as _ <-.
    + exists (file_tokens big5_decode_table big5_encode_table). split; [exact big5_tokens|exact B].
    + exists (file_tokens sjis_decode_table sjis_encode_table). split; [exact sjis_tokens|exact J].
Qed.

Lemma until_app l ts : forall d, fst (until l d ts) ++ snd (until l d ts) = ts.
Proof.
  induction ts as [|t r IH]; intros d; [reflexivity|]. cbn [until]. destruct (_ && _); [reflexivity|].
  cbn [fst snd app]. rewrite IH. reflexivity.
Qed.
