(* The syntax trees of the crate, computed once. *)
From Coq Require Import List NArith String.
From Verif Require Import Prelude FileText FileBig5 FileSjis TabBig5 TabSjis RustSyntax RustParse RustEval RustProgram SourceCrate SourceWhatwg.
Import ListNotations.
Local Open Scope string_scope.
Local Open Scope list_scope.

(* all files but the two of SourceWhatwg.v *)
Definition small_files : list (string * list item) := Eval vm_compute in read_all (rust_files ++ single_byte_files).
Lemma small_files_ok : read_all (rust_files ++ single_byte_files) = small_files.
Proof. vm_cast_no_check (eq_refl small_files). Qed.
(* the crate, with any items in these two *)
Definition files_with (b s : list item) : list (string * list item) :=
  small_files ++ [("generated/whatwg/big5_whatwg_tables.rs.inc", b); ("generated/whatwg/shiftjis_whatwg_tables.rs.inc", s)].
Definition crate_with (b s : list item) : modules := Eval vm_compute in load_files (files_with b s) "lib.rs".
Lemma crate_with_ok b s : load_files (files_with b s) "lib.rs" = crate_with b s.
Proof. vm_cast_no_check (eq_refl (crate_with b s)). Qed.

Definition crate_ast : modules :=
  crate_with (whatwg_items big5_decode_table big5_encode_table) (whatwg_items sjis_decode_table sjis_encode_table).
Lemma read_all_app a b : read_all (a ++ b) = read_all a ++ read_all b.
Proof. apply map_app. Qed.
Lemma read_some text l : parse (contents text) = Some l -> read text = l.
Proof. unfold read. intros ->. reflexivity. Qed.
Lemma read_two n1 t1 l1 n2 t2 l2 : read t1 = l1 -> read t2 = l2 -> read_all [(n1, t1); (n2, t2)] = [(n1, l1); (n2, l2)].
Proof. intros <- <-. reflexivity. Qed.
Lemma source_files_ok : read_all source_files =
  files_with (whatwg_items big5_decode_table big5_encode_table) (whatwg_items sjis_decode_table sjis_encode_table).
Proof.
  unfold source_files, files_with. rewrite app_assoc, read_all_app, small_files_ok. unfold whatwg_files.
  rewrite (read_two _ _ _ _ _ _ (read_some _ _ big5_items) (read_some _ _ sjis_items)). reflexivity.
Qed.
Lemma crate_ast_ok : crate = crate_ast.
Proof. unfold crate. rewrite source_files_ok. exact (crate_with_ok _ _). Qed.

Definition no_fn : fn := Fn [] None EBreak.
Definition ast_of (m f : string) : fn :=
  match resolve crate_ast get_fn steps [m] [f] with Some p => snd p | None => no_fn end.

Definition utf8_encode : fn := Eval vm_compute in ast_of "utf8" "encode_from_str".
Definition utf8_decode : fn := Eval vm_compute in ast_of "utf8" "decode_to_str".
Definition utf8_copy_len : fn := Eval vm_compute in ast_of "utf8" "copy_len".
Definition utf16_be_encode : fn := Eval vm_compute in ast_of "utf16_be" "encode_from_str".
Definition utf16_be_decode : fn := Eval vm_compute in ast_of "utf16_be" "decode_to_str".
Definition utf16_le_encode : fn := Eval vm_compute in ast_of "utf16_le" "encode_from_str".
Definition utf16_le_decode : fn := Eval vm_compute in ast_of "utf16_le" "decode_to_str".
Definition utf32_be_encode : fn := Eval vm_compute in ast_of "utf32_be" "encode_from_str".
Definition utf32_be_decode : fn := Eval vm_compute in ast_of "utf32_be" "decode_to_str".
Definition utf32_le_encode : fn := Eval vm_compute in ast_of "utf32_le" "encode_from_str".
Definition utf32_le_decode : fn := Eval vm_compute in ast_of "utf32_le" "decode_to_str".
Definition big5_encode : fn := Eval vm_compute in ast_of "big5_whatwg" "encode_from_str".
Definition big5_decode : fn := Eval vm_compute in ast_of "big5_whatwg" "decode_to_str".
Definition big5_map_grapheme : fn := Eval vm_compute in ast_of "big5_whatwg" "map_grapheme".
Definition sjis_encode : fn := Eval vm_compute in ast_of "shiftjis_whatwg" "encode_from_str".
Definition sjis_decode : fn := Eval vm_compute in ast_of "shiftjis_whatwg" "decode_to_str".
Definition sb_encode : fn := Eval vm_compute in ast_of "single_byte" "ascii_ext_encode_from_str".
Definition sb_decode : fn := Eval vm_compute in ast_of "single_byte" "ascii_ext_decode_to_str".

(* the loops in the statements of a function *)
Definition is_loop (e : expr) : bool := match e with EWhile _ _ | EWhileLet _ _ _ | EFor _ _ _ => true | _ => false end.
Fixpoint first_loop (ss : list stmt) : expr :=
  match ss with
  | SExpr e :: ss => if is_loop e then e else first_loop ss
  | _ :: ss => first_loop ss
  | [] => EBreak
  end.
Definition loop_of (f : fn) : expr := match fn_body f with EBlock ss _ => first_loop ss | _ => EBreak end.
Definition loop_body (e : expr) : expr := match e with EWhile _ b | EWhileLet _ _ b | EFor _ _ b => b | _ => EBreak end.
Definition loop_pat (e : expr) : pat := match e with EWhileLet p _ _ | EFor p _ _ => p | _ => PWild end.

Definition loop_expr (e : expr) : expr := match e with EWhileLet _ e _ | EFor _ e _ => e | _ => EBreak end.

Definition source (max : N) : program := program_of max crate_ast.
Lemma source_ok max : text_encoding max = source max.
Proof. unfold text_encoding. rewrite crate_ast_ok. reflexivity. Qed.

(* an entry of the encode tables of Big5 and Shift JIS *)
Definition encode_entry (e : N * (N * N)) : value := VTuple [VChar (fst e); VBytes [fst (snd e); snd (snd e)]].
