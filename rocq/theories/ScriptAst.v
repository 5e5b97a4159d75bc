(* The syntax trees of the scripts, computed once; the functions, and the loops in them, by name. *)
From Coq Require Import List NArith String.
From Verif Require Import FileText FileScripts ModelScripts PySyntax PyParse PyEval SourceScripts.
Import ListNotations.
Local Open Scope string_scope.
Local Open Scope list_scope.

Definition big5_ast : list stmt := Eval vm_compute in match program generate_big5_py with Some l => l | None => [] end.
Lemma big5_program : program generate_big5_py = Some big5_ast.
Proof. vm_cast_no_check (eq_refl (Some big5_ast)). Qed.
Definition shiftjis_ast : list stmt := Eval vm_compute in match program generate_shiftjis_py with Some l => l | None => [] end.
Lemma shiftjis_program : program generate_shiftjis_py = Some shiftjis_ast.
Proof. vm_cast_no_check (eq_refl (Some shiftjis_ast)). Qed.
Definition ascii_ext_ast : list stmt := Eval vm_compute in match program generate_ascii_ext_tables_py with Some l => l | None => [] end.
Lemma ascii_ext_program : program generate_ascii_ext_tables_py = Some ascii_ext_ast.
Proof. vm_cast_no_check (eq_refl (Some ascii_ext_ast)). Qed.

Definition no_func : func := Func "" [] [].
Definition func_of (l : list stmt) (k : nat) : func := nth k (fst (split_defs l)) no_func.
Definition stmt_of (d : func) (k : nat) : stmt := nth k (f_body d) SContinue.
Definition between (d : func) (i j : nat) : list stmt := firstn (j - i) (skipn i (f_body d)).

(* generate_big5.py *)
Definition b_index : func := Eval vm_compute in func_of big5_ast 0.
Definition b_unused : func := Eval vm_compute in func_of big5_ast 1.
Definition b_dedup : func := Eval vm_compute in func_of big5_ast 2.
Definition load : func := Eval vm_compute in func_of big5_ast 3.
Definition b_tables : func := Eval vm_compute in func_of big5_ast 4.
Definition b_test : func := Eval vm_compute in func_of big5_ast 5.
Definition big5_funcs : list func := [b_index; b_unused; b_dedup; load; b_tables; b_test].
Definition big5_stmts : list stmt := Eval vm_compute in snd (split_defs big5_ast).
Lemma big5_split : split_defs big5_ast = (big5_funcs, big5_stmts).
Proof. reflexivity. Qed.

(* generate_shiftjis.py *)
Definition s_index : func := Eval vm_compute in func_of shiftjis_ast 0.
Definition s_unused : func := Eval vm_compute in func_of shiftjis_ast 1.
Definition s_dedup : func := Eval vm_compute in func_of shiftjis_ast 2.
Definition s_tables : func := Eval vm_compute in func_of shiftjis_ast 4.
Definition s_test : func := Eval vm_compute in func_of shiftjis_ast 5.
Definition shiftjis_funcs : list func := [s_index; s_unused; s_dedup; load; s_tables; s_test].
Definition shiftjis_stmts : list stmt := Eval vm_compute in snd (split_defs shiftjis_ast).
Lemma shiftjis_split : split_defs shiftjis_ast = (shiftjis_funcs, shiftjis_stmts).
Proof. reflexivity. Qed.

(* generate_ascii_ext_tables.py *)
Definition a_generate : func := Eval vm_compute in func_of ascii_ext_ast 0.
Definition ascii_ext_funcs : list func := [a_generate].
Definition ascii_ext_stmts : list stmt := Eval vm_compute in snd (split_defs ascii_ext_ast).
Lemma ascii_ext_split : split_defs ascii_ext_ast = (ascii_ext_funcs, ascii_ext_stmts).
Proof. reflexivity. Qed.

(* the body of a loop *)
Definition body_of (s : stmt) : list stmt := match s with SFor _ _ b | SWhile _ b => b | _ => [] end.

(* load_table_file *)
Definition load_start : list stmt := Eval vm_compute in between load 0 2.
Definition load_body : list stmt := Eval vm_compute in body_of (stmt_of load 2).
Definition load_end : list stmt := Eval vm_compute in between load 3 5.
Definition load_for : stmt := SFor (TName "line") (EName "in_file") load_body.
Lemma load_parts : f_body load = load_start ++ load_for :: load_end.
Proof. reflexivity. Qed.

(* deduped_table of generate_big5.py *)
Definition b_dedup_start : list stmt := Eval vm_compute in between b_dedup 0 5.
Definition last_body : list stmt := Eval vm_compute in body_of (stmt_of b_dedup 5).
Definition b_dedup_middle : list stmt := Eval vm_compute in between b_dedup 6 9.
Definition first_body : list stmt := Eval vm_compute in body_of (stmt_of b_dedup 9).
Definition dedup_end : list stmt := Eval vm_compute in between b_dedup 10 11.
Lemma b_dedup_parts : f_body b_dedup =
  b_dedup_start ++ SFor (TTuple ["index"; "codepoint"]) (EName "tmp_table_1") last_body ::
  b_dedup_middle ++ SFor (TTuple ["index"; "codepoint"]) (EName "tmp_table_2") first_body :: dedup_end.
Proof. reflexivity. Qed.

(* deduped_table of generate_shiftjis.py *)
Definition s_dedup_start : list stmt := Eval vm_compute in between s_dedup 0 4.
Lemma s_dedup_parts : f_body s_dedup =
  s_dedup_start ++ SFor (TTuple ["index"; "codepoint"]) (EName "tmp_table_1") first_body :: dedup_end.
Proof. reflexivity. Qed.

(* generate_big5_tables and generate_shiftjis_tables have the same body *)
Definition tables_start : list stmt := Eval vm_compute in between b_tables 0 3.
Definition fill_body : list stmt := Eval vm_compute in body_of (stmt_of b_tables 3).
Definition tables_encode : list stmt := Eval vm_compute in between b_tables 4 9.
Definition dec_body : list stmt := Eval vm_compute in body_of (stmt_of b_tables 9).
Definition tables_middle : list stmt := Eval vm_compute in between b_tables 10 12.
Definition enc_body : list stmt := Eval vm_compute in body_of (stmt_of b_tables 12).
Definition tables_end : list stmt := Eval vm_compute in between b_tables 13 14.
Definition tables_body : list stmt :=
  tables_start ++ SFor (TTuple ["index"; "codepoint"]) (EName "table") fill_body ::
  tables_encode ++ SFor (TTuple ["i"; "c"]) (ECall "enumerate" [EName "dec_table"] []) dec_body ::
  tables_middle ++ SFor (TTuple ["i"; "pair"]) (ECall "enumerate" [EName "enc_table"] []) enc_body :: tables_end.
Lemma b_tables_parts : f_body b_tables = tables_body.
Proof. reflexivity. Qed.
Lemma s_tables_parts : f_body s_tables = tables_body.
Proof. reflexivity. Qed.
(* the inner loop of the first *)
Definition fill_step : list stmt := Eval vm_compute in body_of (nth 0 fill_body SContinue).
