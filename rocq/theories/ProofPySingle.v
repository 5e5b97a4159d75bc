(* The script in encoding_tables/single_byte. *)
From Coq Require Import List NArith ZArith Bool String Ascii Lia.
From Verif Require Import Prelude RustCore FileText FileScripts ModelGen ModelScripts ModelFiles PySyntax PyEval ProofGen SourceScripts ScriptAst ProofPy
  ProofPyLoad ProofPyTables ProofPyTables2 ProofPyTest ProofPyWhatwg ProofPyAscii Tac.
Import ListNotations.
Local Open Scope string_scope.
Local Open Scope list_scope.

(** ** One call *)

Definition gen_ascii (p q : path) (f : files) : run :=
  match f p with
  | None => Raised f
  | Some _ =>
      let f := write f q [] in
      match f p with
      | None => Raised f
      | Some file => match ascii_ext_script file with None => Raised f | Some text => Done (write f q text) end
      end
  end.
(* the fuel that the while loops need *)
Definition a_need (o : option (list N)) : nat :=
  match o with
  | None => 0
  | Some file => match load_file mapping_line file with None => 0 | Some lines => S (Nat.max 128 (highest (sort pair_leb lines))) end
  end.

Section Call.
  Variable dir : path.
  Variable fs : list func.
  Hypothesis no_builtin : forall y, existsb (String.eqb y) ["open"; "len"; "int"; "range"; "set"; "enumerate"; "Exception"] = true -> lookup fs y = None.

  Lemma a_call a b p q w f n : resolve dir a = Some p -> resolve dir b = Some q -> among p (writes w) = false ->
    among q (p :: reads w) = false -> among q (writes w) = false -> (forall r, disk w r = f r) -> a_need (f p) <= n ->
    call_ends (gen_ascii p q f) (p :: reads w) (q :: writes w) (apply dir fs (S n) a_generate [VStr a; VStr b] w).
  Proof.
    intros A B Wp Rq Wq F H. rewrite (apply_S _ _ _ _ _ _ (upd "out_path" (VStr b) (upd "in_path" (VStr a) no_env))) by reflexivity.
    change (f_params a_generate) with ["in_path"; "out_path"].
    pose proof (a_ok dir (calls dir fs n) n (calls_none _ _ _ _ (no_builtin "open" eq_refl)) (calls_none _ _ _ _ (no_builtin "len" eq_refl))
      (calls_none _ _ _ _ (no_builtin "int" eq_refl)) (calls_none _ _ _ _ (no_builtin "range" eq_refl)) (calls_none _ _ _ _ (no_builtin "set" eq_refl))
      (calls_none _ _ _ _ (no_builtin "enumerate" eq_refl)) (calls_none _ _ _ _ (no_builtin "Exception" eq_refl)) a b p q w A B Wp Rq Wq) as T. cbn zeta in T.
    destruct (among_cons _ _ _ Rq) as [D _]. unfold gen_ascii. rewrite F in T. unfold a_need in H.
    destruct (f p) as [file|] eqn:E; [|rewrite T; exists w; split; [reflexivity|exact F]]. cbn zeta. rewrite write_other by exact D. rewrite E.
    assert (T' := T ltac:(intros lines L; rewrite L in H; exact H)). clear T. destruct (ascii_ext_script file) as [text|].
    - destruct T' as (s' & w' & E' & ((o & G1 & G2) & G3 & G4 & G5)). rewrite E'. exists VNone, w'. split; [reflexivity|]. cbn [opened has_read disk reads writes] in *.
      rewrite write_same in G1. injection G1 as <-. split; [|split; assumption]. intros r. destruct (list_eq_dec string_dec q r) as [<-|Q].
      + rewrite write_same. exact G2.
      + rewrite (G3 r) by congruence. rewrite !write_other by exact Q. apply F.
    - rewrite T'. exists (opened q (has_read p w)). split; [reflexivity|]. intros r. cbn [opened has_read disk]. apply write_ext. exact F.
  Qed.
End Call.

(** ** The main program *)

Definition codes (s : string) : list N := map N_of_ascii (list_ascii_of_string s).
Definition single_byte_at : list N := str "../../src/generated/single_byte".
Definition out_end (o : string) : list N := skipn (List.length single_byte_at) (codes o).
Definition call_stmt (io : string * string) : stmt :=
  SExpr (ECall "generate_ascii_ext_encoding" [EStr (codes (fst io)); EBin Add (EName "root") (EStr (out_end (snd io)))] []).
Lemma ascii_main_is : ascii_ext_stmts =
  [SIf (ECmp Eq (EName "__name__") (EStr (str "__main__"))) (SAssign "root" (EStr single_byte_at) :: map call_stmt single_byte_calls) []].
Proof. reflexivity. Qed.

(* the names of the files in a call are understood, and no file is opened again *)
Fixpoint fresh_calls (calls : list (string * string)) (R W : list path) : Prop :=
  match calls with
  | [] => True
  | (i, o) :: rest =>
      let p := at_ single_byte_dir i in
      let q := at_ single_byte_dir o in
      resolve single_byte_dir (codes i) = Some p /\ resolve single_byte_dir (single_byte_at ++ out_end o) = Some q /\
      among p W = false /\ among q (p :: R) = false /\ among q W = false /\ fresh_calls rest (p :: R) (q :: W)
  end.
Lemma fresh_all : fresh_calls single_byte_calls [] [].
Proof. repeat split. Qed.

Fixpoint needs (calls : list (string * string)) (f : files) : nat :=
  match calls with
  | [] => 0
  | (i, o) :: rest =>
      Nat.max (a_need (f (at_ single_byte_dir i))) (match generate_ascii_ext_file i o f with Done f => needs rest f | Raised _ => 0 end)
  end.

Lemma calls_end fs n fr : (forall y, existsb (String.eqb y) ["open"; "len"; "int"; "range"; "set"; "enumerate"; "Exception"] = true -> lookup fs y = None) ->
  lookup fs "generate_ascii_ext_encoding" = Some a_generate ->
  forall cs f s w, fresh_calls cs (reads w) (writes w) -> (forall r, disk w r = f r) -> needs cs f <= n ->
    s "root" = Some (VStr single_byte_at) -> s "generate_ascii_ext_encoding" = None ->
    out_ends (run_calls cs f) (block single_byte_dir (calls single_byte_dir fs (S n)) (S n) (map call_stmt cs) fr s w).
Proof.
  intros B L. induction cs as [|[i o] cs IH]; intros f s w Fr D N R G.
  - exists s, w. split; [reflexivity|exact D].
  - cbn [fresh_calls] in Fr. destruct Fr as (P & Q & F1 & F2 & F3 & Fr). cbn [needs] in N. cbn [map run_calls]. unfold call_stmt at 1. cbn [fst snd].
    rewrite block_cons, exec_call. cbn [eval]. rewrite G, R. cbn [bind binary]. rewrite (calls_some _ _ _ _ _ L).
    pose proof (a_call single_byte_dir fs B _ _ _ _ w f n P Q F1 F2 F3 D ltac:(lia)) as C.
    change (gen_ascii (at_ single_byte_dir i) (at_ single_byte_dir o) f) with (generate_ascii_ext_file i o f) in C.
    destruct (generate_ascii_ext_file i o f) as [f1|f1]; cbn [then_ call_ends] in C |- *.
    + destruct C as (v & w1 & E & D1 & R1 & W1). rewrite E. cbn [after seq_]. apply IH; try assumption; [rewrite R1, W1; exact Fr|lia].
    + destruct C as (w1 & E & D1). rewrite E. exists w1. split; [reflexivity|exact D1].
Qed.

Theorem ascii_ext_ends f : ends_as run_ascii_ext f (single_byte_main f).
Proof.
  apply (script_ends _ _ _ _ _ _ _ (S (needs single_byte_calls f)) ascii_ext_program ascii_ext_split). intros [|n] H; [exfalso; lia|].
  rewrite ascii_main_is, block_cons, exec_if. set (s0 := upd "__name__" _ _).
  replace (eval single_byte_dir (calls single_byte_dir ascii_ext_funcs (S n)) (ECmp Eq (EName "__name__") (EStr (str "__main__"))) s0 (World f [] [])) with (Val (VBool true) (World f [] [])) by reflexivity.
  cbn [after]. rewrite block_cons, exec_assign. cbn [eval after storable fresh mutable negb orb seq_].
  pose proof (calls_end ascii_ext_funcs n [] ltac:(apply no_builtin_of; reflexivity) eq_refl single_byte_calls f (upd "root" (VStr single_byte_at) s0) (World f [] []) fresh_all
    (fun _ => eq_refl) ltac:(lia) eq_refl eq_refl) as C. fold (single_byte_main f) in C.
  destruct (single_byte_main f) as [f'|f']; cbn [out_ends] in C |- *.
  - destruct C as (s & w & -> & D). cbn [seq_]. rewrite block_nil. exists s, w. split; [reflexivity|exact D].
  - destruct C as (w & -> & D). exists w. split; [reflexivity|exact D].
Qed.
