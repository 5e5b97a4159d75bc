(* The two scripts in encoding_tables/whatwg. *)
From Coq Require Import List NArith ZArith Bool String Lia.
From Verif Require Import Prelude RustCore FileText FileScripts ModelGen ModelScripts ModelTests ModelFiles PySyntax PyEval ProofGen SourceScripts ScriptAst ProofPy
  ProofPyLoad ProofPyDedup ProofPyTables ProofPyTables2 ProofPyTest Tac.
Import ListNotations.
Local Open Scope string_scope.
Local Open Scope list_scope.

(* a call that ends as the model says; after it, the files in R have been opened for reading, those in W for writing *)
Definition call_ends (r : run) (R W : list path) (x : res value) : Prop :=
  match r with
  | Done f => exists v w, x = Val v w /\ (forall p, disk w p = f p) /\ reads w = R /\ writes w = W
  | Raised f => exists w, x = Raise w /\ forall p, disk w p = f p
  end.
Definition out_ends (r : run) (o : outcome) : Prop :=
  match r with
  | Done f => exists s w, o = Next s w /\ forall p, disk w p = f p
  | Raised f => exists w, o = Failed w /\ forall p, disk w p = f p
  end.

Section Parts.
  Variable dir : path.
  Variable fs : list func.
  Variable n : nat.
  Hypothesis no_builtin : forall y, existsb (String.eqb y) ["open"; "len"; "int"; "enumerate"; "range"; "bytes"; "chr"; "set"] = true -> lookup fs y = None.

  Lemma load_call : lookup fs "load_table_file" = Some load -> loads dir (apply dir fs (S n) load).
  Proof.
    intros _ cs p w P W. rewrite (apply_S _ _ _ _ _ _ (upd "path" (VStr cs) no_env)) by reflexivity. change (f_params load) with ["path"].
    rewrite (load_ok dir (calls dir fs n) n (calls_none _ _ _ _ (no_builtin "open" eq_refl)) (calls_none _ _ _ _ (no_builtin "len" eq_refl)) (calls_none _ _ _ _ (no_builtin "int" eq_refl)) cs p) by (reflexivity || assumption).
    destruct (disk w p) as [file|]; [|reflexivity]. cbn zeta. destruct (load_file index_line file); reflexivity.
  Qed.
  Lemma big5_dedup_call : dedups big5_deduped_table (apply dir fs (S n) b_dedup).
  Proof.
    intros t w. rewrite (apply_S _ _ _ _ _ _ (upd "table" (VList (map vpair t)) no_env)) by reflexivity. change (f_params b_dedup) with ["table"].
    rewrite (big5_dedup_ok dir (calls dir fs n) n (calls_none _ _ _ _ (no_builtin "set" eq_refl)) t) by reflexivity. reflexivity.
  Qed.
  Lemma sjis_dedup_call : dedups sjis_deduped_table (apply dir fs (S n) s_dedup).
  Proof.
    intros t w. rewrite (apply_S _ _ _ _ _ _ (upd "table" (VList (map vpair t)) no_env)) by reflexivity. change (f_params s_dedup) with ["table"].
    rewrite (sjis_dedup_ok dir (calls dir fs n) n (calls_none _ _ _ _ (no_builtin "set" eq_refl)) t) by reflexivity. reflexivity.
  Qed.
  Lemma big5_index_call : indexes big5_index_to_bytes (apply dir fs (S n) b_index).
  Proof. intros i w. apply big5_index_ok. Qed.
  Lemma sjis_index_call : indexes sjis_index_to_bytes (apply dir fs (S n) s_index).
  Proof. intros i w. apply sjis_index_ok. Qed.
End Parts.

(** ** generate_..._tables *)

Definition tables_of (dedup : list (N * N) -> list (N * N)) (to_bytes : N -> N * N) (file : list N) : option (list N) :=
  match load_file index_line file with
  | None => None
  | Some lines =>
      let table := sort pair_leb lines in
      Some (py_encode (tables_text (dec_fill 0 table) (sort entry_leb (map (fun ic => (snd ic, to_bytes (fst ic))) (dedup table)))))
  end.
Definition gen_tables (script : list N -> option (list N)) (p q : path) (f : files) : run :=
  match f p with
  | None => Raised f
  | Some file => match script file with None => Raised f | Some text => Done (write f q text) end
  end.
(* the fuel that the while loop needs *)
Definition need (o : option (list N)) : nat :=
  match o with
  | None => 0
  | Some file => match load_file index_line file with None => 0 | Some lines => S (highest (sort pair_leb lines)) end
  end.

Section Whatwg.
  Variable dir : path.
  Variable fs : list func.
  Hypothesis no_builtin : forall y, existsb (String.eqb y) ["open"; "len"; "int"; "enumerate"; "range"; "bytes"; "chr"; "set"] = true -> lookup fs y = None.
  Variable d_index d_dedup d_tables d_test : func.
  Hypothesis has_load : lookup fs "load_table_file" = Some load.
  Hypothesis has_index : lookup fs "index_to_bytes" = Some d_index.
  Hypothesis has_dedup : lookup fs "deduped_table" = Some d_dedup.
  Variable dedup : list (N * N) -> list (N * N).
  Variable to_bytes : N -> N * N.
  Hypothesis dedup_spec : forall n, dedups dedup (apply dir fs (S n) d_dedup).
  Hypothesis index_spec : forall n, indexes to_bytes (apply dir fs (S n) d_index).
  Hypothesis tables_is : f_body d_tables = tables_body.
  Hypothesis tables_params : f_params d_tables = ["in_path"; "out_path"].

  Lemma tables_call a b p q w f n : resolve dir a = Some p -> resolve dir b = Some q -> among p (writes w) = false ->
    among q (p :: reads w) = false -> among q (writes w) = false -> (forall r, disk w r = f r) -> need (f p) <= S n ->
    call_ends (gen_tables (tables_of dedup to_bytes) p q f) (p :: reads w) (q :: writes w) (apply dir fs (S (S n)) d_tables [VStr a; VStr b] w).
  Proof.
    intros A B Wp Rq Wq F H. rewrite (apply_S _ _ _ _ _ _ (upd "out_path" (VStr b) (upd "in_path" (VStr a) no_env))) by (rewrite tables_params; reflexivity).
    rewrite tables_is, tables_params.
    pose proof (tables_ok dir (calls dir fs (S n)) (S n) (calls_none _ _ _ _ (no_builtin "open" eq_refl)) (calls_none _ _ _ _ (no_builtin "len" eq_refl))
      (calls_none _ _ _ _ (no_builtin "enumerate" eq_refl)) _ _ _ dedup to_bytes (calls_some _ _ _ _ _ has_load) (calls_some _ _ _ _ _ has_dedup) (calls_some _ _ _ _ _ has_index)
      (load_call dir fs n no_builtin has_load) (dedup_spec n) (index_spec n) a b p q w A B Wp Rq Wq) as T. cbn zeta in T.
    unfold gen_tables, tables_of. rewrite F in T. unfold need in H. destruct (f p) as [file|]; [|rewrite T; exists w; split; [reflexivity|exact F]].
    destruct (load_file index_line file) as [lines|]; [|rewrite T; exists (has_read p w); split; [reflexivity|exact F]].
    destruct (T H) as (s' & w' & E & ((o & G1 & G2) & G3 & G4 & G5)). rewrite E. exists VNone, w'. split; [reflexivity|]. cbn [opened has_read disk reads writes] in *.
    rewrite write_same in G1. injection G1 as <-. split; [|split; assumption]. intros r. destruct (list_eq_dec string_dec q r) as [<-|D].
    - rewrite write_same. exact G2.
    - rewrite (G3 r) by congruence. rewrite !write_other by exact D. apply F.
  Qed.

  (** ** generate_..._test_data *)

  Variable a_stmts b_stmts : list stmt.
  Variable lines : list (N * N) -> list (option (list N) * option (list N)).
  Hypothesis test_is : f_body d_test = test_body a_stmts b_stmts.
  Hypothesis test_params : f_params d_test = ["in_path"; "dec_in_path"; "dec_out_path"; "enc_in_path"; "enc_out_path"].
  Hypothesis a_half : forall n, half_ok dir (calls dir fs (S n)) (S n) "decode_in_file" "decode_out_file" a_stmts lines.
  Hypothesis b_half : forall n, half_ok dir (calls dir fs (S n)) (S n) "encode_in_file" "encode_out_file" b_stmts (fun t => swapped (lines (dedup t))).

  Definition gen_tests (p0 p1 p2 p3 p4 : path) (f : files) : run :=
    match f p0 with
    | None => Raised f
    | Some file =>
        match load_file index_line file with
        | None => Raised f
        | Some l =>
            let table := sort pair_leb l in
            let '(a, b, ok) := write_lines (lines table) [] [] in
            let f := write (write f p1 a) p2 b in
            if ok then
              let '(c, d, ok) := write_lines (swapped (lines (dedup table))) [] [] in
              let f := write (write f p3 c) p4 d in
              if ok then Done f else Raised f
            else Raised f
        end
    end.

  Lemma test_call c0 c1 c2 c3 c4 p0 p1 p2 p3 p4 w f n :
    resolve dir c0 = Some p0 -> resolve dir c1 = Some p1 -> resolve dir c2 = Some p2 -> resolve dir c3 = Some p3 -> resolve dir c4 = Some p4 ->
    among p0 (writes w) = false ->
    among p1 (p0 :: reads w) = false -> among p2 (p0 :: reads w) = false -> among p3 (p0 :: reads w) = false -> among p4 (p0 :: reads w) = false ->
    among p1 (writes w) = false -> among p2 (p1 :: writes w) = false -> among p3 (p2 :: p1 :: writes w) = false -> among p4 (p3 :: p2 :: p1 :: writes w) = false ->
    (forall r, disk w r = f r) ->
    match gen_tests p0 p1 p2 p3 p4 f with
    | Done f => exists w', apply dir fs (S (S n)) d_test [VStr c0; VStr c1; VStr c2; VStr c3; VStr c4] w = Val VNone w' /\ forall p, disk w' p = f p
    | Raised f => exists w', apply dir fs (S (S n)) d_test [VStr c0; VStr c1; VStr c2; VStr c3; VStr c4] w = Raise w' /\ forall p, disk w' p = f p
    end.
  Proof.
    intros Q0 Q1 Q2 Q3 Q4 W0 R1 R2 R3 R4 W1 W2 W3 W4 F.
    rewrite (apply_S _ _ _ _ _ _ (upd "enc_out_path" (VStr c4) (upd "enc_in_path" (VStr c3) (upd "dec_out_path" (VStr c2) (upd "dec_in_path" (VStr c1) (upd "in_path" (VStr c0) no_env))))))
      by (rewrite test_params; reflexivity). rewrite test_is, test_params.
    pose proof (test_ok dir (calls dir fs (S n)) (S n) (calls_none _ _ _ _ (no_builtin "open" eq_refl)) _ (calls_some _ _ _ _ _ has_load)
      (load_call dir fs n no_builtin has_load) a_stmts b_stmts lines _ (a_half n) (b_half n)
      c0 c1 c2 c3 c4 p0 p1 p2 p3 p4 w Q0 Q1 Q2 Q3 Q4 W0 R1 R2 R3 R4 W1 W2 W3 W4) as T. cbn zeta in T. unfold gen_tests. rewrite F in T.
    destruct (f p0) as [file|]; [|rewrite T; exists w; split; [reflexivity|exact F]].
    destruct (load_file index_line file) as [l|]; [|rewrite T; exists (has_read p0 w); split; [reflexivity|exact F]].
    cbn zeta. destruct (write_lines (lines (sort pair_leb l)) [] []) as [[x y] [|]].
    - destruct (write_lines (swapped _) [] []) as [[x' y'] ok]. destruct T as (w' & K & O).
      assert (K' : forall r, disk w' r = write (write (write (write f p1 x) p2 y) p3 x') p4 y' r).
      { intros r. rewrite K. do 4 (apply write_ext; intros ?). apply F. }
      destruct ok; [destruct O as (s' & ->)|rewrite O]; exists w'; (split; [reflexivity|exact K']).
    - destruct T as (w' & E & K). rewrite E. exists w'. split; [reflexivity|]. intros r. rewrite K. do 2 (apply write_ext; intros ?). apply F.
  Qed.
End Whatwg.

(** ** The loops of the two test functions *)

Section Halves.
  Variable dir : path.
  Variable call : string -> option (list value -> world -> res value).
  Variable fuel : nat.
  Hypothesis no_range : call "range" = None.
  Hypothesis no_bytes : call "bytes" = None.
  Hypothesis no_chr : call "chr" = None.
  Variable g_dedup g_index : list value -> world -> res value.
  Hypothesis has_dedup : call "deduped_table" = Some g_dedup.
  Hypothesis has_index : call "index_to_bytes" = Some g_index.
  Variable dedup : list (N * N) -> list (N * N).
  Hypothesis dedup_spec : dedups dedup g_dedup.

  Lemma chr_name x s c : s "chr" = None -> s x = Some (vint c) -> gives dir call (x_chr (EName x)) s (py_chr c).
  Proof. intros C X. apply chr_gives; [assumption|assumption|]. intros w. cbn [eval]. rewrite X. reflexivity. Qed.
  Lemma dedup_value s0 s table w : same s0 s -> s0 "deduped_table" = None -> s0 "table" = Some (VList (map vpair table)) ->
    eval dir call (ECall "deduped_table" [EName "table"] []) s w = Val (VList (map vpair (dedup table))) w.
  Proof. intros S D T. cbn [eval]. rewrite (S "deduped_table" eq_refl), D, (S "table" eq_refl), T. cbn [bind]. rewrite has_dedup. apply dedup_spec. Qed.

  Lemma big5_a : indexes big5_index_to_bytes g_index -> half_ok dir call fuel "decode_in_file" "decode_out_file"
    [ascii_loop 128 "decode_in_file" "decode_out_file" x_byte x_byte;
     pair_loop (EName "table") "decode_in_file" "decode_out_file" x_index (x_chr (EName "codepoint"));
     sequence_loop "decode_in_file" "decode_out_file" [x_index] x_chrs] big5_lines.
  Proof.
    intros I p q s0 table fr s w D A B T F S P Q. unfold big5_lines.
    apply (wrote_app dir call fuel p q _ _ s0 w [_] [_; _]); [|clear s w S P Q; intros s w S P Q; apply (wrote_app dir call fuel p q _ _ s0 w [_] [_]); [|clear s w S P Q; intros s w S P Q]].
    - apply (ascii_ok dir call fuel) with (n := 128%N) (hx := fun b => py_bytes [b]) (hy := fun b => py_bytes [b]); try assumption; try reflexivity;
        intros; apply byte_gives; assumption.
    - apply (pair_ok dir call fuel) with (hx := fun ic => py_bytes (pair_bytes (big5_index_to_bytes (fst ic)))) (hy := fun ic => py_chr (snd ic)); try assumption; try reflexivity.
      + cbn [eval]. rewrite (S "table" eq_refl), T. reflexivity.
      + intros. apply (index_gives dir call no_bytes g_index); assumption.
      + intros. apply chr_name; assumption.
    - apply (sequence_ok dir call fuel) with (hx := fun ics => py_bytes (pair_bytes (big5_index_to_bytes (fst ics))))
        (hy := fun ics => Some (encode_utf8 (fst (snd ics)) ++ encode_utf8 (snd (snd ics)))); try assumption; try reflexivity.
      + apply (sequence_index dir call fuel no_bytes g_index); assumption.
      + apply (sequence_chrs dir call fuel); assumption.
  Qed.
  Lemma big5_b : indexes big5_index_to_bytes g_index -> half_ok dir call fuel "encode_in_file" "encode_out_file"
    [ascii_loop 128 "encode_in_file" "encode_out_file" x_byte x_byte;
     pair_loop (ECall "deduped_table" [EName "table"] []) "encode_in_file" "encode_out_file" (x_chr (EName "codepoint")) x_index;
     sequence_loop "encode_in_file" "encode_out_file" x_chrs [x_index]] (fun t => swapped (big5_lines (dedup t))).
  Proof.
    intros I p q s0 table fr s w D A B T F S P Q. unfold big5_lines, swapped. rewrite !map_app, !map_map. cbn [fst snd].
    apply (wrote_app dir call fuel p q _ _ s0 w [_] [_; _]); [|clear s w S P Q; intros s w S P Q; apply (wrote_app dir call fuel p q _ _ s0 w [_] [_]); [|clear s w S P Q; intros s w S P Q]].
    - apply (ascii_ok dir call fuel) with (n := 128%N) (hx := fun b => py_bytes [b]) (hy := fun b => py_bytes [b]); try assumption; try reflexivity;
        intros; apply byte_gives; assumption.
    - apply (pair_ok dir call fuel) with (hy := fun ic => py_bytes (pair_bytes (big5_index_to_bytes (fst ic)))) (hx := fun ic => py_chr (snd ic)); try assumption; try reflexivity.
      + apply (dedup_value s0); [exact S|apply F; reflexivity|exact T].
      + intros. apply chr_name; assumption.
      + intros. apply (index_gives dir call no_bytes g_index); assumption.
    - apply (sequence_ok dir call fuel) with (hy := fun ics => py_bytes (pair_bytes (big5_index_to_bytes (fst ics))))
        (hx := fun ics => Some (encode_utf8 (fst (snd ics)) ++ encode_utf8 (snd (snd ics)))); try assumption; try reflexivity.
      + apply (sequence_chrs dir call fuel); assumption.
      + apply (sequence_index dir call fuel no_bytes g_index); assumption.
  Qed.
  Lemma sjis_a : indexes sjis_index_to_bytes g_index -> half_ok dir call fuel "decode_in_file" "decode_out_file"
    [ascii_loop 129 "decode_in_file" "decode_out_file" x_byte (x_chr (EName "ascii_byte"));
     pair_loop (EName "table") "decode_in_file" "decode_out_file" x_index (x_chr (EName "codepoint"))] sjis_lines.
  Proof.
    intros I p q s0 table fr s w D A B T F S P Q. unfold sjis_lines.
    apply (wrote_app dir call fuel p q _ _ s0 w [_] [_]); [|clear s w S P Q; intros s w S P Q].
    - apply (ascii_ok dir call fuel) with (n := 129%N) (hx := fun b => py_bytes [b]) (hy := py_chr); try assumption; try reflexivity; intros;
        [apply byte_gives|apply chr_name]; assumption.
    - apply (pair_ok dir call fuel) with (hx := fun ic => py_bytes (pair_bytes (sjis_index_to_bytes (fst ic)))) (hy := fun ic => py_chr (snd ic)); try assumption; try reflexivity.
      + cbn [eval]. rewrite (S "table" eq_refl), T. reflexivity.
      + intros. apply (index_gives dir call no_bytes g_index); assumption.
      + intros. apply chr_name; assumption.
  Qed.
  Lemma sjis_b : indexes sjis_index_to_bytes g_index -> half_ok dir call fuel "encode_in_file" "encode_out_file"
    [ascii_loop 129 "encode_in_file" "encode_out_file" (x_chr (EName "ascii_byte")) x_byte;
     pair_loop (ECall "deduped_table" [EName "table"] []) "encode_in_file" "encode_out_file" (x_chr (EName "codepoint")) x_index] (fun t => swapped (sjis_lines (dedup t))).
  Proof.
    intros I p q s0 table fr s w D A B T F S P Q. unfold sjis_lines, swapped. rewrite !map_app, !map_map. cbn [fst snd].
    apply (wrote_app dir call fuel p q _ _ s0 w [_] [_]); [|clear s w S P Q; intros s w S P Q].
    - apply (ascii_ok dir call fuel) with (n := 129%N) (hy := fun b => py_bytes [b]) (hx := py_chr); try assumption; try reflexivity; intros;
        [apply chr_name|apply byte_gives]; assumption.
    - apply (pair_ok dir call fuel) with (hy := fun ic => py_bytes (pair_bytes (sjis_index_to_bytes (fst ic)))) (hx := fun ic => py_chr (snd ic)); try assumption; try reflexivity.
      + apply (dedup_value s0); [exact S|apply F; reflexivity|exact T].
      + intros. apply chr_name; assumption.
      + intros. apply (index_gives dir call no_bytes g_index); assumption.
  Qed.
End Halves.

(** ** The main programs *)

Lemma no_builtin_of fs l : forallb (fun y => match lookup fs y with None => true | Some _ => false end) l = true ->
  forall y, existsb (String.eqb y) l = true -> lookup fs y = None.
Proof.
  intros H y Y. apply existsb_exists in Y. destruct Y as (z & Z & E). apply String.eqb_eq in E. subst z.
  rewrite forallb_forall in H. specialize (H y Z). destruct (lookup fs y); [discriminate|reflexivity].
Qed.
Lemma big5_no_builtin y : existsb (String.eqb y) ["open"; "len"; "int"; "enumerate"; "range"; "bytes"; "chr"; "set"] = true -> lookup big5_funcs y = None.
Proof. apply no_builtin_of. reflexivity. Qed.
Lemma sjis_no_builtin y : existsb (String.eqb y) ["open"; "len"; "int"; "enumerate"; "range"; "bytes"; "chr"; "set"] = true -> lookup shiftjis_funcs y = None.
Proof. apply no_builtin_of. reflexivity. Qed.

Definition tables_at : list N := str "../../src/generated/whatwg".
Definition tests_at : list N := str "../../tests/test_data/whatwg".
Definition whatwg_main (tables test : string) (index out di do ei eo : list N) : list stmt :=
  [SIf (ECmp Eq (EName "__name__") (EStr (str "__main__")))
    [SAssign "table_root" (EStr tables_at); SAssign "test_root" (EStr tests_at);
     SExpr (ECall tables [EStr index; EBin Add (EName "table_root") (EStr out)] []);
     SExpr (ECall test [EStr index; EBin Add (EName "test_root") (EStr di); EBin Add (EName "test_root") (EStr do);
                        EBin Add (EName "test_root") (EStr ei); EBin Add (EName "test_root") (EStr eo)] [])] []].
Definition main_env : env := upd "test_root" (VStr tests_at) (upd "table_root" (VStr tables_at) (upd "__name__" (VStr (str "__main__")) no_env)).
Definition test_args (index di do ei eo : list N) : list value :=
  [VStr index; VStr (tests_at ++ di); VStr (tests_at ++ do); VStr (tests_at ++ ei); VStr (tests_at ++ eo)].

(* the two calls, from what each of them does *)
Lemma main_ok dir fs fuel tables test index out di do ei eo d_tables d_test f r1 k R W :
  lookup fs tables = Some d_tables -> lookup fs test = Some d_test -> main_env tables = None -> main_env test = None ->
  call_ends r1 R W (apply dir fs fuel d_tables [VStr index; VStr (tables_at ++ out)] (World f [] [])) ->
  (forall w f, (forall r, disk w r = f r) -> reads w = R -> writes w = W ->
    match k f with
    | Done f => exists w', apply dir fs fuel d_test (test_args index di do ei eo) w = Val VNone w' /\ forall p, disk w' p = f p
    | Raised f => exists w', apply dir fs fuel d_test (test_args index di do ei eo) w = Raise w' /\ forall p, disk w' p = f p
    end) ->
  out_ends (then_ r1 k)
    (block dir (calls dir fs fuel) fuel (whatwg_main tables test index out di do ei eo) [] (upd "__name__" (VStr (str "__main__")) no_env) (World f [] [])).
Proof.
  intros L1 L2 F1 F2 C1 C2. unfold whatwg_main. rewrite block_cons, exec_if. set (s0 := upd "__name__" _ _).
  replace (eval dir (calls dir fs fuel) (ECmp Eq (EName "__name__") (EStr (str "__main__"))) s0 (World f [] [])) with (Val (VBool true) (World f [] [])) by reflexivity.
  cbn [after]. rewrite block_cons, exec_assign. cbn [eval after storable fresh mutable negb orb seq_]. rewrite block_cons, exec_assign. cbn [eval after storable fresh mutable negb orb seq_].
  subst s0. fold main_env. rewrite block_cons, exec_call. cbn [eval]. rewrite F1. change (main_env "table_root") with (Some (VStr tables_at)). cbn [bind binary].
  rewrite (calls_some _ _ _ _ _ L1).
  destruct r1 as [f1|f1].
  - destruct C1 as (v & w1 & -> & D1 & R1 & W1). cbn [after seq_ then_]. rewrite block_cons, exec_call. cbn [eval]. rewrite F2. change (main_env "test_root") with (Some (VStr tests_at)). cbn [bind binary].
    rewrite (calls_some _ _ _ _ _ L2). fold (test_args index di do ei eo). specialize (C2 w1 f1 D1 R1 W1). destruct (k f1) as [f2|f2].
    + destruct C2 as (w2 & -> & D2). cbn [after seq_]. rewrite block_nil. exists main_env, w2. split; [reflexivity|exact D2].
    + destruct C2 as (w2 & -> & D2). exists w2. split; [reflexivity|exact D2].
  - destruct C1 as (w1 & -> & D1). exists w1. split; [reflexivity|exact D1].
Qed.

Lemma big5_main_is : big5_stmts = whatwg_main "generate_big5_tables" "generate_big5_test_data" (str "index-big5.txt") (str "/big5_whatwg_tables.rs.inc")
  (str "/big5_whatwg_test_decode_in.txt") (str "/big5_whatwg_test_decode_out.txt") (str "/big5_whatwg_test_encode_in.txt") (str "/big5_whatwg_test_encode_out.txt").
Proof. reflexivity. Qed.
Lemma shiftjis_main_is : shiftjis_stmts = whatwg_main "generate_shiftjis_tables" "generate_shiftjis_test_data" (str "index-jis0208.txt") (str "/shiftjis_whatwg_tables.rs.inc")
  (str "/shiftjis_whatwg_test_decode_in.txt") (str "/shiftjis_whatwg_test_decode_out.txt") (str "/shiftjis_whatwg_test_encode_in.txt") (str "/shiftjis_whatwg_test_encode_out.txt").
Proof. reflexivity. Qed.

Lemma script_ends dir file ast fs stmts f r enough : program file = Some ast -> split_defs ast = (fs, stmts) ->
  (forall fuel, enough <= fuel -> out_ends r (block dir (calls dir fs fuel) fuel stmts [] (upd "__name__" (VStr (str "__main__")) no_env) (World f [] []))) ->
  ends_as (run_file dir file) f r.
Proof.
  intros P S H. exists enough. intros fuel Hf. unfold run_file. rewrite P. unfold run_script. rewrite S. specialize (H fuel Hf). destruct r as [f'|f'].
  - destruct H as (s & w & -> & D). exists w. split; [reflexivity|exact D].
  - destruct H as (w & -> & D). exists w. split; [reflexivity|exact D].
Qed.

Theorem big5_ends f : ends_as run_big5 f (big5_main f).
Proof.
  apply (script_ends _ _ _ _ _ _ _ (2 + need (f (at_ whatwg_dir "index-big5.txt"))) big5_program big5_split). intros [|[|n]] H; try (exfalso; lia).
  rewrite big5_main_is.
  assert (I : forall n, indexes big5_index_to_bytes (apply whatwg_dir big5_funcs (S n) b_index)) by (intros; apply big5_index_call).
  assert (D : forall n, dedups big5_deduped_table (apply whatwg_dir big5_funcs (S n) b_dedup)) by (intros; apply big5_dedup_call, big5_no_builtin).
  eapply main_ok; [reflexivity|reflexivity|reflexivity|reflexivity| |].
  - apply (tables_call whatwg_dir big5_funcs big5_no_builtin b_index b_dedup b_tables) with (p := at_ whatwg_dir "index-big5.txt") (q := at_ whatwg_dir "../../src/generated/whatwg/big5_whatwg_tables.rs.inc");
      try reflexivity; try assumption. lia.
  - intros w f' F R W. cbn [app reads writes] in R, W.
    apply (test_call whatwg_dir big5_funcs big5_no_builtin b_test eq_refl big5_deduped_table _ _ big5_lines b_test_parts eq_refl) with
      (p0 := at_ whatwg_dir "index-big5.txt") (p1 := at_ whatwg_dir "../../tests/test_data/whatwg/big5_whatwg_test_decode_in.txt")
      (p2 := at_ whatwg_dir "../../tests/test_data/whatwg/big5_whatwg_test_decode_out.txt")
      (p3 := at_ whatwg_dir "../../tests/test_data/whatwg/big5_whatwg_test_encode_in.txt")
      (p4 := at_ whatwg_dir "../../tests/test_data/whatwg/big5_whatwg_test_encode_out.txt"); rewrite ?R, ?W; try reflexivity; try exact F.
    + intros m. apply (big5_a _ _ _ eq_refl eq_refl eq_refl _ eq_refl (I m)).
    + intros m. apply (big5_b _ _ _ eq_refl eq_refl eq_refl _ _ eq_refl eq_refl _ (D m) (I m)).
Qed.

Theorem shiftjis_ends f : ends_as run_shiftjis f (shiftjis_main f).
Proof.
  apply (script_ends _ _ _ _ _ _ _ (2 + need (f (at_ whatwg_dir "index-jis0208.txt"))) shiftjis_program shiftjis_split). intros [|[|n]] H; try (exfalso; lia).
  rewrite shiftjis_main_is.
  assert (I : forall n, indexes sjis_index_to_bytes (apply whatwg_dir shiftjis_funcs (S n) s_index)) by (intros; apply sjis_index_call).
  assert (D : forall n, dedups sjis_deduped_table (apply whatwg_dir shiftjis_funcs (S n) s_dedup)) by (intros; apply sjis_dedup_call, sjis_no_builtin).
  eapply main_ok; [reflexivity|reflexivity|reflexivity|reflexivity| |].
  - apply (tables_call whatwg_dir shiftjis_funcs sjis_no_builtin s_index s_dedup s_tables) with (p := at_ whatwg_dir "index-jis0208.txt") (q := at_ whatwg_dir "../../src/generated/whatwg/shiftjis_whatwg_tables.rs.inc");
      try reflexivity; try assumption. lia.
  - intros w f' F R W. cbn [app reads writes] in R, W.
    apply (test_call whatwg_dir shiftjis_funcs sjis_no_builtin s_test eq_refl sjis_deduped_table _ _ sjis_lines s_test_parts eq_refl) with
      (p0 := at_ whatwg_dir "index-jis0208.txt") (p1 := at_ whatwg_dir "../../tests/test_data/whatwg/shiftjis_whatwg_test_decode_in.txt")
      (p2 := at_ whatwg_dir "../../tests/test_data/whatwg/shiftjis_whatwg_test_decode_out.txt")
      (p3 := at_ whatwg_dir "../../tests/test_data/whatwg/shiftjis_whatwg_test_encode_in.txt")
      (p4 := at_ whatwg_dir "../../tests/test_data/whatwg/shiftjis_whatwg_test_encode_out.txt"); rewrite ?R, ?W; try reflexivity; try exact F.
    + intros m. apply (sjis_a _ _ _ eq_refl eq_refl eq_refl _ eq_refl (I m)).
    + intros m. apply (sjis_b _ _ _ eq_refl eq_refl eq_refl _ _ eq_refl eq_refl _ (D m) (I m)).
Qed.
