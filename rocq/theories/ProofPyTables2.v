(* generate_big5_tables and generate_shiftjis_tables, whole. *)
From Coq Require Import List NArith ZArith Bool String Lia.
From Verif Require Import Prelude RustCore FileText ModelGen ModelScripts ModelFiles PySyntax PyEval ProofGen ScriptAst ProofPy ProofPyLoad ProofPyTables Tac.
Import ListNotations.
Local Open Scope string_scope.
Local Open Scope list_scope.

Lemma keeps_none xs s s' y : keeps xs s s' -> existsb (String.eqb y) xs = false -> s y = None -> s' y = None.
Proof. intros K X E. destruct (K y X) as [H|H]; [congruence|]. rewrite E in H. discriminate. Qed.

(* what load_table_file gives *)
Definition loads (dir : path) (g : list value -> world -> res value) : Prop :=
  forall cs p w, resolve dir cs = Some p -> among p (writes w) = false ->
    g [VStr cs] w =
    match disk w p with
    | None => Raise w
    | Some file =>
        match load_file index_line file with
        | None => Raise (World (disk w) (p :: reads w) (writes w))
        | Some lines => Val (VList (map vpair (sort pair_leb lines))) (World (disk w) (p :: reads w) (writes w))
        end
    end.
Definition dedups (dedup : list (N * N) -> list (N * N)) (g : list value -> world -> res value) : Prop :=
  forall t w, g [VList (map vpair t)] w = Val (VList (map vpair (dedup t))) w.
Definition indexes (to_bytes : N -> N * N) (g : list value -> world -> res value) : Prop :=
  forall i w, g [vint i] w = Val (vpair (to_bytes i)) w.
Definition opened (q : path) (w : world) : world := World (write (disk w) q []) (reads w) (q :: writes w).
Definition has_read (p : path) (w : world) : world := World (disk w) (p :: reads w) (writes w).

Lemma filter_true_id {A} (l : list A) : filter (fun _ => true) l = l.
Proof. induction l as [|x l IH]; [reflexivity|]. cbn [filter]. rewrite IH. reflexivity. Qed.

Section Tables.
  Variable dir : path.
  Variable call : string -> option (list value -> world -> res value).
  Variable fuel : nat.
  Hypothesis no_open : call "open" = None.
  Hypothesis no_len : call "len" = None.
  Hypothesis no_enumerate : call "enumerate" = None.
  Variable g_load g_dedup g_index : list value -> world -> res value.
  Variable dedup : list (N * N) -> list (N * N).
  Variable to_bytes : N -> N * N.
  Hypothesis has_load : call "load_table_file" = Some g_load.
  Hypothesis has_dedup : call "deduped_table" = Some g_dedup.
  Hypothesis has_index : call "index_to_bytes" = Some g_index.
  Hypothesis load_spec : loads dir g_load.
  Hypothesis dedup_spec : dedups dedup g_dedup.
  Hypothesis index_spec : indexes to_bytes g_index.

  Definition enc_of (table : list (N * N)) : list (N * (N * N)) := sort entry_leb (map (fun ic => (snd ic, to_bytes (fst ic))) (dedup table)).

  Lemma tables_ok a b p q w : resolve dir a = Some p -> resolve dir b = Some q -> among p (writes w) = false ->
    among q (p :: reads w) = false -> among q (writes w) = false ->
    let s := upd "out_path" (VStr b) (upd "in_path" (VStr a) no_env) in
    let fr := ["in_path"; "out_path"] in
    match disk w p with
    | None => block dir call fuel tables_body fr s w = Failed w
    | Some file =>
        match load_file index_line file with
        | None => block dir call fuel tables_body fr s w = Failed (has_read p w)
        | Some lines =>
            let table := sort pair_leb lines in
            (highest table < fuel)%nat ->
            exists s' w', block dir call fuel tables_body fr s w = Next s' w' /\
              grows q (py_encode (tables_text (dec_fill 0 table) (enc_of table))) (opened q (has_read p w)) w'
        end
    end.
  Proof.
    intros Ha Hb Wp Rq Wq s fr. pose proof (load_spec a p w Ha Wp) as L.
    assert (E : block dir call fuel tables_body fr s w =
      after (g_load [VStr a] w) (fun v w => block dir call fuel (skipn 1 tables_body) fr (upd "table" v s) w)).
    { unfold tables_body, tables_start. cbn [app]. rewrite block_cons, exec_assign. py. rewrite has_load.
      change (s "load_table_file") with (@None value). change (s "in_path") with (Some (VStr a)). py. destruct (g_load [VStr a] w) as [v w'|w'| |]; reflexivity. }
    rewrite E, L. clear E L. destruct (disk w p) as [file|] eqn:D; [|reflexivity]. destruct (load_file index_line file) as [lines|]; [|reflexivity].
    cbn [after]. fold (has_read p w). set (table := sort pair_leb lines). intros Hf.
    unfold tables_body, tables_start. cbn [app skipn].
    rewrite block_cons, exec_assign. py. rewrite block_cons, exec_assign. py. rewrite block_cons.
    set (s1 := upd "i" _ _). rewrite (for_list _ _ _ _ _ _ _ _ _ (VList (map vpair table)) (map vpair table)) by reflexivity.
    destruct (fill_loop dir call fuel (names_in (EName "table") ++ fr) table eq_refl Hf 0 [] s1 (has_read p w) eq_refl eq_refl) as (s2 & E2 & D2).
    pose proof (for_keeps _ _ _ _ _ _ _ _ _ _ _ E2) as K2. rewrite E2. cbn [seq_ app] in D2 |- *.
    assert (T2 : s2 "table" = Some (VList (map vpair table))) by (apply (keeps_get _ _ _ _ _ K2); reflexivity).
    assert (O2 : s2 "out_path" = Some (VStr b)) by (apply (keeps_get _ _ _ _ _ K2); reflexivity).
    assert (N2 : forall y, existsb (String.eqb y) ["index_to_bytes"; "deduped_table"; "open"; "len"; "enumerate"] = true -> s2 y = None).
    { intros y Hy. cbn [existsb] in Hy. repeat (apply orb_prop in Hy; destruct Hy as [Hy|Hy]; [apply String.eqb_eq in Hy; subst y; apply (keeps_none _ _ _ _ K2); reflexivity|]). discriminate. }
    clear E2 K2. unfold tables_encode. cbn [app].
    rewrite block_cons, exec_assign, (comp_ok _ _ _ _ _ _ _ _ (VList (map vpair (dedup table))) (dedup table) vpair (fun _ => true) (fun ic => ventry (snd ic, to_bytes (fst ic)))); cycle 1.
    { py. rewrite (N2 "deduped_table" eq_refl), T2. py. rewrite has_dedup. apply dedup_spec. }
    { reflexivity. }
    { intros [i c]. eexists. split; [reflexivity|]. split; [reflexivity|]. split; [|reflexivity]. py. rewrite (N2 "index_to_bytes" eq_refl). py.
      rewrite has_index. cbn [fst snd]. rewrite index_spec. reflexivity. }
    py. rewrite filter_true_id.
    rewrite block_cons. rewrite (exec_change0 _ _ _ _ _ _ _ _ _ (VList (map ventry (enc_of table))) eq_refl); [|reflexivity|reflexivity|].
    2: { cbn [change String.eqb Ascii.eqb Bool.eqb app]. rewrite <- (map_map (fun ic => (snd ic, to_bytes (fst ic))) ventry), sortable_entries.
         f_equal. f_equal. apply sort_map. apply ventry_leb. }
    py. set (dec := dec_fill 0 table) in *. set (enc := enc_of table).
    rewrite block_cons, exec_assign. py. rewrite (N2 "open" eq_refl), O2. py. rewrite no_open. py. unfold open_write. rewrite Hb.
    cbn [has_read reads writes]. rewrite Rq, Wq. py. fold (has_read p w). change (str_is [119%N] "w") with true. py. set (s3 := upd "out_file" _ _).
    change (World _ _ _) with (opened q (has_read p w)). set (w3 := opened q (has_read p w)).
    assert (F3 : has_file q w3) by (exists []; apply write_same).
    assert (O3 : s3 "out_file" = Some (VFile q MText)) by reflexivity.
    assert (N3 : forall y, existsb (String.eqb y) ["len"; "enumerate"] = true -> s3 y = None).
    { intros y Hy. cbn [existsb] in Hy. repeat (apply orb_prop in Hy; destruct Hy as [Hy|Hy]; [apply String.eqb_eq in Hy; subst y; apply N2; reflexivity|]). discriminate. }
    assert (D3 : s3 "dec_table" = Some (VList (map vopt dec))) by exact D2.
    assert (E3 : s3 "enc_table" = Some (VList (map ventry enc))) by reflexivity.
    clearbody s3 w3. clear s2 D2 T2 O2 N2.
    unfold tables_text.
    rewrite block_cons, (write_text _ _ _ _ q _ (str "// This file is auto-generated.  Please see `encoding_tables/whatwg/`
// from the root directory for the files that generate this.

") _ _ _ O3) by reflexivity. cbn [seq_].
    set (w4 := append q _ w3). assert (G4 : grows q _ w3 w4) by (apply grows_append; exact F3). pose proof (grows_has _ _ _ _ G4) as F4. clearbody w4.
    rewrite block_cons, (write_text _ _ _ _ q _ (str "const DECODE_TABLE: [char; " ++ py_dec (N.of_nat (List.length dec)) ++ str "] = [") _ _ _ O3).
    2: { pose proof (fmt_dec_head (N.of_nat (List.length dec))) as F. unfold vint in F. rewrite nat_N_Z in F. cbn [eval]. rewrite (N3 "len" eq_refl), D3. py. rewrite no_len. py.
         rewrite map_length. exact (f_equal (fun o => match o with Some t => Val (VStr t) w4 | None => Wrong end) F). }
    2: { rewrite !encodable_app, dec_small. reflexivity. }
    cbn [seq_]. set (w5 := append q _ w4). assert (G5 : grows q _ w4 w5) by (apply grows_append; exact F4). pose proof (grows_has _ _ _ _ G5) as F5. clearbody w5.
    rewrite block_cons, (for_list _ _ _ _ _ _ _ _ _ (VIter (enumerate 0 (map vopt dec))) (enumerate 0 (map vopt dec))); [| |reflexivity].
    2: { py. rewrite (N3 "enumerate" eq_refl), D3. py. rewrite no_enumerate. reflexivity. }
    destruct (dec_loop dir call fuel (names_in (ECall "enumerate" [EName "dec_table"] []) ++ fr) q dec 0 s3 w5 O3 F5) as (s6 & w6 & E6 & G6).
    change (Z.of_N 0) with 0%Z in E6. rewrite E6. cbn [seq_]. pose proof (for_keeps _ _ _ _ _ _ _ _ _ _ _ E6) as K6. pose proof (grows_has _ _ _ _ G6) as F6.
    assert (O6 : s6 "out_file" = Some (VFile q MText)) by (apply (keeps_get _ _ _ _ _ K6); [exact O3|reflexivity|reflexivity]).
    assert (T6 : s6 "enc_table" = Some (VList (map ventry enc))) by (apply (keeps_get _ _ _ _ _ K6); [exact E3|reflexivity|reflexivity]).
    assert (L6 : s6 "len" = None) by (apply (keeps_none _ _ _ _ K6); [reflexivity|apply N3; reflexivity]).
    assert (M6 : s6 "enumerate" = None) by (apply (keeps_none _ _ _ _ K6); [reflexivity|apply N3; reflexivity]).
    clear E6 K6. unfold tables_middle. cbn [app].
    rewrite block_cons, (write_text _ _ _ _ q _ (str "
];

") _ _ _ O6) by reflexivity. cbn [seq_].
    set (w7 := append q _ w6). assert (G7 : grows q _ w6 w7) by (apply grows_append; exact F6). pose proof (grows_has _ _ _ _ G7) as F7. clearbody w7.
    rewrite block_cons, (write_text _ _ _ _ q _ (str "const ENCODE_TABLE: [(char, [u8; 2]); " ++ py_dec (N.of_nat (List.length enc)) ++ str "] = [") _ _ _ O6).
    2: { pose proof (fmt_enc_head (N.of_nat (List.length enc))) as F. unfold vint in F. rewrite nat_N_Z in F. cbn [eval]. rewrite L6, T6. py. rewrite no_len. py.
         rewrite map_length. exact (f_equal (fun o => match o with Some t => Val (VStr t) w7 | None => Wrong end) F). }
    2: { rewrite !encodable_app, dec_small. reflexivity. }
    cbn [seq_]. set (w8 := append q _ w7). assert (G8 : grows q _ w7 w8) by (apply grows_append; exact F7). pose proof (grows_has _ _ _ _ G8) as F8. clearbody w8.
    rewrite block_cons, (for_list _ _ _ _ _ _ _ _ _ (VIter (enumerate 0 (map ventry enc))) (enumerate 0 (map ventry enc))); [| |reflexivity].
    2: { py. rewrite M6, T6. py. rewrite no_enumerate. reflexivity. }
    destruct (enc_loop dir call fuel (names_in (ECall "enumerate" [EName "enc_table"] []) ++ fr) q enc 0 s6 w8 O6 F8) as (s9 & w9 & E9 & G9).
    change (Z.of_N 0) with 0%Z in E9. rewrite E9. cbn [seq_]. pose proof (for_keeps _ _ _ _ _ _ _ _ _ _ _ E9) as K9. pose proof (grows_has _ _ _ _ G9) as F9.
    assert (O9 : s9 "out_file" = Some (VFile q MText)) by (apply (keeps_get _ _ _ _ _ K9); [exact O6|reflexivity|reflexivity]).
    unfold tables_end. rewrite block_cons, (write_text _ _ _ _ q _ (str "
];
") _ _ _ O9) by reflexivity. cbn [seq_]. rewrite block_nil.
    set (w10 := append q _ w9). assert (G10 : grows q _ w9 w10) by (apply grows_append; exact F9).
    exists s9, w10. split; [reflexivity|].
    pose proof (grows_app _ _ _ _ _ _ G9 G10) as X9. pose proof (grows_app _ _ _ _ _ _ G8 X9) as X8. pose proof (grows_app _ _ _ _ _ _ G7 X8) as X7.
    pose proof (grows_app _ _ _ _ _ _ G6 X7) as X6. pose proof (grows_app _ _ _ _ _ _ G5 X6) as X5. pose proof (grows_app _ _ _ _ _ _ G4 X5) as X4.
    repeat rewrite py_encode_app in X4. repeat rewrite py_encode_app. repeat rewrite <- app_assoc in X4. exact X4.
  Qed.
End Tables.
