(* load_table_file of generate_big5.py and generate_shiftjis.py. *)
From Coq Require Import List NArith ZArith Bool String Lia.
From Verif Require Import Prelude RustCore FileText ModelGen ModelScripts ModelFiles PySyntax PyEval ProofGen ScriptAst ProofPy Tac.
Import ListNotations.
Local Open Scope string_scope.
Local Open Scope list_scope.

Lemma prefix_hash p : prefix [35%N] p = py_hash p.
Proof. destruct p as [|c p]; [reflexivity|]. cbn [prefix py_hash]. rewrite andb_true_r. apply N.eqb_sym. Qed.
Lemma frozen_one x f fr : String.eqb x f = false -> frozen_in x fr = false -> frozen_in x (f :: fr) = false.
Proof. intros A B. unfold frozen_in in *. cbn [existsb]. rewrite A, B. reflexivity. Qed.

(* reading with another way to cut the lines *)
Lemma load_lines_split parse : (forall l l', py_split l = py_split l' -> parse l = parse l') ->
  forall a b, map py_split a = map py_split b -> load_lines parse a = load_lines parse b.
Proof.
  intros H. induction a as [|x a IH]; intros [|y b] E; try discriminate E; [reflexivity|]. cbn [map] in E.
  assert (E1 : py_split x = py_split y) by congruence. assert (E2 : map py_split a = map py_split b) by congruence.
  cbn [load_lines]. rewrite (H _ _ E1), (IH _ E2). reflexivity.
Qed.
Definition text_of (file : list N) : option (list (list N)) := option_map (fun cs => lines_from [] (py_newlines cs)) (py_decode file).
Lemma read_text file : read_lines file = option_map (map VStr) (text_of file).
Proof. unfold read_lines, text_of. destruct (py_decode file); reflexivity. Qed.
Lemma load_file_text parse : (forall l l', py_split l = py_split l' -> parse l = parse l') -> forall file,
  load_file parse file = match text_of file with Some ls => load_lines parse ls | None => None end.
Proof.
  intros H file. unfold load_file, text_of. destruct (py_decode file); [|reflexivity]. cbn [option_map]. apply load_lines_split; [exact H|].
  symmetry. apply lines_split.
Qed.

Section Load.
  Variable dir : path.
  Variable call : string -> option (list value -> world -> res value).
  Variable fuel : nat.
  Hypothesis no_open : call "open" = None.
  Hypothesis no_len : call "len" = None.
  Hypothesis no_int : call "int" = None.

  Definition after_line (t : option (option (N * N))) (acc : list (N * N)) (w : world) (o : outcome) : Prop :=
    match t with
    | Some t => exists s, o = Next s w /\
        s "table" = Some (VList (map vpair (acc ++ match t with Some e => [e] | None => [] end))) /\ s "len" = None /\ s "int" = None
    | None => o = Failed w
    end.

  Lemma load_line fr l acc s w : frozen_in "table" fr = false ->
    s "table" = Some (VList (map vpair acc)) -> s "len" = None -> s "int" = None ->
    after_line (index_line l) acc w (block dir call fuel load_body fr (upd "line" (VStr l) s) w).
  Proof.
    intros Hf Ht H1 H2. unfold load_body. rewrite block_cons, exec_assign. py.
    rewrite block_cons, exec_if. py. rewrite H1, no_len. py. unfold index_line.
    destruct (py_split l) as [|p0 [|p1 rest]]; cbn [map List.length].
    1, 2: cbn [Z.of_nat Pos.of_succ_nat Pos.succ]; py; rewrite !block_nil; py; rewrite block_nil; eexists; rewrite app_nil_r;
      split; [reflexivity|]; py; auto.
    replace (2 <=? Z.of_nat (S (S (List.length (map VStr rest)))))%Z with true by lia. py. rewrite prefix_hash.
    destruct (py_hash p0); py.
    { rewrite !block_nil; py; rewrite block_nil. eexists. rewrite app_nil_r. split; [reflexivity|]. py. auto. }
    rewrite block_cons, exec_assign. py. rewrite H2, no_int. py. destruct (py_int p0) as [b|]; py; [|reflexivity].
    rewrite block_cons, exec_assign. py. rewrite H2, no_int. py. destruct (py_int16 p1) as [u|]; py; [|reflexivity].
    rewrite block_cons, (exec_aug _ _ _ _ _ _ _ _ _ (VList (map vpair acc))) by exact Ht. py. rewrite Hf. py. rewrite !block_nil. py.
    rewrite block_nil. eexists. split; [reflexivity|]. py. rewrite map_app. auto.
  Qed.

  Lemma load_loop fr ls : frozen_in "table" fr = false -> forall acc s w,
    s "table" = Some (VList (map vpair acc)) -> s "len" = None -> s "int" = None ->
    match load_lines index_line ls with
    | Some t => exists s', for_loop dir call fuel (TName "line") load_body fr (map VStr ls) s w = Next s' w /\
                  s' "table" = Some (VList (map vpair (acc ++ t)))
    | None => for_loop dir call fuel (TName "line") load_body fr (map VStr ls) s w = Failed w
    end.
  Proof.
    intros Hf. induction ls as [|l ls IH]; intros acc s w Ht H1 H2.
    - cbn [load_lines map]. exists s. rewrite app_nil_r. split; [reflexivity|exact Ht].
    - cbn [load_lines map]. rewrite for_cons. py. pose proof (load_line fr l acc s w Hf Ht H1 H2) as L. unfold after_line in L.
      destruct (index_line l) as [t|].
      + destruct L as (s1 & E & L1 & L2 & L3). rewrite E. specialize (IH _ s1 w L1 L2 L3).
        destruct (load_lines index_line ls) as [r|]; [|destruct t; exact IH].
        destruct IH as (s2 & I1 & I2). destruct t as [e|]; exists s2; (split; [exact I1|]); rewrite I2, <- app_assoc; reflexivity.
      + rewrite L. reflexivity.
  Qed.

  (* load_table_file(path) *)
  Lemma load_ok cs p s w : resolve dir cs = Some p -> among p (writes w) = false -> s "path" = Some (VStr cs) ->
    s "open" = None -> s "len" = None -> s "int" = None ->
    block dir call fuel (f_body load) ["path"] s w =
    match disk w p with
    | None => Failed w
    | Some file =>
        let w := World (disk w) (p :: reads w) (writes w) in
        match load_file index_line file with
        | None => Failed w
        | Some lines => Return (VList (map vpair (sort pair_leb lines))) w
        end
    end.
  Proof.
    intros Hp Hw Hs H1 H2 H3. rewrite load_parts, block_app. unfold load_start. rewrite block_cons, exec_assign. py. rewrite H1, Hs. py.
    rewrite no_open. py. unfold open_read. rewrite Hp, Hw. destruct (disk w p) as [file|] eqn:D; py; [|reflexivity].
    rewrite block_cons, exec_assign. py. rewrite block_nil. py. rewrite block_cons. unfold load_for. rewrite exec_for. py.
    replace (frozen_in "in_file" ["path"]) with false by reflexivity. cbn [disk]. rewrite D, read_text.
    rewrite load_file_text by (intros l l' E; unfold index_line; rewrite E; reflexivity).
    destruct (text_of file) as [ls|]; py; [|reflexivity].
    set (s1 := upd "in_file" _ _). set (w1 := World _ _ _).
    pose proof (load_loop ["path"] ls eq_refl [] s1 w1 eq_refl H2 H3) as L. destruct (load_lines index_line ls) as [t|].
    - destruct L as (s2 & E & T). rewrite E. py. unfold load_end.
      rewrite block_cons. rewrite (exec_change0 _ _ _ _ _ _ _ _ _ (VList (map vpair (sort pair_leb t))) T); [|reflexivity|reflexivity|].
      2: { cbn [change String.eqb Ascii.eqb Bool.eqb app]. rewrite sortable_pairs. f_equal. f_equal. apply sort_map. apply vpair_leb. }
      py. rewrite block_cons, exec_return. py. reflexivity.
    - rewrite L. reflexivity.
  Qed.
End Load.
