(* generate_ascii_ext_encoding. *)
From Coq Require Import List NArith ZArith Bool String Lia.
From Verif Require Import Prelude RustCore FileText ModelGen ModelScripts ModelFiles PySyntax PyEval ProofGen ScriptAst ProofPy ProofPyLoad
  ProofPyTables ProofPyTables2 Tac.
Import ListNotations.
Local Open Scope string_scope.
Local Open Scope list_scope.

(** ** The parts of the function *)

Definition a_start : list stmt := Eval vm_compute in between a_generate 0 3.
Definition a_load_body : list stmt := Eval vm_compute in body_of (stmt_of a_generate 3).
Definition a_check_body : list stmt := Eval vm_compute in body_of (stmt_of a_generate 5).
Definition a_slice : list stmt := Eval vm_compute in between a_generate 6 9.
Definition a_item_body : list stmt := Eval vm_compute in body_of (stmt_of a_generate 9).
Definition a_more : list stmt := Eval vm_compute in body_of (stmt_of a_generate 10).
Definition a_seen : list stmt := Eval vm_compute in between a_generate 11 13.
Definition a_seen_body : list stmt := Eval vm_compute in body_of (stmt_of a_generate 13).
Definition a_write : list stmt := Eval vm_compute in between a_generate 14 17.
Definition a_middle : list stmt := Eval vm_compute in between a_generate 18 20.
Definition a_byte_body : list stmt := Eval vm_compute in body_of (stmt_of a_generate 20).
Definition a_end : list stmt := Eval vm_compute in between a_generate 21 22.
Definition a_sort (x : string) : stmt := SExpr (EMethod (EName x) "sort" []).
Lemma a_parts : f_body a_generate =
  a_start ++ SFor (TName "line") (EName "in_file") a_load_body :: a_sort "table" ::
  SFor (TName "i") (ECall "range" [EInt 0; EInt 128] []) a_check_body ::
  a_slice ++ SFor (TName "item") (EName "table") a_item_body ::
  SWhile (ECmp Lt (ECall "len" [EName "dec_table"] []) (EInt 128)) a_more ::
  a_seen ++ SFor (TName "item") (EName "table") a_seen_body ::
  a_write ++ SFor (TTuple ["i"; "c"]) (ECall "enumerate" [EName "dec_table"] []) dec_body ::
  a_middle ++ SFor (TTuple ["i"; "pair"]) (ECall "enumerate" [EName "enc_table"] []) a_byte_body :: a_end.
Proof. reflexivity. Qed.

Definition a_test : expr := Eval vm_compute in match nth 0 a_check_body SContinue with SIf c _ _ => c | _ => ENone end.
Lemma fmt_message cs i : exists t, forall w, match format 46 (str "Not an ascii extension: file {}, codepoint {}") [VStr cs; vint i] with Some t => Val (VStr t) w | None => Wrong end = Val (VStr t) w.
Proof.
  eexists. intros w. cbn -[py_dec app]. replace (Z.of_N i <? 0)%Z with false by lia. cbn -[py_dec app]. reflexivity.
Qed.
Lemma same_inter zs s c : same_set zs s -> same_set (filter (fun z => has z [Z.of_N c]) zs) (intersect1 s c).
Proof.
  intros H d. unfold intersect1. rewrite <- (H c).
  assert (E : has (Z.of_N d) (filter (fun z => has z [Z.of_N c]) zs) = (d =? c)%N && has (Z.of_N c) zs).
  { clear H. induction zs as [|z zs IH]; [cbn; rewrite andb_false_r; reflexivity|]. cbn [filter]. unfold has in IH |- *. cbn [existsb] in IH |- *. rewrite orb_false_r in *.
    destruct (z =? Z.of_N c)%Z eqn:Z; cbn [existsb]; rewrite IH; match goal with |- context [existsb ?f zs] => destruct (existsb f zs) end; lia. }
  rewrite E. destruct (has (Z.of_N c) zs); [rewrite mem_add, mem_empty, andb_true_r, orb_false_r; reflexivity|rewrite mem_empty, andb_false_r; reflexivity].
Qed.

Section Ascii.
  Variable dir : path.
  Variable call : string -> option (list value -> world -> res value).
  Variable fuel : nat.
  Hypothesis no_open : call "open" = None.
  Hypothesis no_len : call "len" = None.
  Hypothesis no_int : call "int" = None.
  Hypothesis no_range : call "range" = None.
  Hypothesis no_set : call "set" = None.
  Hypothesis no_enumerate : call "enumerate" = None.
  Hypothesis no_exception : call "Exception" = None.

  (** ** Loading *)

  Definition after_mapping (t : option (option (N * N))) (acc : list (N * N)) (w : world) (o : outcome) : Prop :=
    match t with
    | Some t => exists s, (o = Next s w \/ o = Again s w) /\
        s "table" = Some (VList (map vpair (acc ++ match t with Some e => [e] | None => [] end))) /\ s "len" = None /\ s "int" = None
    | None => o = Failed w
    end.
  Lemma a_load_line fr l acc s w : frozen_in "table" fr = false ->
    s "table" = Some (VList (map vpair acc)) -> s "len" = None -> s "int" = None ->
    after_mapping (mapping_line l) acc w (block dir call fuel a_load_body fr (upd "line" (VStr l) s) w).
  Proof.
    intros Hf Ht H1 H2. unfold a_load_body. rewrite block_cons, exec_assign. py.
    rewrite block_cons, exec_if. py. rewrite H1, no_len. py. unfold mapping_line.
    destruct (py_split l) as [|p0 [|p1 rest]]; cbn [map List.length].
    1, 2: cbn [Z.of_nat Pos.of_succ_nat Pos.succ]; py; rewrite !block_nil; py; rewrite block_nil; eexists; rewrite app_nil_r;
      split; [left; reflexivity|]; py; auto.
    replace (2 <=? Z.of_nat (S (S (List.length (map VStr rest)))))%Z with true by lia. py. rewrite prefix_hash.
    destruct (py_hash p0); py.
    { rewrite !block_nil; py; rewrite block_nil. eexists. rewrite app_nil_r. split; [left; reflexivity|]. py. auto. }
    rewrite block_cons, exec_assign. py. rewrite H2, no_int. py. destruct (py_int16 p0) as [b|]; py; [|reflexivity].
    rewrite block_cons, exec_if. py. rewrite prefix_hash. destruct (py_hash p1); py.
    { rewrite block_cons, exec_continue. py. eexists. rewrite app_nil_r. split; [right; reflexivity|]. py. auto. }
    rewrite block_nil. py. rewrite block_cons, exec_assign. py. rewrite H2, no_int. py. destruct (py_int16 p1) as [u|]; py; [|reflexivity].
    rewrite block_cons, (exec_aug _ _ _ _ _ _ _ _ _ (VList (map vpair acc))) by exact Ht. py. rewrite Hf. py. rewrite !block_nil. py.
    rewrite block_nil. eexists. split; [left; reflexivity|]. py. rewrite map_app. auto.
  Qed.
  Lemma a_load_loop fr ls : frozen_in "table" fr = false -> forall acc s w,
    s "table" = Some (VList (map vpair acc)) -> s "len" = None -> s "int" = None ->
    match load_lines mapping_line ls with
    | Some t => exists s', for_loop dir call fuel (TName "line") a_load_body fr (map VStr ls) s w = Next s' w /\
                  s' "table" = Some (VList (map vpair (acc ++ t)))
    | None => for_loop dir call fuel (TName "line") a_load_body fr (map VStr ls) s w = Failed w
    end.
  Proof.
    intros Hf. induction ls as [|l ls IH]; intros acc s w Ht H1 H2.
    - cbn [load_lines map]. exists s. rewrite app_nil_r. split; [reflexivity|exact Ht].
    - cbn [load_lines map]. rewrite for_cons. py. pose proof (a_load_line fr l acc s w Hf Ht H1 H2) as L. unfold after_mapping in L.
      destruct (mapping_line l) as [t|].
      + destruct L as (s1 & E & L1 & L2 & L3). specialize (IH _ s1 w L1 L2 L3).
        assert (X : forall T, T = match block dir call fuel a_load_body fr (upd "line" (VStr l) s) w with Next s w | Again s w => for_loop dir call fuel (TName "line") a_load_body fr (map VStr ls) s w | o => o end ->
          T = for_loop dir call fuel (TName "line") a_load_body fr (map VStr ls) s1 w) by (intros T ->; destruct E as [-> | ->]; reflexivity).
        rewrite <- (X _ eq_refl) in IH. clear X E.
        destruct (load_lines mapping_line ls) as [r|]; [|destruct t; exact IH].
        destruct IH as (s2 & I1 & I2). destruct t as [e|]; exists s2; (split; [exact I1|]); rewrite I2, <- app_assoc; reflexivity.
      + rewrite L. reflexivity.
  Qed.

  (** ** The check *)

  Lemma check_skipn m : forall k t r, check_ascii m k t = Some r -> r = skipn m t.
  Proof.
    induction m as [|m IH]; intros k t r; cbn [check_ascii]; [intros H; injection H as <-; reflexivity|].
    destruct t as [|[b c] t]; [discriminate|]. destruct ((b =? k) && (c =? k))%N; [|discriminate]. apply IH.
  Qed.
  Lemma skipn_nth {A} (l : list A) : forall k, skipn k l = match nth_error l k with Some x => x :: skipn (S k) l | None => [] end.
  Proof. induction l as [|x l IH]; intros [|k]; try reflexivity. cbn [skipn nth_error]. rewrite IH. reflexivity. Qed.

  Lemma a_check_loop fr l path m : forall k s w, s "table" = Some (VList (map vpair l)) -> s "in_path" = Some (VStr path) -> s "Exception" = None ->
    match check_ascii m (N.of_nat k) (skipn k l) with
    | Some _ => exists s', for_loop dir call fuel (TName "i") a_check_body fr (map (fun j => vint (N.of_nat j)) (seq k m)) s w = Next s' w
    | None => for_loop dir call fuel (TName "i") a_check_body fr (map (fun j => vint (N.of_nat j)) (seq k m)) s w = Failed w
    end.
  Proof.
    induction m as [|m IH]; intros k s w T P X; [exists s; reflexivity|]. cbn [seq map check_ascii]. rewrite for_cons. py.
    set (s1 := upd "i" _ s). rewrite skipn_nth.
    assert (G : eval dir call a_test s1 w = match nth_error l k with Some (b, c) => Val (VBool (negb ((b =? N.of_nat k) && (c =? N.of_nat k))%N)) w | None => Raise w end).
    { unfold a_test. cbn [eval]. change (s1 "table") with (s "table"). rewrite T. change (s1 "i") with (Some (vint (N.of_nat k))). unfold vint. cbn [bind index].
      replace (Z.of_N (N.of_nat k) <? 0)%Z with false by lia. replace (Z.to_nat (Z.of_N (N.of_nat k))) with k by lia. rewrite nth_error_map.
      destruct (nth_error l k) as [[b c]|]; [|reflexivity]. unfold vpair, vint. py.
      replace (Z.of_N b =? Z.of_N (N.of_nat k))%Z with (b =? N.of_nat k)%N by lia. replace (Z.of_N c =? Z.of_N (N.of_nat k))%Z with (c =? N.of_nat k)%N by lia.
      destruct (b =? N.of_nat k)%N; py; reflexivity. }
    assert (B : block dir call fuel a_check_body fr s1 w =
      match nth_error l k with Some (b, c) => if ((b =? N.of_nat k) && (c =? N.of_nat k))%N then Next s1 w else Failed w | None => Failed w end).
    { unfold a_check_body. rewrite block_cons, exec_if. fold a_test. rewrite G. destruct (nth_error l k) as [[b c]|]; [|reflexivity].
      destruct ((b =? N.of_nat k) && (c =? N.of_nat k))%N; cbn [negb after].
      - rewrite block_nil. cbn [seq_]. apply block_nil.
      - rewrite block_cons, exec_raise. cbn [eval]. change (s1 "Exception") with (s "Exception"). rewrite X. change (s1 "in_path") with (s "in_path"). rewrite P. change (s1 "i") with (Some (vint (N.of_nat k))).
        cbn [bind]. destruct (fmt_message path (N.of_nat k)) as (t & M). change (method (VStr _) "format" [VStr path; vint (N.of_nat k)] w) with
          (match format 46 (str "Not an ascii extension: file {}, codepoint {}") [VStr path; vint (N.of_nat k)] with Some t => Val (VStr t) w | None => Wrong end).
        rewrite M. cbn [bind]. rewrite no_exception. reflexivity. }
    rewrite B. destruct (nth_error l k) as [[b c]|]; [|reflexivity]. destruct ((b =? N.of_nat k) && (c =? N.of_nat k))%N; [|reflexivity].
    replace (N.of_nat k + 1)%N with (N.of_nat (S k)) by lia. apply IH; assumption.
  Qed.

  (** ** The decode table *)

  Lemma a_fill_loop fr table : frozen_in "dec_table" fr = false -> (highest table < fuel)%nat -> forall i acc s w,
    s "i" = Some (vint i) -> s "dec_table" = Some (VList (map vopt acc)) ->
    exists s', for_loop dir call fuel (TName "item") a_item_body fr (map vpair table) s w = Next s' w /\
      s' "dec_table" = Some (VList (map vopt (acc ++ dec_fill i (map (fun bc => (fst bc - 128, snd bc))%N table)))).
  Proof.
    intros F. induction table as [|[x c] table IH]; intros H i acc s w Hi Hd.
    - exists s. cbn [dec_fill map]. rewrite app_nil_r. split; [reflexivity|exact Hd].
    - change (highest ((x, c) :: table)) with (Nat.max (N.to_nat x) (highest table)) in H.
      cbn [map]. rewrite for_cons. py. unfold a_item_body at 1. rewrite block_cons, exec_while.
      set (s0 := upd "item" _ _).
      destruct (fill_while dir call fuel (ECmp Lt (EName "i") (EBin Sub (EIndex (EName "item") (EInt 0)) (EInt 128))) fr (Z.of_N x - 128) s0 w F) with (gap := Z.to_nat (Z.of_N x - 128 - Z.of_N i)) (k := fuel) (i := Z.of_N i) (acc := acc) (s := s0)
        as (s1 & E1 & K1 & I1 & D1); try reflexivity; try lia; try assumption.
      { intros s' j K J. py. rewrite J. py. rewrite (keeps_get _ _ _ "item" (vpair (x, c)) K) by reflexivity. reflexivity. }
      { apply keeps_refl. }
      unfold fill_step in E1. rewrite E1. cbn [seq_].
      rewrite block_cons, (exec_aug _ _ _ _ _ _ _ _ _ _ D1). py.
      rewrite (keeps_get _ _ _ "item" (vpair (x, c)) K1) by reflexivity. unfold vpair. py. rewrite F. py.
      rewrite block_cons, (exec_aug _ _ _ _ _ _ _ _ _ (VInt (Z.max (Z.of_N i) (Z.of_N x - 128)))) by exact I1. py. rewrite block_nil.
      match goal with |- context [for_loop _ _ _ _ _ _ _ ?s2 _] => destruct (IH ltac:(lia) (N.max i (x - 128) + 1)%N (acc ++ repeat None (N.to_nat (x - 128 - i)) ++ [Some c]) s2 w) as (s' & E & D') end.
      + py. unfold vint. f_equal. f_equal. lia.
      + py. rewrite app_assoc, (map_app _ (acc ++ _)). cbn [map vopt vint]. replace (N.to_nat (x - 128 - i)) with (Z.to_nat (Z.of_N x - 128 - Z.of_N i)) by lia. reflexivity.
      + exists s'. split; [exact E|]. rewrite D'. cbn [dec_fill fst snd]. rewrite <- !app_assoc. reflexivity.
  Qed.

  Lemma a_more_loop fr : frozen_in "dec_table" fr = false -> forall gap k acc s w, gap = 128 - List.length acc -> (gap < k)%nat ->
    s "dec_table" = Some (VList (map vopt acc)) -> s "len" = None ->
    exists s', while_loop dir call fuel (ECmp Lt (ECall "len" [EName "dec_table"] []) (EInt 128)) a_more fr k s w = Next s' w /\ keeps ["dec_table"] s s' /\
      s' "dec_table" = Some (VList (map vopt (acc ++ repeat None gap))).
  Proof.
    intros F. induction gap as [|gap IH]; intros [|k] acc s w G K Hd Hl; try (exfalso; lia); rewrite while_S; cbn [eval]; rewrite Hl, Hd; py; rewrite no_len; py; rewrite map_length.
    - replace (Z.of_nat (List.length acc) <? 128)%Z with false by lia. exists s. cbn [repeat]. rewrite app_nil_r. split; [reflexivity|]. split; [apply keeps_refl|exact Hd].
    - replace (Z.of_nat (List.length acc) <? 128)%Z with true by lia. unfold a_more at 1.
      rewrite block_cons, (exec_aug _ _ _ _ _ _ _ _ _ (VList (map vopt acc))) by exact Hd. py. rewrite F. py. rewrite block_nil.
      match goal with |- context [while_loop _ _ _ _ _ _ _ ?s1 _] => destruct (IH k (acc ++ [None]) s1 w) as (s' & E & K' & D') end.
      + rewrite app_length. cbn [List.length]. lia.
      + lia.
      + py. rewrite map_app. reflexivity.
      + py. exact Hl.
      + exists s'. split; [exact E|]. split; [|rewrite D', <- app_assoc; reflexivity]. eapply keeps_trans; [|exact K']. apply keeps_upd.
  Qed.

  (** ** The encode table *)

  Lemma a_seen_loop fr table : frozen_in "seen" fr = false -> frozen_in "enc_table" fr = false -> forall zs seen acc s w,
    same_set zs seen -> s "seen" = Some (VSet zs) -> s "enc_table" = Some (VList (map vpair acc)) ->
    exists s', for_loop dir call fuel (TName "item") a_seen_body fr (map vpair table) s w = Next s' w /\
      s' "enc_table" = Some (VList (map vpair (acc ++ single_byte_enc seen table))).
  Proof.
    intros F F'. induction table as [|[b c] table IH]; intros zs seen acc s w S Hs He.
    - exists s. cbn [single_byte_enc map]. rewrite app_nil_r. split; [reflexivity|exact He].
    - cbn [map]. rewrite for_cons. py. unfold a_seen_body at 1. rewrite block_cons, exec_if. set (s0 := upd "item" _ _).
      replace (eval dir call (ENot (ECmp In (EIndex (EName "item") (EInt 1)) (EName "seen"))) s0 w) with (Val (VBool (negb (mem c seen))) w).
      2: { rewrite <- (S c). cbn [eval]. change (s0 "item") with (Some (vpair (b, c))). change (s0 "seen") with (s "seen"). rewrite Hs. reflexivity. }
      cbn [after single_byte_enc]. destruct (mem c seen); cbn [negb].
      + rewrite block_nil. cbn [seq_]. rewrite block_nil. apply (IH zs); assumption.
      + rewrite block_cons, (exec_aug _ _ _ _ _ _ _ _ _ (VSet zs)) by exact Hs. cbn [eval]. change (s0 "item") with (Some (vpair (b, c))). unfold vpair. py. rewrite F. py.
        rewrite block_cons, (exec_aug _ _ _ _ _ _ _ _ _ (VList (map vpair acc))) by exact He. cbn [eval upd]. py. change (s0 "item") with (Some (vpair (b, c))). unfold vpair at 1 2. py. rewrite F'. py.
        rewrite block_nil. cbn [seq_]. rewrite block_nil.
        match goal with |- context [for_loop _ _ _ _ _ _ _ ?s1 _] => destruct (IH (filter (fun z => has z [Z.of_N c]) zs) (intersect1 seen c) (acc ++ [(c, b)]) s1 w) as (s' & E & D') end.
        * apply same_inter, S.
        * reflexivity.
        * py. rewrite map_app. reflexivity.
        * exists s'. split; [exact E|]. rewrite D', <- app_assoc. reflexivity.
  Qed.

  Lemma a_byte_loop fr p items : forall i s w, s "out_file" = Some (VFile p MText) -> has_file p w ->
    exists s' w', for_loop dir call fuel (TTuple ["i"; "pair"]) a_byte_body fr (enumerate (Z.of_N i) (map vpair items)) s w = Next s' w' /\
      grows p (py_encode (write_items 4 i encode_byte_item items)) w w'.
  Proof.
    induction items as [|[a b] items IH]; intros i s w Ho Hw.
    - exists s, w. split; [reflexivity|]. apply grows_nil. exact Hw.
    - cbn [map enumerate write_items]. rewrite for_cons. py_step. set (s1 := upd "pair" _ _). assert (Ho1 : s1 "out_file" = Some (VFile p MText)) by exact Ho.
      change a_byte_body with (new_line 4 :: tl a_byte_body) at 1. rewrite block_cons.
      destruct (new_line_ok dir call fuel 4 i p fr s1 w eq_refl eq_refl Ho Hw) as (w1 & E1 & G1). rewrite E1. cbn [seq_]. unfold a_byte_body at 1. cbn [tl].
      rewrite block_cons, (write_text _ _ _ _ p _ (encode_byte_item (a, b)) _ _ _ Ho1).
      + py. rewrite block_nil. replace (Z.of_N i + 1)%Z with (Z.of_N (i + 1)) by lia.
        pose proof (grows_append p (py_encode (encode_byte_item (a, b))) w1 (grows_has _ _ _ _ G1)) as G2.
        destruct (IH (i + 1)%N s1 _ Ho (grows_has _ _ _ _ G2)) as (s3 & w3 & E3 & G3). exists s3, w3. split; [exact E3|].
        rewrite !py_encode_app. eapply grows_app; [exact G1|]. eapply grows_app; eassumption.
      + exact (f_equal (fun o => match o with Some t => Val (VStr t) w1 | None => Wrong end) (fmt_byte a b)).
      + unfold encode_byte_item. cbn [fst snd]. rewrite !encodable_app, !hex_small. reflexivity.
  Qed.

  (** ** The whole function *)

  Lemma highest_skipn n : forall l, highest (skipn n l) <= highest l.
  Proof. induction n as [|n IH]; intros [|e l]; try reflexivity. cbn [skipn]. specialize (IH l). change (highest (e :: l)) with (Nat.max (N.to_nat (fst e)) (highest l)). lia. Qed.
  Lemma range_0 : range 0 128 = map (fun j => vint (N.of_nat j)) (seq 0 128).
  Proof. reflexivity. Qed.

  Lemma a_ok a b p q w : resolve dir a = Some p -> resolve dir b = Some q -> among p (writes w) = false ->
    among q (p :: reads w) = false -> among q (writes w) = false ->
    let s := upd "out_path" (VStr b) (upd "in_path" (VStr a) no_env) in
    let fr := ["in_path"; "out_path"] in
    match disk w p with
    | None => block dir call fuel (f_body a_generate) fr s w = Failed w
    | Some file =>
        let w0 := opened q (has_read p w) in
        (forall lines, load_file mapping_line file = Some lines -> Nat.max 128 (highest (sort pair_leb lines)) < fuel) ->
        match ascii_ext_script file with
        | None => block dir call fuel (f_body a_generate) fr s w = Failed w0
        | Some text => exists s' w', block dir call fuel (f_body a_generate) fr s w = Next s' w' /\ grows q text w0 w'
        end
    end.
  Proof.
    intros Ha Hb Wp Rq Wq s fr. rewrite a_parts. unfold a_start. cbn [app].
    assert (Q : p <> q).
    { intros <-. unfold among in Rq. cbn [existsb] in Rq. unfold path_eqb in Rq. destruct (list_eq_dec string_dec p p); [discriminate|congruence]. }
    rewrite block_cons, exec_assign. py. change (s "open") with (@None value). change (s "in_path") with (Some (VStr a)). py. rewrite no_open. py. unfold open_read. rewrite Ha, Wp.
    destruct (disk w p) as [file|] eqn:D; [|reflexivity]. py. fold (has_read p w). intros Hf. set (w0 := opened q (has_read p w)).
    rewrite block_cons, exec_assign. py. change (s "open") with (@None value). change (s "out_path") with (Some (VStr b)). py. rewrite no_open. py. unfold open_write. rewrite Hb.
    cbn [has_read reads writes]. rewrite Rq, Wq. py. change (str_is [119%N] "w") with true. py. fold (has_read p w). change (World _ _ _) with w0.
    rewrite block_cons, exec_assign. py. set (s1 := upd "table" _ _). rewrite block_cons, exec_for. py. change (s1 "in_file") with (Some (VFile p MRead)). py.
    replace (frozen_in "in_file" fr) with false by reflexivity.
    replace (disk w0 p) with (Some file) by (symmetry; cbn [w0 opened disk]; rewrite write_other by congruence; exact D). rewrite read_text.
    unfold ascii_ext_script. rewrite load_file_text in Hf |- * by (intros l l' E; unfold mapping_line; rewrite E; reflexivity).
    destruct (text_of file) as [ls|]; py; [|reflexivity]. set (s2 := upd "in_file" _ _).
    pose proof (a_load_loop fr ls eq_refl [] s2 w0 eq_refl eq_refl eq_refl) as L. destruct (load_lines mapping_line ls) as [t|]; [|rewrite L; reflexivity].
    specialize (Hf t eq_refl). destruct L as (s3 & E3 & T3). cbn [app] in T3. pose proof (for_keeps _ _ _ _ _ _ _ _ _ _ _ E3) as K3. rewrite E3. cbn [seq_].
    assert (O3 : s3 "out_file" = Some (VFile q MText)) by (apply (keeps_get _ _ _ _ _ K3); reflexivity).
    assert (P3 : s3 "in_path" = Some (VStr a)) by (apply (keeps_get _ _ _ _ _ K3); reflexivity).
    assert (N3 : forall y, existsb (String.eqb y) ["range"; "len"; "set"; "enumerate"; "Exception"] = true -> s3 y = None).
    { intros y Hy. cbn [existsb] in Hy. repeat (apply orb_prop in Hy; destruct Hy as [Hy|Hy]; [apply String.eqb_eq in Hy; subst y; apply (keeps_none _ _ _ _ K3); reflexivity|]). discriminate. }
    clear E3 K3. unfold a_sort. rewrite block_cons, (exec_change0 _ _ _ _ _ _ _ _ _ (VList (map vpair (sort pair_leb t))) T3); [|reflexivity|reflexivity|].
    2: { cbn [change String.eqb Ascii.eqb Bool.eqb app]. rewrite sortable_pairs. f_equal. f_equal. apply sort_map. apply vpair_leb. }
    cbn [seq_]. set (lines := sort pair_leb t) in *. set (s4 := upd "table" _ s3).
    rewrite block_cons, (for_list _ _ _ _ _ _ _ _ _ (VIter (range 0 128)) (range 0 128)); [| |reflexivity].
    2: { cbn [eval]. change (s4 "range") with (s3 "range"). rewrite (N3 "range" eq_refl). py. rewrite no_range. reflexivity. }
    rewrite range_0. pose proof (a_check_loop (names_in (ECall "range" [EInt 0; EInt 128] []) ++ fr) lines a 128 0 s4 w0 eq_refl P3 (N3 "Exception" eq_refl)) as C.
    change (N.of_nat 0) with 0%N in C. cbn [skipn] in C. pose proof (check_skipn 128 0 lines) as R. destruct (check_ascii 128 0 lines) as [table|]; [|rewrite C; reflexivity].
    specialize (R table eq_refl). destruct C as (s5 & E5). pose proof (for_keeps _ _ _ _ _ _ _ _ _ _ _ E5) as K5. rewrite E5. cbn [seq_].
    assert (T5 : s5 "table" = Some (VList (map vpair lines))) by (apply (keeps_get _ _ _ _ _ K5); reflexivity).
    assert (O5 : s5 "out_file" = Some (VFile q MText)) by (apply (keeps_get _ _ _ _ _ K5); [exact O3|reflexivity|reflexivity]).
    assert (N5 : forall y, existsb (String.eqb y) ["len"; "set"; "enumerate"] = true -> s5 y = None).
    { intros y Hy. cbn [existsb] in Hy. repeat (apply orb_prop in Hy; destruct Hy as [Hy|Hy]; [apply String.eqb_eq in Hy; subst y; apply (keeps_none _ _ _ _ K5); [reflexivity|apply N3; reflexivity]|]). discriminate. }
    clear E5 K5 O3 P3 N3 T3. unfold a_slice. cbn [app]. rewrite block_cons, exec_assign. cbn [eval]. rewrite T5. cbn [bind slice_from]. change (Z.of_N 128 <? 0)%Z with false. change (Z.to_nat (Z.of_N 128)) with 128.
    rewrite skipn_map, <- R. py. rewrite block_cons, exec_assign. py. rewrite block_cons, exec_assign. py. set (s6 := upd "i" _ _).
    rewrite block_cons, (for_list _ _ _ _ _ _ _ _ _ (VList (map vpair table)) (map vpair table)) by reflexivity.
    assert (H6 : highest table < fuel) by (pose proof (highest_skipn 128 lines) as X; rewrite <- R in X; lia).
    destruct (a_fill_loop (names_in (EName "table") ++ fr) table eq_refl H6 0 [] s6 w0 eq_refl eq_refl) as (s7 & E7 & D7). cbn [app] in D7.
    pose proof (for_keeps _ _ _ _ _ _ _ _ _ _ _ E7) as K7. rewrite E7. cbn [seq_]. set (dec0 := dec_fill 0 _) in *.
    assert (T7 : s7 "table" = Some (VList (map vpair table))) by (apply (keeps_get _ _ _ _ _ K7); reflexivity).
    assert (O7 : s7 "out_file" = Some (VFile q MText)) by (apply (keeps_get _ _ _ _ _ K7); [exact O5|reflexivity|reflexivity]).
    assert (N7 : forall y, existsb (String.eqb y) ["len"; "set"; "enumerate"] = true -> s7 y = None).
    { intros y Hy. cbn [existsb] in Hy. repeat (apply orb_prop in Hy; destruct Hy as [Hy|Hy]; [apply String.eqb_eq in Hy; subst y; apply (keeps_none _ _ _ _ K7); [reflexivity|apply N5; reflexivity]|]). discriminate. }
    clear E7 K7. rewrite block_cons, exec_while.
    destruct (a_more_loop fr eq_refl (128 - List.length dec0) fuel dec0 s7 w0 eq_refl ltac:(lia) D7 (N7 "len" eq_refl)) as (s8 & E8 & K8 & D8). rewrite E8. cbn [seq_]. set (dec := dec0 ++ _) in *.
    assert (T8 : s8 "table" = Some (VList (map vpair table))) by (apply (keeps_get _ _ _ _ _ K8); [exact T7|reflexivity|reflexivity]).
    assert (O8 : s8 "out_file" = Some (VFile q MText)) by (apply (keeps_get _ _ _ _ _ K8); [exact O7|reflexivity|reflexivity]).
    assert (N8 : forall y, existsb (String.eqb y) ["len"; "set"; "enumerate"] = true -> s8 y = None).
    { intros y Hy. cbn [existsb] in Hy. repeat (apply orb_prop in Hy; destruct Hy as [Hy|Hy]; [apply String.eqb_eq in Hy; subst y; apply (keeps_none _ _ _ _ K8); [reflexivity|apply N7; reflexivity]|]). discriminate. }
    clear E8 K8 T7 O7 N7 D7. unfold a_seen. cbn [app]. rewrite block_cons, exec_assign. py. rewrite block_cons, exec_assign. py. rewrite (N8 "set" eq_refl). py. rewrite no_set. py.
    set (s9 := upd "seen" _ _). rewrite block_cons, (for_list _ _ _ _ _ _ _ _ _ (VList (map vpair table)) (map vpair table)); [|exact (f_equal (fun o => match o with Some v => Val v w0 | None => Wrong end) T8)|reflexivity].
    destruct (a_seen_loop (names_in (EName "table") ++ fr) table eq_refl eq_refl [] empty [] s9 w0 same_empty eq_refl eq_refl) as (s10 & E10 & D10). cbn [app] in D10.
    pose proof (for_keeps _ _ _ _ _ _ _ _ _ _ _ E10) as K10. rewrite E10. cbn [seq_].
    assert (T10 : s10 "dec_table" = Some (VList (map vopt dec))) by (apply (keeps_get _ _ _ _ _ K10); [exact D8|reflexivity|reflexivity]).
    assert (O10 : s10 "out_file" = Some (VFile q MText)) by (apply (keeps_get _ _ _ _ _ K10); [exact O8|reflexivity|reflexivity]).
    assert (N10 : forall y, existsb (String.eqb y) ["len"; "enumerate"] = true -> s10 y = None).
    { intros y Hy. cbn [existsb] in Hy. repeat (apply orb_prop in Hy; destruct Hy as [Hy|Hy]; [apply String.eqb_eq in Hy; subst y; apply (keeps_none _ _ _ _ K10); [reflexivity|apply N8; reflexivity]|]). discriminate. }
    clear E10 K10 O8 N8 D8. unfold a_write. cbn [app].
    rewrite block_cons, (exec_change0 _ _ _ _ _ _ _ _ _ (VList (map vpair (sort pair_leb (single_byte_enc empty table)))) D10); [|reflexivity|reflexivity|].
    2: { cbn [change String.eqb Ascii.eqb Bool.eqb app]. rewrite sortable_pairs. f_equal. f_equal. apply sort_map. apply vpair_leb. }
    cbn [seq_]. set (enc := sort pair_leb (single_byte_enc empty table)) in *. set (s11 := upd "enc_table" _ s10).
    assert (F0 : has_file q w0) by (exists []; apply write_same).
    assert (O11 : s11 "out_file" = Some (VFile q MText)) by exact O10.
    assert (N11 : forall y, existsb (String.eqb y) ["len"; "enumerate"] = true -> s11 y = None).
    { intros y Hy. cbn [existsb] in Hy. repeat (apply orb_prop in Hy; destruct Hy as [Hy|Hy]; [apply String.eqb_eq in Hy; subst y; apply N10; reflexivity|]). discriminate. }
    assert (D11 : s11 "dec_table" = Some (VList (map vopt dec))) by exact T10.
    assert (E11 : s11 "enc_table" = Some (VList (map vpair enc))) by reflexivity.
    clearbody s11. clear s10 D10 T10 O10 N10. unfold ascii_ext_text.
    rewrite block_cons. match goal with |- context [ (str ?h ++ str "const DECODE_TABLE: [char; 128] = [" ++ _)] => rewrite (write_text _ _ _ _ q _ (str h) _ _ _ O11) by reflexivity end. cbn [seq_].
    set (w1 := append q _ w0). assert (G1 : grows q _ w0 w1) by (apply grows_append; exact F0). pose proof (grows_has _ _ _ _ G1) as F1. clearbody w1.
    rewrite block_cons, (write_text _ _ _ _ q _ (str "const DECODE_TABLE: [char; 128] = [") _ _ _ O11) by reflexivity.
    cbn [seq_]. set (w2 := append q _ w1). assert (G2 : grows q _ w1 w2) by (apply grows_append; exact F1). pose proof (grows_has _ _ _ _ G2) as F2. clearbody w2.
    rewrite block_cons, (for_list _ _ _ _ _ _ _ _ _ (VIter (enumerate 0 (map vopt dec))) (enumerate 0 (map vopt dec))); [| |reflexivity].
    2: { py. rewrite (N11 "enumerate" eq_refl), D11. py. rewrite no_enumerate. reflexivity. }
    destruct (dec_loop dir call fuel (names_in (ECall "enumerate" [EName "dec_table"] []) ++ fr) q dec 0 s11 w2 O11 F2) as (s12 & w3 & E12 & G3).
    change (Z.of_N 0) with 0%Z in E12. rewrite E12. cbn [seq_]. pose proof (for_keeps _ _ _ _ _ _ _ _ _ _ _ E12) as K12. pose proof (grows_has _ _ _ _ G3) as F3.
    assert (O12 : s12 "out_file" = Some (VFile q MText)) by (apply (keeps_get _ _ _ _ _ K12); [exact O11|reflexivity|reflexivity]).
    assert (T12 : s12 "enc_table" = Some (VList (map vpair enc))) by (apply (keeps_get _ _ _ _ _ K12); [exact E11|reflexivity|reflexivity]).
    assert (L12 : s12 "len" = None) by (apply (keeps_none _ _ _ _ K12); [reflexivity|apply N11; reflexivity]).
    assert (M12 : s12 "enumerate" = None) by (apply (keeps_none _ _ _ _ K12); [reflexivity|apply N11; reflexivity]).
    clear E12 K12. unfold a_middle. cbn [app].
    rewrite block_cons, (write_text _ _ _ _ q _ (str "
];

") _ _ _ O12) by reflexivity. cbn [seq_].
    set (w4 := append q _ w3). assert (G4 : grows q _ w3 w4) by (apply grows_append; exact F3). pose proof (grows_has _ _ _ _ G4) as F4. clearbody w4.
    rewrite block_cons, (write_text _ _ _ _ q _ (str "const ENCODE_TABLE: [(char, u8); " ++ py_dec (N.of_nat (List.length enc)) ++ str "] = [") _ _ _ O12).
    2: { pose proof (fmt_byte_head (N.of_nat (List.length enc))) as F. unfold vint in F. rewrite nat_N_Z in F. cbn [eval]. rewrite L12, T12. py. rewrite no_len. py.
         rewrite map_length. exact (f_equal (fun o => match o with Some t => Val (VStr t) w4 | None => Wrong end) F). }
    2: { rewrite !encodable_app, dec_small. reflexivity. }
    cbn [seq_]. set (w5 := append q _ w4). assert (G5 : grows q _ w4 w5) by (apply grows_append; exact F4). pose proof (grows_has _ _ _ _ G5) as F5. clearbody w5.
    rewrite block_cons, (for_list _ _ _ _ _ _ _ _ _ (VIter (enumerate 0 (map vpair enc))) (enumerate 0 (map vpair enc))); [| |reflexivity].
    2: { py. rewrite M12, T12. py. rewrite no_enumerate. reflexivity. }
    destruct (a_byte_loop (names_in (ECall "enumerate" [EName "enc_table"] []) ++ fr) q enc 0 s12 w5 O12 F5) as (s13 & w6 & E13 & G6).
    change (Z.of_N 0) with 0%Z in E13. rewrite E13. cbn [seq_]. pose proof (for_keeps _ _ _ _ _ _ _ _ _ _ _ E13) as K13. pose proof (grows_has _ _ _ _ G6) as F6.
    assert (O13 : s13 "out_file" = Some (VFile q MText)) by (apply (keeps_get _ _ _ _ _ K13); [exact O12|reflexivity|reflexivity]).
    unfold a_end. rewrite block_cons, (write_text _ _ _ _ q _ (str "
];
") _ _ _ O13) by reflexivity. cbn [seq_]. rewrite block_nil.
    set (w7 := append q _ w6). assert (G7 : grows q _ w6 w7) by (apply grows_append; exact F6).
    exists s13, w7. split; [reflexivity|].
    pose proof (grows_app _ _ _ _ _ _ G6 G7) as X6. pose proof (grows_app _ _ _ _ _ _ G5 X6) as X5. pose proof (grows_app _ _ _ _ _ _ G4 X5) as X4.
    pose proof (grows_app _ _ _ _ _ _ G3 X4) as X3. pose proof (grows_app _ _ _ _ _ _ G2 X3) as X2. pose proof (grows_app _ _ _ _ _ _ G1 X2) as X1.
    repeat rewrite py_encode_app in X1. repeat rewrite py_encode_app. repeat rewrite <- app_assoc in X1. exact X1.
  Qed.
End Ascii.
