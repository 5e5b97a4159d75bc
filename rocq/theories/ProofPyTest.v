(* generate_big5_test_data and generate_shiftjis_test_data. *)
From Coq Require Import List NArith ZArith Bool String Lia.
From Verif Require Import Prelude RustCore FileText ModelGen ModelScripts ModelTests ModelFiles PySyntax PyEval ProofGen ScriptAst ProofPy ProofPyLoad
  ProofPyTables ProofPyTables2 Tac.
Import ListNotations.
Local Open Scope string_scope.
Local Open Scope list_scope.

(** ** Two files *)

(* w' is w with x and y written to the ends of two files *)
Definition two (p q : path) (x y : list N) (w w' : world) : Prop :=
  (exists o, disk w p = Some o /\ disk w' p = Some (o ++ x)) /\ (exists o, disk w q = Some o /\ disk w' q = Some (o ++ y)) /\
  (forall r, r <> p -> r <> q -> disk w' r = disk w r) /\ reads w' = reads w /\ writes w' = writes w.
Lemma two_nil p q w : has_file p w -> has_file q w -> two p q [] [] w w.
Proof. intros [o P] [o' Q]. split; [exists o|split; [exists o'|repeat split]]; rewrite app_nil_r; split; assumption. Qed.
Lemma two_app p q x y x' y' w w' w'' : two p q x y w w' -> two p q x' y' w' w'' -> two p q (x ++ x') (y ++ y') w w''.
Proof.
  intros ((a & A1 & A2) & (b & B1 & B2) & C & R & W) ((a' & A1' & A2') & (b' & B1' & B2') & C' & R' & W').
  rewrite A2 in A1'. injection A1' as <-. rewrite B2 in B1'. injection B1' as <-.
  split; [exists a; rewrite app_assoc; split; assumption|]. split; [exists b; rewrite app_assoc; split; assumption|].
  split; [|split; congruence]. intros r P Q. rewrite C', C by assumption. reflexivity.
Qed.
Lemma two_left p q x w w' : p <> q -> grows p x w w' -> has_file q w -> two p q x [] w w'.
Proof.
  intros D (A & B & R & W) [o Q]. split; [exact A|]. split; [exists o; rewrite app_nil_r, B by congruence; split; exact Q|].
  split; [|split; assumption]. intros r P _. apply B, P.
Qed.
Lemma two_right p q y w w' : p <> q -> grows q y w w' -> has_file p w -> two p q [] y w w'.
Proof.
  intros D (A & B & R & W) [o P]. split; [exists o; rewrite app_nil_r, B by congruence; split; exact P|]. split; [exact A|].
  split; [|split; assumption]. intros r _ Q. apply B, Q.
Qed.
Lemma two_has p q x y w w' : two p q x y w w' -> has_file p w' /\ has_file q w'.
Proof. intros ((a & _ & A) & (b & _ & B) & _). split; [exists (a ++ x); exact A|exists (b ++ y); exact B]. Qed.

Lemma write_lines_acc lines : forall a b, write_lines lines a b = let '(x, y, ok) := write_lines lines [] [] in (a ++ x, b ++ y, ok).
Proof.
  induction lines as [|[[x|] [y|]] lines IH]; intros a b; cbn [write_lines]; rewrite ?app_nil_r; try reflexivity.
  rewrite (IH (a ++ _)), (IH ([] ++ _)). destruct (write_lines lines [] []) as [[c d] ok]. rewrite <- !app_assoc. reflexivity.
Qed.
Lemma write_lines_app l m : forall a b, write_lines (l ++ m) a b = let '(x, y, ok) := write_lines l a b in if ok then write_lines m x y else (x, y, false).
Proof.
  induction l as [|[[x|] [y|]] l IH]; intros a b; cbn [app write_lines]; try reflexivity. apply IH.
Qed.

Lemma write_ext f g p c r : (forall r, f r = g r) -> write f p c r = write g p c r.
Proof. intros H. unfold write. destruct (list_eq_dec string_dec p r); [reflexivity|apply H]. Qed.

(** ** The loops *)

Definition put (f : string) (e : expr) : stmt := SExpr (EMethod (EName f) "write" [e]).
Definition x_line : expr := ECall "bytes" [EStr [10%N]; EStr (str "utf-8")] [].
Definition x_byte : expr := ECall "bytes" [EList [EName "ascii_byte"]] [].
Definition x_index : expr := ECall "bytes" [ECall "index_to_bytes" [EName "index"] []] [].
Definition x_chr (e : expr) : expr := EMethod (ECall "chr" [e] []) "encode" [EStr (str "utf-8")].
Definition side (f : string) (es : list expr) : list stmt := map (put f) (es ++ [x_line]).
Definition ascii_loop (n : N) (fa fb : string) (x y : expr) : stmt :=
  SFor (TName "ascii_byte") (ECall "range" [EInt 1; EInt n] []) (side fa [x] ++ side fb [y]).
Definition pair_loop (e : expr) (fa fb : string) (x y : expr) : stmt :=
  SFor (TTuple ["index"; "codepoint"]) e (side fa [x] ++ side fb [y]).
Definition x_sequences : expr := EList (map (fun ics => ETuple [EInt (fst ics); ETuple [EInt (fst (snd ics)); EInt (snd (snd ics))]]) big5_test_sequences).
Definition x_chrs : list expr := [x_chr (EIndex (EName "codepoints") (EInt 0)); x_chr (EIndex (EName "codepoints") (EInt 1))].
Definition sequence_loop (fa fb : string) (xs ys : list expr) : stmt := SFor (TTuple ["index"; "codepoints"]) x_sequences (side fa xs ++ side fb ys).
Definition opens (x y : string) : stmt := SAssign x (ECall "open" [EName y; EStr (str "wb")] []).

Lemma b_test_parts : f_body b_test =
  SAssign "table" (ECall "load_table_file" [EName "in_path"] []) ::
  opens "decode_in_file" "dec_in_path" :: opens "decode_out_file" "dec_out_path" ::
  [ascii_loop 128 "decode_in_file" "decode_out_file" x_byte x_byte;
   pair_loop (EName "table") "decode_in_file" "decode_out_file" x_index (x_chr (EName "codepoint"));
   sequence_loop "decode_in_file" "decode_out_file" [x_index] x_chrs] ++
  opens "encode_in_file" "enc_in_path" :: opens "encode_out_file" "enc_out_path" ::
  [ascii_loop 128 "encode_in_file" "encode_out_file" x_byte x_byte;
   pair_loop (ECall "deduped_table" [EName "table"] []) "encode_in_file" "encode_out_file" (x_chr (EName "codepoint")) x_index;
   sequence_loop "encode_in_file" "encode_out_file" x_chrs [x_index]].
Proof. reflexivity. Qed.
Lemma s_test_parts : f_body s_test =
  SAssign "table" (ECall "load_table_file" [EName "in_path"] []) ::
  opens "decode_in_file" "dec_in_path" :: opens "decode_out_file" "dec_out_path" ::
  [ascii_loop 129 "decode_in_file" "decode_out_file" x_byte (x_chr (EName "ascii_byte"));
   pair_loop (EName "table") "decode_in_file" "decode_out_file" x_index (x_chr (EName "codepoint"))] ++
  opens "encode_in_file" "enc_in_path" :: opens "encode_out_file" "enc_out_path" ::
  [ascii_loop 129 "encode_in_file" "encode_out_file" (x_chr (EName "ascii_byte")) x_byte;
   pair_loop (ECall "deduped_table" [EName "table"] []) "encode_in_file" "encode_out_file" (x_chr (EName "codepoint")) x_index].
Proof. reflexivity. Qed.

Section Test.
  Variable dir : path.
  Variable call : string -> option (list value -> world -> res value).
  Variable fuel : nat.
  Hypothesis no_open : call "open" = None.
  Hypothesis no_range : call "range" = None.
  Hypothesis no_bytes : call "bytes" = None.
  Hypothesis no_chr : call "chr" = None.
  Variable g_load g_dedup g_index : list value -> world -> res value.
  Variable dedup : list (N * N) -> list (N * N).
  Variable to_bytes : N -> N * N.
  Hypothesis has_load : call "load_table_file" = Some g_load.
  Hypothesis has_dedup : call "deduped_table" = Some g_dedup.
  Hypothesis has_index : call "index_to_bytes" = Some g_index.
  Hypothesis load_spec : loads dir g_load.
  Hypothesis dedup_spec : dedups dedup g_dedup.
  Hypothesis index_spec : indexes to_bytes g_index.

  (* what an expression for bytes gives *)
  Definition gives (e : expr) (s : env) (x : option (list N)) : Prop := forall w, eval dir call e s w = maybe (option_map VBytes x) w.

  Lemma line_gives s : s "bytes" = None -> gives x_line s (Some [10%N]).
  Proof. intros H w. unfold x_line. py. rewrite H. py. rewrite no_bytes. reflexivity. Qed.
  Lemma bytes_of zs : byte_values (map Z.of_N zs) = py_bytes zs.
  Proof.
    unfold byte_values, py_bytes. rewrite map_map, (map_ext _ (fun x => x)), map_id by (intros; apply N2Z.id).
    replace (forallb _ (map Z.of_N zs)) with (forallb (fun b => b <? 256)%N zs); [reflexivity|].
    induction zs as [|z zs IH]; [reflexivity|]. cbn [map forallb]. rewrite IH. f_equal. lia.
  Qed.
  Lemma byte_gives s b : s "bytes" = None -> s "ascii_byte" = Some (vint b) -> gives x_byte s (py_bytes [b]).
  Proof. intros H B w. unfold x_byte. py. rewrite H, B. py. rewrite no_bytes. py. rewrite <- bytes_of. reflexivity. Qed.
  Lemma index_gives s i : s "bytes" = None -> s "index_to_bytes" = None -> s "index" = Some (vint i) -> gives x_index s (py_bytes (pair_bytes (to_bytes i))).
  Proof.
    intros H I E w. unfold x_index. py. rewrite H, I, E. py. rewrite has_index, index_spec. py. rewrite no_bytes. destruct (to_bytes i) as [a b].
    unfold vpair. py. rewrite <- bytes_of. reflexivity.
  Qed.
  Lemma chr_gives e s c : s "chr" = None -> (forall w, eval dir call e s w = Val (vint c) w) -> gives (x_chr e) s (py_chr c).
  Proof.
    intros H E w. unfold x_chr. cbn [eval]. rewrite H, E. py. rewrite no_chr. py. unfold py_chr.
    replace (0 <=? Z.of_N c)%Z with true by lia. replace (Z.of_N c <=? 1114111)%Z with (c <=? 1114111)%N by lia. rewrite N2Z.id.
    destruct (c <=? 1114111)%N eqn:C; cbn [andb]; [|replace (c <? 55296)%N with false by lia; rewrite andb_false_r; reflexivity].
    change (str_is (str "utf-8") "utf-8") with true. py. unfold utf8_encode, encodable, py_encode. cbn [forallb flat_map]. rewrite app_nil_r, !andb_true_r.
    destruct ((c <? 55296) || (57343 <? c))%N eqn:X; rewrite ?X; reflexivity.
  Qed.

  (* one side of a line *)
  Definition side_done (p : path) (x : option (list N)) (s : env) (w : world) (o : outcome) : Prop :=
    match x with
    | Some x => exists w', o = Next s w' /\ grows p (x ++ [10%N]) w w'
    | None => o = Failed w
    end.
  Lemma put_gives f p e x fr s w : s f = Some (VFile p MBytes) -> gives e s x ->
    exec dir call fuel (put f e) fr s w = match x with Some x => Next s (append p x w) | None => Failed w end.
  Proof.
    intros F G. unfold put. specialize (G w). destruct x as [x|]; [apply write_bytes; [exact F|exact G]|]. apply (write_raise _ _ _ _ p MBytes); [exact F|exact G].
  Qed.
  Lemma side_one f p e x fr s w : s f = Some (VFile p MBytes) -> s "bytes" = None -> has_file p w -> gives e s x ->
    side_done p x s w (block dir call fuel (side f [e]) fr s w).
  Proof.
    intros F B H G. unfold side. cbn [map app]. rewrite block_cons, (put_gives _ _ _ _ _ _ _ F G). destruct x as [x|]; [|reflexivity]. cbn [seq_].
    rewrite block_cons, (put_gives _ _ _ _ _ _ _ F (line_gives s B)). cbn [seq_]. rewrite block_nil. eexists. split; [reflexivity|].
    pose proof (grows_append p x w H) as A. eapply grows_app; [exact A|]. apply grows_append, (grows_has _ _ _ _ A).
  Qed.
  Lemma side_two f p e e' x x' fr s w : s f = Some (VFile p MBytes) -> s "bytes" = None -> has_file p w -> gives e s (Some x) -> gives e' s (Some x') ->
    side_done p (Some (x ++ x')) s w (block dir call fuel (side f [e; e']) fr s w).
  Proof.
    intros F B H G G'. unfold side. cbn [map app]. rewrite block_cons, (put_gives _ _ _ _ _ _ _ F G). cbn [seq_].
    rewrite block_cons, (put_gives _ _ _ _ _ _ _ F G'). cbn [seq_].
    rewrite block_cons, (put_gives _ _ _ _ _ _ _ F (line_gives s B)). cbn [seq_]. rewrite block_nil. eexists. split; [reflexivity|]. rewrite <- app_assoc.
    pose proof (grows_append p x w H) as A. eapply grows_app; [exact A|].
    pose proof (grows_append p x' _ (grows_has _ _ _ _ A)) as A'. eapply grows_app; [exact A'|]. apply grows_append, (grows_has _ _ _ _ A').
  Qed.

  (* the variables of the loops are not used after them *)
  Definition same (s0 s : env) : Prop := forall y, existsb (String.eqb y) ["ascii_byte"; "index"; "codepoint"; "codepoints"] = false -> s y = s0 y.
  Definition wrote (p q : path) (lines : list (option (list N) * option (list N))) (s0 : env) (w : world) (o : outcome) : Prop :=
    let '(x, y, ok) := write_lines lines [] [] in
    exists w', two p q x y w w' /\ if ok then exists s', o = Next s' w' /\ same s0 s' else o = Failed w'.

  Lemma wrote_app p q l m s0 w a b fr s : wrote p q l s0 w (block dir call fuel a fr s w) ->
    (forall s w, same s0 s -> has_file p w -> has_file q w -> wrote p q m s0 w (block dir call fuel b fr s w)) ->
    wrote p q (l ++ m) s0 w (block dir call fuel (a ++ b) fr s w).
  Proof.
    unfold wrote at 1 3. rewrite write_lines_app. destruct (write_lines l [] []) as [[x y] ok]. intros (w1 & T & O) K. rewrite block_app. destruct ok.
    - destruct O as (s1 & -> & S1). cbn [seq_]. destruct (two_has _ _ _ _ _ _ T) as [P Q]. specialize (K s1 w1 S1 P Q). unfold wrote in K.
      rewrite write_lines_acc. destruct (write_lines m [] []) as [[x' y'] ok]. destruct K as (w2 & T2 & O2). exists w2. split; [|exact O2].
      eapply two_app; eassumption.
    - exists w1. split; [exact T|]. rewrite O. reflexivity.
  Qed.

  (* a loop that writes a line to each of two files in every round *)
  Lemma lines_loop {A} fa fb p q t xs ys fr s0 (g : A -> value) (h : A -> option (list N) * option (list N)) l : p <> q ->
    (forall a s w, List.In a l -> same s0 s -> exists s1, bind_target t (g a) s w = Val s1 w /\ same s0 s1 /\
      (forall w, has_file p w -> side_done p (fst (h a)) s1 w (block dir call fuel (side fa xs) fr s1 w)) /\
      (forall w, has_file q w -> side_done q (snd (h a)) s1 w (block dir call fuel (side fb ys) fr s1 w))) ->
    forall s w, same s0 s -> has_file p w -> has_file q w ->
      wrote p q (map h l) s0 w (for_loop dir call fuel t (side fa xs ++ side fb ys) fr (map g l) s w).
  Proof.
    intros D. induction l as [|a l IH]; intros H s w S0 P Q.
    - exists w. split; [apply two_nil; assumption|]. exists s. split; [reflexivity|exact S0].
    - destruct (H a s w (or_introl eq_refl) S0) as (s1 & B & S1 & X & Y). cbn [map]. rewrite for_cons, B. cbn [after]. rewrite block_app.
      unfold wrote. cbn [write_lines]. destruct (h a) as [x y]. cbn [fst snd] in X, Y. specialize (X w P). destruct x as [x|].
      + destruct X as (w1 & -> & G1). cbn [seq_]. pose proof (two_left _ _ _ _ _ D G1 Q) as T1. destruct (two_has _ _ _ _ _ _ T1) as [P1 Q1].
        specialize (Y w1 Q1). destruct y as [y|].
        * destruct Y as (w2 & -> & G2). pose proof (two_app _ _ _ _ _ _ _ _ _ T1 (two_right _ _ _ _ _ D G2 P1)) as T2. destruct (two_has _ _ _ _ _ _ T2) as [P2 Q2].
          specialize (IH (fun b s w Hb => H b s w (or_intror Hb)) s1 w2 S1 P2 Q2). unfold wrote in IH. rewrite write_lines_acc.
          destruct (write_lines (map h l) [] []) as [[c d] ok]. destruct IH as (w3 & T3 & O3). exists w3. split; [|exact O3].
          pose proof (two_app _ _ _ _ _ _ _ _ _ T2 T3) as T. rewrite app_nil_r in T. exact T.
        * rewrite Y. exists w1. split; [exact T1|reflexivity].
      + rewrite X. exists w. split; [apply two_nil; assumption|reflexivity].
  Qed.

  Section Half.
    Variable fa fb : string.
    Variable p q : path.
    Variable s0 : env.
    Hypothesis other : p <> q.
    Hypothesis name_a : existsb (String.eqb fa) ["ascii_byte"; "index"; "codepoint"; "codepoints"] = false.
    Hypothesis name_b : existsb (String.eqb fb) ["ascii_byte"; "index"; "codepoint"; "codepoints"] = false.
    Hypothesis file_a : s0 fa = Some (VFile p MBytes).
    Hypothesis file_b : s0 fb = Some (VFile q MBytes).
    Hypothesis free : forall y, existsb (String.eqb y) ["bytes"; "chr"; "index_to_bytes"; "range"; "deduped_table"] = true -> s0 y = None.

    Lemma same_free y s : same s0 s -> existsb (String.eqb y) ["ascii_byte"; "index"; "codepoint"; "codepoints"] = false ->
      existsb (String.eqb y) ["bytes"; "chr"; "index_to_bytes"; "range"; "deduped_table"] = true -> s y = None.
    Proof. intros S N F. rewrite (S y N). apply free, F. Qed.
    Lemma same_upd x v s : existsb (String.eqb x) ["ascii_byte"; "index"; "codepoint"; "codepoints"] = true -> same s0 s -> same s0 (upd x v s).
    Proof.
      intros X S y Y. unfold upd. destruct (String.eqb x y) eqn:E; [|apply S, Y]. apply String.eqb_eq in E. congruence.
    Qed.

    Lemma range_1 n : range 1 (Z.of_N n) = map vint (range1 (N.to_nat n)).
    Proof.
      unfold range, range1. rewrite map_map. replace (Z.to_nat (Z.of_N n - 1)) with (N.to_nat n - 1) by lia. rewrite <- (seq_shift _ 0), map_map.
      apply map_ext. intros k. unfold vint. f_equal. lia.
    Qed.
    Lemma ascii_ok n x y hx hy fr s w : same s0 s -> has_file p w -> has_file q w ->
      (forall s b, s "bytes" = None -> s "chr" = None -> s "ascii_byte" = Some (vint b) -> gives x s (hx b)) ->
      (forall s b, s "bytes" = None -> s "chr" = None -> s "ascii_byte" = Some (vint b) -> gives y s (hy b)) ->
      wrote p q (map (fun b => (hx b, hy b)) (range1 (N.to_nat n))) s0 w (block dir call fuel [ascii_loop n fa fb x y] fr s w).
    Proof.
      intros S P Q X Y. unfold ascii_loop. rewrite block_cons, (for_list _ _ _ _ _ _ _ _ _ (VIter (range 1 (Z.of_N n))) (range 1 (Z.of_N n))); [| |reflexivity].
      2: { cbn [eval]. rewrite (same_free "range" s S eq_refl eq_refl). py. rewrite no_range. reflexivity. }
      rewrite range_1.
      assert (W : wrote p q (map (fun b => (hx b, hy b)) (range1 (N.to_nat n))) s0 w
        (for_loop dir call fuel (TName "ascii_byte") (side fa [x] ++ side fb [y]) (names_in (ECall "range" [EInt 1; EInt n] []) ++ fr) (map vint (range1 (N.to_nat n))) s w)).
      { apply lines_loop; try assumption. intros b s1 w1 _ S1. exists (upd "ascii_byte" (vint b) s1). split; [reflexivity|].
        assert (S2 : same s0 (upd "ascii_byte" (vint b) s1)) by (apply same_upd; [reflexivity|exact S1]). split; [exact S2|].
        pose proof (same_free "bytes" _ S2 eq_refl eq_refl) as B. pose proof (same_free "chr" _ S2 eq_refl eq_refl) as C.
        split; intros w2 H2; cbn [fst snd].
        - apply side_one; [rewrite (S2 fa name_a); exact file_a|exact B|exact H2|]. apply X; [exact B|exact C|reflexivity].
        - apply side_one; [rewrite (S2 fb name_b); exact file_b|exact B|exact H2|]. apply Y; [exact B|exact C|reflexivity]. }
      revert W. unfold wrote. destruct (write_lines _ _ _) as [[a b] ok]. intros (w' & T & O). exists w'. split; [exact T|].
      destruct ok; [destruct O as (s' & -> & S'); exists s'; split; [apply block_nil|exact S']|rewrite O; reflexivity].
    Qed.

    Lemma pair_ok e l x y hx hy fr s w : same s0 s -> has_file p w -> has_file q w ->
      eval dir call e s w = Val (VList (map vpair l)) w ->
      (forall s i c, s "bytes" = None -> s "chr" = None -> s "index_to_bytes" = None -> s "index" = Some (vint i) -> s "codepoint" = Some (vint c) -> gives x s (hx (i, c))) ->
      (forall s i c, s "bytes" = None -> s "chr" = None -> s "index_to_bytes" = None -> s "index" = Some (vint i) -> s "codepoint" = Some (vint c) -> gives y s (hy (i, c))) ->
      wrote p q (map (fun ic => (hx ic, hy ic)) l) s0 w (block dir call fuel [pair_loop e fa fb x y] fr s w).
    Proof.
      intros S P Q E X Y. unfold pair_loop. rewrite block_cons, (for_list _ _ _ _ _ _ _ _ _ _ (map vpair l) E); [|reflexivity].
      assert (W : wrote p q (map (fun b => (hx b, hy b)) l) s0 w
        (for_loop dir call fuel (TTuple ["index"; "codepoint"]) (side fa [x] ++ side fb [y]) (names_in e ++ fr) (map vpair l) s w)).
      { apply lines_loop; try assumption. intros [i c] s1 w1 _ S1. exists (upd "codepoint" (vint c) (upd "index" (vint i) s1)). split; [reflexivity|].
        assert (S2 : same s0 (upd "codepoint" (vint c) (upd "index" (vint i) s1))) by (apply same_upd; [reflexivity|]; apply same_upd; [reflexivity|exact S1]). split; [exact S2|].
        pose proof (same_free "bytes" _ S2 eq_refl eq_refl) as B. pose proof (same_free "chr" _ S2 eq_refl eq_refl) as C. pose proof (same_free "index_to_bytes" _ S2 eq_refl eq_refl) as I.
        split; intros w2 H2; cbn [fst snd].
        - apply side_one; [rewrite (S2 fa name_a); exact file_a|exact B|exact H2|]. apply X; [exact B|exact C|exact I|reflexivity|reflexivity].
        - apply side_one; [rewrite (S2 fb name_b); exact file_b|exact B|exact H2|]. apply Y; [exact B|exact C|exact I|reflexivity|reflexivity]. }
      revert W. unfold wrote. destruct (write_lines _ _ _) as [[a b] ok]. intros (w' & T & O). exists w'. split; [exact T|].
      destruct ok; [destruct O as (s' & -> & S'); exists s'; split; [apply block_nil|exact S']|rewrite O; reflexivity].
    Qed.

    (* for expressions that write one piece or two *)
    Definition sequence_side (xs : list expr) (h : N * (N * N) -> option (list N)) : Prop :=
      forall f r fr ics s w, List.In ics big5_test_sequences -> s "bytes" = None -> s "chr" = None -> s "index_to_bytes" = None -> s "index" = Some (vint (fst ics)) ->
        s "codepoints" = Some (vpair (snd ics)) -> s f = Some (VFile r MBytes) -> has_file r w ->
        side_done r (h ics) s w (block dir call fuel (side f xs) fr s w).
    Lemma sequence_index : sequence_side [x_index] (fun ics => py_bytes (pair_bytes (to_bytes (fst ics)))).
    Proof. intros f r fr ics s w _ B C I X _ F H. apply side_one; try assumption. apply index_gives; assumption. Qed.
    Lemma sequence_chrs : sequence_side x_chrs (fun ics => Some (encode_utf8 (fst (snd ics)) ++ encode_utf8 (snd (snd ics)))).
    Proof.
      intros f r fr ics s w K B C I _ X F H. apply side_two; try assumption.
      - replace (Some (encode_utf8 (fst (snd ics)))) with (py_chr (fst (snd ics))).
        + apply chr_gives; [exact C|]. intros w'. cbn [eval]. rewrite X. reflexivity.
        + unfold big5_test_sequences in K. cbn [List.In] in K. repeat (destruct K as [<-|K]; [reflexivity|]). destruct K.
      - replace (Some (encode_utf8 (snd (snd ics)))) with (py_chr (snd (snd ics))).
        + apply chr_gives; [exact C|]. intros w'. cbn [eval]. rewrite X. reflexivity.
        + unfold big5_test_sequences in K. cbn [List.In] in K. repeat (destruct K as [<-|K]; [reflexivity|]). destruct K.
    Qed.
    Lemma sequence_ok xs ys hx hy fr s w : same s0 s -> has_file p w -> has_file q w -> sequence_side xs hx -> sequence_side ys hy ->
      wrote p q (map (fun ics => (hx ics, hy ics)) big5_test_sequences) s0 w (block dir call fuel [sequence_loop fa fb xs ys] fr s w).
    Proof.
      intros S P Q X Y. unfold sequence_loop. rewrite block_cons, (for_list _ _ _ _ _ _ _ _ _ (VList (map ventry big5_test_sequences)) (map ventry big5_test_sequences)) by reflexivity.
      assert (W : wrote p q (map (fun b => (hx b, hy b)) big5_test_sequences) s0 w
        (for_loop dir call fuel (TTuple ["index"; "codepoints"]) (side fa xs ++ side fb ys) (names_in x_sequences ++ fr) (map ventry big5_test_sequences) s w)).
      { apply lines_loop; try assumption. intros [i cs] s1 w1 K S1. exists (upd "codepoints" (vpair cs) (upd "index" (vint i) s1)). split; [reflexivity|].
        assert (S2 : same s0 (upd "codepoints" (vpair cs) (upd "index" (vint i) s1))) by (apply same_upd; [reflexivity|]; apply same_upd; [reflexivity|exact S1]). split; [exact S2|].
        pose proof (same_free "bytes" _ S2 eq_refl eq_refl) as B. pose proof (same_free "chr" _ S2 eq_refl eq_refl) as C. pose proof (same_free "index_to_bytes" _ S2 eq_refl eq_refl) as I.
        split; intros w2 H2; cbn [fst snd].
        - apply (X _ _ _ (i, cs)); try assumption; try reflexivity. rewrite (S2 fa name_a). exact file_a.
        - apply (Y _ _ _ (i, cs)); try assumption; try reflexivity. rewrite (S2 fb name_b). exact file_b. }
      revert W. unfold wrote. destruct (write_lines _ _ _) as [[a b] ok]. intros (w' & T & O). exists w'. split; [exact T|].
      destruct ok; [destruct O as (s' & -> & S'); exists s'; split; [apply block_nil|exact S']|rewrite O; reflexivity].
    Qed.
  End Half.

  (** ** The whole function *)

  Definition test_body (a b : list stmt) : list stmt :=
    SAssign "table" (ECall "load_table_file" [EName "in_path"] []) ::
    opens "decode_in_file" "dec_in_path" :: opens "decode_out_file" "dec_out_path" ::
    a ++ opens "encode_in_file" "enc_in_path" :: opens "encode_out_file" "enc_out_path" :: b.
  Definition half_ok (fa fb : string) (stmts : list stmt) (lines : list (N * N) -> list (option (list N) * option (list N))) : Prop :=
    forall p q s0 table fr s w, p <> q -> s0 fa = Some (VFile p MBytes) -> s0 fb = Some (VFile q MBytes) -> s0 "table" = Some (VList (map vpair table)) ->
      (forall y, existsb (String.eqb y) ["bytes"; "chr"; "index_to_bytes"; "range"; "deduped_table"] = true -> s0 y = None) ->
      same s0 s -> has_file p w -> has_file q w -> wrote p q (lines table) s0 w (block dir call fuel stmts fr s w).

  Lemma opens_ok x y cs p fr s w : s "open" = None -> s y = Some (VStr cs) -> resolve dir cs = Some p -> among p (reads w) = false -> among p (writes w) = false ->
    exec dir call fuel (opens x y) fr s w = Next (upd x (VFile p MBytes) s) (opened p w).
  Proof.
    intros O Y P R W. unfold opens. rewrite exec_assign. cbn [eval]. rewrite O, Y. cbn [bind]. rewrite no_open. cbn [builtin String.eqb Ascii.eqb Bool.eqb].
    change (str_is (str "wb") "wb") with true. unfold open_write. rewrite P, R, W. reflexivity.
  Qed.
  Lemma path_eqb_eq a b : path_eqb a b = true <-> a = b.
  Proof. unfold path_eqb. destruct (list_eq_dec string_dec a b); split; congruence. Qed.
  Lemma among_cons p q l : among p (q :: l) = false -> p <> q /\ among p l = false.
  Proof.
    unfold among. cbn [existsb]. intros H. apply orb_false_elim in H. destruct H as [A B]. split; [|exact B]. intros E. apply path_eqb_eq in E. congruence.
  Qed.

  (* two files newly opened, then written *)
  Lemma opened_two p q x y w w' : p <> q -> two p q x y (opened q (opened p w)) w' ->
    (forall r, disk w' r = write (write (disk w) p x) q y r) /\ reads w' = reads w /\ writes w' = q :: p :: writes w.
  Proof.
    intros D ((a & A1 & A2) & (b & B1 & B2) & C & R & W). cbn [opened disk reads writes] in *. split; [|split; assumption]. intros r.
    rewrite write_other in A1 by congruence. rewrite write_same in A1, B1. injection A1 as <-. injection B1 as <-. cbn [app] in A2, B2.
    destruct (list_eq_dec string_dec q r) as [<-|Q]; [rewrite write_same; exact B2|].
    destruct (list_eq_dec string_dec p r) as [<-|P]; [rewrite write_other, write_same by congruence; exact A2|].
    rewrite C, !write_other by congruence. reflexivity.
  Qed.

  Lemma test_ok a b lines lines' : half_ok "decode_in_file" "decode_out_file" a lines -> half_ok "encode_in_file" "encode_out_file" b lines' ->
    forall c0 c1 c2 c3 c4 p0 p1 p2 p3 p4 w,
    resolve dir c0 = Some p0 -> resolve dir c1 = Some p1 -> resolve dir c2 = Some p2 -> resolve dir c3 = Some p3 -> resolve dir c4 = Some p4 ->
    among p0 (writes w) = false ->
    among p1 (p0 :: reads w) = false -> among p2 (p0 :: reads w) = false -> among p3 (p0 :: reads w) = false -> among p4 (p0 :: reads w) = false ->
    among p1 (writes w) = false -> among p2 (p1 :: writes w) = false -> among p3 (p2 :: p1 :: writes w) = false -> among p4 (p3 :: p2 :: p1 :: writes w) = false ->
    let s := upd "enc_out_path" (VStr c4) (upd "enc_in_path" (VStr c3) (upd "dec_out_path" (VStr c2) (upd "dec_in_path" (VStr c1) (upd "in_path" (VStr c0) no_env)))) in
    let fr := ["in_path"; "dec_in_path"; "dec_out_path"; "enc_in_path"; "enc_out_path"] in
    match disk w p0 with
    | None => block dir call fuel (test_body a b) fr s w = Failed w
    | Some file =>
        match load_file index_line file with
        | None => block dir call fuel (test_body a b) fr s w = Failed (has_read p0 w)
        | Some l =>
            let table := sort pair_leb l in
            let '(x, y, ok) := write_lines (lines table) [] [] in
            if ok then
              let '(x', y', ok) := write_lines (lines' table) [] [] in
              exists w', (forall r, disk w' r = write (write (write (write (disk w) p1 x) p2 y) p3 x') p4 y' r) /\
                if ok then exists s', block dir call fuel (test_body a b) fr s w = Next s' w' else block dir call fuel (test_body a b) fr s w = Failed w'
            else exists w', block dir call fuel (test_body a b) fr s w = Failed w' /\ forall r, disk w' r = write (write (disk w) p1 x) p2 y r
        end
    end.
  Proof.
    intros HA HB c0 c1 c2 c3 c4 p0 p1 p2 p3 p4 w Q0 Q1 Q2 Q3 Q4 W0 R1 R2 R3 R4 W1 W2 W3 W4 s fr. pose proof (load_spec c0 p0 w Q0 W0) as L.
    assert (E : block dir call fuel (test_body a b) fr s w =
      after (g_load [VStr c0] w) (fun v w => block dir call fuel (skipn 1 (test_body a b)) fr (upd "table" v s) w)).
    { unfold test_body. rewrite block_cons, exec_assign. py. rewrite has_load.
      change (s "load_table_file") with (@None value). change (s "in_path") with (Some (VStr c0)). py. destruct (g_load [VStr c0] w) as [v w'|w'| |]; reflexivity. }
    rewrite E, L. clear E L. destruct (disk w p0) as [file|] eqn:D; [|reflexivity]. destruct (load_file index_line file) as [l|]; [|reflexivity].
    cbn [after]. fold (has_read p0 w). set (table := sort pair_leb l). set (w0 := has_read p0 w). unfold test_body. cbn [skipn].
    destruct (among_cons _ _ _ W2) as [D21 W2']. destruct (among_cons _ _ _ W3) as [D32 W3']. destruct (among_cons _ _ _ W4) as [D43 W4'].
    rewrite block_cons, (opens_ok _ _ c1 p1) by (reflexivity || assumption). cbn [seq_].
    rewrite block_cons, (opens_ok _ _ c2 p2) by (reflexivity || assumption). cbn [seq_]. rewrite block_app.
    set (s1 := upd "decode_out_file" _ _). set (w1 := opened p2 (opened p1 w0)).
    assert (F1 : has_file p1 w1) by (exists []; cbn [w1 opened disk]; rewrite write_other, write_same by congruence; reflexivity).
    assert (F2 : has_file p2 w1) by (exists []; cbn [w1 opened disk]; apply write_same).
    pose proof (HA p1 p2 s1 table fr s1 w1 ltac:(congruence) eq_refl eq_refl eq_refl) as A. unfold wrote in A.
    destruct (write_lines (lines table) [] []) as [[x y] ok]. destruct A as (w2 & T2 & O2); try assumption.
    { intros z Hz. cbn [existsb] in Hz. repeat (apply orb_prop in Hz; destruct Hz as [Hz|Hz]; [apply String.eqb_eq in Hz; subst z; reflexivity|]). discriminate. }
    { intros z _. reflexivity. }
    destruct (opened_two _ _ _ _ _ _ (not_eq_sym D21) T2) as (K2 & RD2 & WR2). destruct ok; [|rewrite O2; exists w2; split; [reflexivity|exact K2]].
    destruct O2 as (s2 & -> & S2). cbn [seq_].
    rewrite block_cons, (opens_ok _ _ c3 p3); [| | |exact Q3| |]; [|rewrite S2; reflexivity|rewrite S2; reflexivity|rewrite RD2; exact R3|rewrite WR2; exact W3]. cbn [seq_].
    rewrite block_cons, (opens_ok _ _ c4 p4); [| | |exact Q4| |]; [|unfold upd at 1; cbn [String.eqb Ascii.eqb Bool.eqb]; rewrite S2; reflexivity|unfold upd at 1; cbn [String.eqb Ascii.eqb Bool.eqb]; rewrite S2; reflexivity|
      cbn [opened reads]; rewrite RD2; exact R4|cbn [opened writes]; rewrite WR2; exact W4]. cbn [seq_].
    set (s3 := upd "encode_out_file" _ _). set (w3 := opened p4 (opened p3 w2)).
    assert (F3 : has_file p3 w3) by (exists []; cbn [w3 opened disk]; rewrite write_other, write_same by congruence; reflexivity).
    assert (F4 : has_file p4 w3) by (exists []; cbn [w3 opened disk]; apply write_same).
    pose proof (HB p3 p4 s3 table fr s3 w3 ltac:(congruence) eq_refl eq_refl) as B. unfold wrote in B.
    destruct (write_lines (lines' table) [] []) as [[x' y'] ok]. destruct B as (w4 & T4 & O4); try assumption.
    { unfold s3, upd. cbn [String.eqb Ascii.eqb Bool.eqb]. rewrite S2; reflexivity. }
    { intros z Hz. cbn [existsb] in Hz. repeat (apply orb_prop in Hz; destruct Hz as [Hz|Hz]; [apply String.eqb_eq in Hz; subst z; unfold s3, upd; cbn [String.eqb Ascii.eqb Bool.eqb]; rewrite S2; reflexivity|]). discriminate. }
    { intros z _. reflexivity. }
    destruct (opened_two _ _ _ _ _ _ (not_eq_sym D43) T4) as (K4 & _ & _). exists w4. split.
    - intros r. rewrite K4. apply write_ext. intros r'. apply write_ext. exact K2.
    - destruct ok; [destruct O4 as (s4 & -> & _); exists s4; reflexivity|exact O4].
  Qed.
End Test.
