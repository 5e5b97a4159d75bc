(* The tests in /repo/tests/big5.rs and /repo/tests/shiftjis.rs: what they do on all contents of the files that they read. *)
From Coq Require Import List NArith Arith Bool String Lia.
From Verif Require Import Prelude RustCore Encodings Types TabBig5 TabSjis ModelApi FileTests.
From Verif Require Import RustSyntax RustEval RustProgram RustLink SourceCrate SourceWhatwg SourceAst SourceApi SourceTests RustRules Tac.
From Verif Require Import ProofUtf8 ProofApi ProofSrc ProofSrcUtf8 ProofSrcAll ProofSrcLink ProofSrcTests ProofSrcTestsRun.
From Verif Require ModelTests.
From Verif Require Import Spec.
Import ListNotations.
Local Open Scope string_scope.
Local Open Scope N_scope.
Local Open Scope list_scope.

Definition let_out (c : string) : stmt :=
  SLet (PVar "buf") None (EMacro "vec" [ERepeat (ELit (LInt 0 "u8")) (EMethod (EPath [c]) "len" [])]).
Definition encode_file_fn (e : encoding) (c_in c_out x : string) : fn :=
  Fn [] None (EBlock
    [let_out c_out;
     SLet (PTuple [PVar x; PWild]) None
       (EMethod (enc_call ["encode_from_str"] e (EMethod (ECall ["std"; "str"; "from_utf8"] [EPath [c_in]]) "unwrap" []) true) "unwrap" []);
     SExpr (EMacro "assert_eq" [EPath [c_out]; EPath [x]])] None).
Definition decode_file_fn (e : encoding) (c_in c_out x : string) : fn :=
  Fn [] None (EBlock
    [let_out c_out;
     SLet (PTuple [PVar x; PWild]) None (EMethod (dec_call ["decode_to_str"] e (EPath [c_in]) true) "unwrap" []);
     SExpr (EMacro "assert_eq" [EPath [c_out]; EMethod (EPath [x]) "as_bytes" []])] None).

Lemma same_bytes_dec a b : same (VBytes a) (VBytes b) = if list_eq_dec N.eq_dec a b then true else false.
Proof. reflexivity. Qed.
Lemma utf8_of_valid l : bytes l -> utf8_valid_up_to l = List.length l -> exists cs, text cs /\ l = utf8 cs.
Proof.
  intros B V. destruct (valid_up_to_split l B) as (cs & r & T & E & E1 & _). exists cs. split; [exact T|].
  rewrite E in V at 2. rewrite E1, app_length in V. destruct r; [rewrite app_nil_r in E; exact E|cbn in V; lia].
Qed.

Lemma let_panic max ev tail p t e ss r : ev e r = Panic -> statements max ev tail (SLet p t e :: ss) r = Panic.
Proof. intros H. cbn [statements]. rewrite H. reflexivity. Qed.

Section Run.
Variables (max : N) (prog : program) (fuel d : nat) (e : encoding) (c_in c_out x : string) (bin bout : list N).
Hypothesis M : 65535 <= max.
Hypothesis U : uses_crate max prog.
Hypothesis const_in : find_const prog [] [c_in] = Some (VBytes bin).
Hypothesis const_out : find_const prog [] [c_out] = Some (VBytes bout).
Hypothesis in_buf : String.eqb c_in "buf" = false.
Hypothesis out_buf : String.eqb c_out "buf" = false.
Hypothesis out_x : String.eqb c_out x = false.
Hypothesis B : bytes bin.
Hypothesis L_in : N.of_nat (List.length bin) + 4 <= max.
Hypothesis L_out : N.of_nat (List.length bout) + 4 <= max.
Hypothesis F : (List.length bin < fuel)%nat.
Notation ev d := (eval max prog fuel d []).

Lemma unwrap_ev d' r e0 v r1 : ev d' e0 r = Ret (r1, SVal v) -> ev (S d') (EMethod e0 "unwrap" []) r = value_of r1 (core_method v "unwrap" []).
Proof. intros H. rewrite ev_method by reflexivity. rewrite H. reflexivity. Qed.
Lemma let_out_ev d' ss r : lookup c_out r = None ->
  statements max (ev (4 + d')) None (let_out c_out :: ss) r = statements max (ev (4 + d')) None ss (("buf", VBytes (repeat 0 (List.length bout))) :: r).
Proof.
  intros N. unfold let_out. change (4 + d')%nat with (S (S (S (S d')))). eapply let_var with (v := VBytes (repeat 0 (List.length bout))); [|discriminate|reflexivity].
  rewrite ev_vec, ev_repeat, ev_lit. cbn [literal_value int_type is String.eqb Ascii.eqb Bool.eqb eqb then_ value_of bind fst snd].
  change (lit_as max U8 0) with (Ret (VInt U8 0)). unfold value_of at 1, then_ at 1. cbn [bind fst snd].
  rewrite ev_method by reflexivity. rewrite (ev_const _ _ _ _ _ [c_out] _ _ N const_out). cbn [then_ bind fst snd eval_list].
  unfold value_of. cbn. rewrite Nat2N.id. reflexivity.
Qed.

Lemma assert_file d' a l r : lookup c_out r = None -> ev (S d') a r = Ret (r, SVal (VBytes l)) ->
  ev (2 + d') (EMacro "assert_eq" [EPath [c_out]; a]) r = let* u := ModelTests.assert_eq bout l in Ret (r, SVal unit_value).
Proof.
  intros N A. change (2 + d')%nat with (S (S d')). rewrite ev_assert_eq. cbn [eval_list]. rewrite (ev_const _ _ _ _ _ [c_out] _ _ N const_out). cbn [then_ bind fst snd].
  rewrite A. cbn [then_ bind fst snd]. rewrite same_bytes_dec. unfold ModelTests.assert_eq. destruct (list_eq_dec _ _ _); reflexivity.
Qed.

Lemma decode_file_run : find_fn prog [] ["decode_to_str"] = Some ("text_encoding" :: module_of e, decode_fn e) ->
  call max prog fuel (63 + d) [] (decode_file_fn e c_in c_out x) [] =
  let* u := ModelTests.decode_file_test (fun i o => decode_to_str e i o true) bin bout in Ret (unit_value, []).
Proof.
  intros N. unfold call, apply_fn, decode_file_fn. cbn [fn_params fn_body fn_ret bind_params bind].
  change (63 + d)%nat with (S (62 + d)). rewrite ev_block.
  rewrite (let_out_ev (58 + d)) by reflexivity. unfold ModelTests.decode_file_test.
  destruct (decode_total e true bin (repeat 0 (List.length bout)) B) as (res & buf & E).
  change (ModelTests.zeros (List.length bout)) with (repeat 0 (List.length bout)). rewrite E. cbn [bind fst snd].
  assert (D : ev (61 + d) (dec_call ["decode_to_str"] e (EPath [c_in]) true) [("buf", VBytes (repeat 0 (List.length bout)))] =
    Ret ([("buf", VBytes buf)], SVal (decode_value res))).
  { apply (dec_ev max prog fuel d M U e _ _ true bin (repeat 0 (List.length bout)) (res, buf)) with (r1 := [("buf", VBytes (repeat 0 (List.length bout)))]);
      [exact N| |reflexivity|exact B|exact L_in|rewrite repeat_length; exact L_out|exact F|exact E|reflexivity].
    apply (ev_const _ _ _ _ _ [c_in]); [|exact const_in]. cbn [lookup]. rewrite in_buf. reflexivity. }
  destruct res as [[s n]|er].
  - erewrite let_go; [|etransitivity; [exact (unwrap_ev _ _ _ _ _ D)|reflexivity]|apply after_val; eapply let_rest; reflexivity].
    cbn [statements].
    erewrite (assert_file (60 + d) (EMethod (EPath [x]) "as_bytes" []) s); [|cbn [lookup]; rewrite out_x, out_buf; reflexivity|].
    + unfold ModelTests.assert_eq. destruct (list_eq_dec _ _ _); reflexivity.
    + apply (as_bytes_ev max prog fuel). cbn [lookup]. rewrite String.eqb_refl. reflexivity.
  - rewrite let_panic; [reflexivity|]. exact (unwrap_ev _ _ _ _ _ D).
Qed.

Lemma encode_file_run : find_fn prog [] ["encode_from_str"] = Some ("text_encoding" :: module_of e, encode_fn e) ->
  find_fn prog [] ["std"; "str"; "from_utf8"] = None ->
  call max prog fuel (63 + d) [] (encode_file_fn e c_in c_out x) [] =
  let* u := ModelTests.encode_file_test (fun i o => encode_from_str e i o true) bin bout in Ret (unit_value, []).
Proof.
  intros N N1. unfold call, apply_fn, encode_file_fn. cbn [fn_params fn_body fn_ret bind_params bind].
  change (63 + d)%nat with (S (62 + d)). rewrite ev_block.
  rewrite (let_out_ev (58 + d)) by reflexivity. unfold ModelTests.encode_file_test, ModelTests.from_utf8_unwrap.
  set (r := [("buf", VBytes (repeat 0 (List.length bout)))]).
  assert (C : forall d', ev (3 + d') (EMethod (ECall ["std"; "str"; "from_utf8"] [EPath [c_in]]) "unwrap" []) r =
    if (utf8_valid_up_to bin =? List.length bin)%nat then Ret (r, SVal (VStr bin)) else Panic).
  { intros d'. change (3 + d')%nat with (S (S (S d'))). destruct (Nat.eqb_spec (utf8_valid_up_to bin) (List.length bin)) as [V|V].
    - apply (unwrap_ev _ r _ (VCon "Ok" [VStr bin]) r). rewrite (ev_core _ _ _ _ _ _ _ _ _ _ _ N1 eq_refl). cbn [eval_list].
      rewrite (ev_const _ _ _ _ _ [c_in] _ (VBytes bin)); [|cbn [r lookup]; rewrite in_buf; reflexivity|exact const_in].
      cbn [then_ bind fst snd]. rewrite from_utf8_valid by exact V. reflexivity.
    - apply (unwrap_ev _ r _ (VCon "Err" [VStruct "Utf8Error" [("valid_up_to", usize (utf8_valid_up_to bin))]]) r). rewrite (ev_core _ _ _ _ _ _ _ _ _ _ _ N1 eq_refl). cbn [eval_list].
      rewrite (ev_const _ _ _ _ _ [c_in] _ (VBytes bin)); [|cbn [r lookup]; rewrite in_buf; reflexivity|exact const_in].
      cbn [then_ bind fst snd]. rewrite from_utf8_invalid by exact V. reflexivity. }
  destruct (Nat.eqb_spec (utf8_valid_up_to bin) (List.length bin)) as [V|V].
  - destruct (utf8_of_valid bin B V) as (cs & T & Eb). cbn [bind].
    destruct (encode_total e true cs (repeat 0 (List.length bout)) T) as (res & buf & E). rewrite <- Eb in E.
    change (ModelTests.zeros (List.length bout)) with (repeat 0 (List.length bout)). rewrite E. cbn [bind fst snd].
    assert (D : ev (61 + d) (enc_call ["encode_from_str"] e (EMethod (ECall ["std"; "str"; "from_utf8"] [EPath [c_in]]) "unwrap" []) true) r =
      Ret ([("buf", VBytes buf)], SVal (encode_value res))).
    { apply (enc_ev max prog fuel d M U e _ _ true cs (repeat 0 (List.length bout)) (res, buf)) with (r1 := r); rewrite <- ?Eb;
        [exact N|exact (C (57 + d)%nat)|reflexivity|exact T|exact L_in|rewrite repeat_length; exact L_out|exact F|exact E|reflexivity]. }
    destruct res as [[s n]|er].
    + erewrite let_go; [|etransitivity; [exact (unwrap_ev _ _ _ _ _ D)|reflexivity]|apply after_val; eapply let_rest; reflexivity].
      cbn [statements].
      erewrite (assert_file (60 + d) (EPath [x]) s); [|cbn [lookup]; rewrite out_x, out_buf; reflexivity|].
      * unfold ModelTests.assert_eq. destruct (list_eq_dec _ _ _); reflexivity.
      * apply ev_var. cbn [lookup]. rewrite String.eqb_refl. reflexivity.
    + rewrite let_panic; [reflexivity|]. exact (unwrap_ev _ _ _ _ _ D).
  - rewrite let_panic; [reflexivity|]. unfold enc_call.
    change (4 + (58 + d))%nat with (S (S (60 + d))). rewrite ev_method by reflexivity. rewrite (ev_call _ _ _ _ _ _ _ _ _ _ N). cbn [eval_list].
    change (60 + d)%nat with (3 + (57 + d))%nat. rewrite (C (57 + d)%nat). reflexivity.
Qed.
End Run.

(** ** The two files *)

Definition big5_items : list RustSyntax.item := Eval vm_compute in read tests_big5_rs.
Lemma big5_items_ok : read tests_big5_rs = big5_items.
Proof. vm_cast_no_check (eq_refl big5_items). Qed.
Definition shiftjis_items : list RustSyntax.item := Eval vm_compute in read tests_shiftjis_rs.
Lemma shiftjis_items_ok : read tests_shiftjis_rs = shiftjis_items.
Proof. vm_cast_no_check (eq_refl shiftjis_items). Qed.

Definition big5_enc_fn := encode_file_fn Big5WHATWG "WHATWG_ENCODE_UTF8_DATA" "WHATWG_ENCODE_BIG5_DATA" "big5".
Definition big5_dec_fn := decode_file_fn Big5WHATWG "WHATWG_DECODE_BIG5_DATA" "WHATWG_DECODE_UTF8_DATA" "utf8".
Definition shiftjis_enc_fn := encode_file_fn ShiftJISWHATWG "WHATWG_ENCODE_UTF8_DATA" "WHATWG_ENCODE_SHIFTJIS_DATA" "shiftjis".
Definition shiftjis_dec_fn := decode_file_fn ShiftJISWHATWG "WHATWG_DECODE_SHIFTJIS_DATA" "WHATWG_DECODE_UTF8_DATA" "utf8".
Lemma big5_tests : tests_of big5_items = [("big5_whatwg_encode", big5_enc_fn); ("big5_whatwg_decode", big5_dec_fn)].
Proof. reflexivity. Qed.
Lemma shiftjis_tests : tests_of shiftjis_items = [("shiftjis_whatwg_encode", shiftjis_enc_fn); ("shiftjis_whatwg_decode", shiftjis_dec_fn)].
Proof. reflexivity. Qed.

Section Names.
Variables d1 : list N.
Variables e1 : list (N * (N * N)).
Variables d2 : list N.
Variables e2 : list (N * (N * N)).
Variable max : N.
Let prog items := link "text_encoding" (program_of max (crate_with (whatwg_items d1 e1) (whatwg_items d2 e2))) items.
Lemma big5_find : find_fn (prog big5_items) [] ["encode_from_str"] = Some ("text_encoding" :: module_of Big5WHATWG, encode_fn Big5WHATWG) /\
  find_fn (prog big5_items) [] ["decode_to_str"] = Some ("text_encoding" :: module_of Big5WHATWG, decode_fn Big5WHATWG) /\
  find_fn (prog big5_items) [] ["std"; "str"; "from_utf8"] = None.
Proof. repeat split; vm_compute; reflexivity. Qed.
Lemma shiftjis_find : find_fn (prog shiftjis_items) [] ["encode_from_str"] = Some ("text_encoding" :: module_of ShiftJISWHATWG, encode_fn ShiftJISWHATWG) /\
  find_fn (prog shiftjis_items) [] ["decode_to_str"] = Some ("text_encoding" :: module_of ShiftJISWHATWG, decode_fn ShiftJISWHATWG) /\
  find_fn (prog shiftjis_items) [] ["std"; "str"; "from_utf8"] = None.
Proof. repeat split; vm_compute; reflexivity. Qed.
End Names.

Definition fits (max : N) (fuel : nat) (l : list N) : Prop := bytes l /\ N.of_nat (List.length l) + 4 <= max /\ (List.length l < fuel)%nat.

Lemma big5_runs max file fuel d : 65535 <= max -> (forall p, fits max fuel (file p)) ->
  call max (test_program max file big5_items) fuel (63 + d) [] big5_enc_fn [] =
  (let* u := ModelTests.big5_whatwg_encode (file "test_data/whatwg/big5_whatwg_test_encode_in.txt") (file "test_data/whatwg/big5_whatwg_test_encode_out.txt") in Ret (unit_value, [])) /\
  call max (test_program max file big5_items) fuel (63 + d) [] big5_dec_fn [] =
  (let* u := ModelTests.big5_whatwg_decode (file "test_data/whatwg/big5_whatwg_test_decode_in.txt") (file "test_data/whatwg/big5_whatwg_test_decode_out.txt") in Ret (unit_value, [])).
Proof.
  intros M F.
  assert (N : find_fn (test_program max file big5_items) = find_fn (link "text_encoding" (source max) big5_items)) by (unfold test_program; rewrite source_ok; reflexivity).
  destruct (big5_find big5_decode_table big5_encode_table sjis_decode_table sjis_encode_table max) as (N1 & N2 & N3).
  split.
  - apply (encode_file_run max (test_program max file big5_items) fuel d Big5WHATWG "WHATWG_ENCODE_UTF8_DATA" "WHATWG_ENCODE_BIG5_DATA" "big5" (file "test_data/whatwg/big5_whatwg_test_encode_in.txt") (file "test_data/whatwg/big5_whatwg_test_encode_out.txt") M (test_uses_crate max file _) eq_refl eq_refl eq_refl eq_refl eq_refl
      (proj1 (F _)) (proj1 (proj2 (F _))) (proj1 (proj2 (F _))) (proj2 (proj2 (F _)))); rewrite N; [exact N1|exact N3].
  - apply (decode_file_run max (test_program max file big5_items) fuel d Big5WHATWG "WHATWG_DECODE_BIG5_DATA" "WHATWG_DECODE_UTF8_DATA" "utf8" (file "test_data/whatwg/big5_whatwg_test_decode_in.txt") (file "test_data/whatwg/big5_whatwg_test_decode_out.txt") M (test_uses_crate max file _) eq_refl eq_refl eq_refl eq_refl eq_refl
      (proj1 (F _)) (proj1 (proj2 (F _))) (proj1 (proj2 (F _))) (proj2 (proj2 (F _)))); rewrite N; exact N2.
Qed.
Lemma shiftjis_runs max file fuel d : 65535 <= max -> (forall p, fits max fuel (file p)) ->
  call max (test_program max file shiftjis_items) fuel (63 + d) [] shiftjis_enc_fn [] =
  (let* u := ModelTests.shiftjis_whatwg_encode (file "test_data/whatwg/shiftjis_whatwg_test_encode_in.txt") (file "test_data/whatwg/shiftjis_whatwg_test_encode_out.txt") in Ret (unit_value, [])) /\
  call max (test_program max file shiftjis_items) fuel (63 + d) [] shiftjis_dec_fn [] =
  (let* u := ModelTests.shiftjis_whatwg_decode (file "test_data/whatwg/shiftjis_whatwg_test_decode_in.txt") (file "test_data/whatwg/shiftjis_whatwg_test_decode_out.txt") in Ret (unit_value, [])).
Proof.
  intros M F.
  assert (N : find_fn (test_program max file shiftjis_items) = find_fn (link "text_encoding" (source max) shiftjis_items)) by (unfold test_program; rewrite source_ok; reflexivity).
  destruct (shiftjis_find big5_decode_table big5_encode_table sjis_decode_table sjis_encode_table max) as (N1 & N2 & N3).
  split.
  - apply (encode_file_run max (test_program max file shiftjis_items) fuel d ShiftJISWHATWG "WHATWG_ENCODE_UTF8_DATA" "WHATWG_ENCODE_SHIFTJIS_DATA" "shiftjis" (file "test_data/whatwg/shiftjis_whatwg_test_encode_in.txt") (file "test_data/whatwg/shiftjis_whatwg_test_encode_out.txt") M (test_uses_crate max file _) eq_refl eq_refl eq_refl eq_refl eq_refl
      (proj1 (F _)) (proj1 (proj2 (F _))) (proj1 (proj2 (F _))) (proj2 (proj2 (F _)))); rewrite N; [exact N1|exact N3].
  - apply (decode_file_run max (test_program max file shiftjis_items) fuel d ShiftJISWHATWG "WHATWG_DECODE_SHIFTJIS_DATA" "WHATWG_DECODE_UTF8_DATA" "utf8" (file "test_data/whatwg/shiftjis_whatwg_test_decode_in.txt") (file "test_data/whatwg/shiftjis_whatwg_test_decode_out.txt") M (test_uses_crate max file _) eq_refl eq_refl eq_refl eq_refl eq_refl
      (proj1 (F _)) (proj1 (proj2 (F _))) (proj1 (proj2 (F _))) (proj2 (proj2 (F _)))); rewrite N; exact N2.
Qed.
