(* The bodies of the tests in /repo/tests/property_tests.rs, run. *)
From Coq Require Import List NArith Arith Bool String Lia.
From Verif Require Import Prelude RustCore Encodings Types TabBig5 TabSjis ModelApi ModelWord FileTests.
From Verif Require Import RustSyntax RustEval RustProgram RustLink SourceCrate SourceWhatwg SourceAst SourceApi SourceTests RustRules Tac.
From Verif Require Import ProofUtf8 SpecErrors Units Decide Greedy NextDec ProofSession ProofMore ProofApi ProofWord ProofSrc ProofSrcAll ProofSrcLink ProofSrcTests.
From Verif Require ProofTests ProofRound PropRound.
From Verif Require Import Spec.
Import ListNotations.
Local Open Scope string_scope.
Local Open Scope N_scope.
Local Open Scope list_scope.

(** ** Running them *)

Lemma test_uses_crate max file items : uses_crate max (test_program max file items).
Proof. unfold test_program. rewrite source_ok. split; reflexivity. Qed.

Lemma encoded_size e cs all : Encoded e cs all -> (List.length all <= 4 * List.length (utf8 cs))%nat.
Proof.
  intros H. induction H as [|u w cs all Hu Hl H IH]; [cbn; lia|].
  destruct (enc_unit_shape _ _ _ Hu) as (T & L & _ & L'). rewrite utf8_app, !app_length.
  assert (1 <= List.length (utf8 u))%nat.
  { destruct u as [|c u]; [cbn in L; lia|]. rewrite utf8_cons, app_length. pose proof (utf8_char_pos c). lia. }
  lia.
Qed.
Lemma text_size cs : text cs -> (List.length (utf8 cs) <= 4 * List.length cs)%nat.
Proof. intros T. induction T as [|c cs H _ IH]; [cbn; lia|]. rewrite utf8_cons, app_length. pose proof (utf8_char_pos c). cbn [List.length]. lia. Qed.

Lemma ev_assert_eq max prog fuel d m args r : eval max prog fuel (S d) m (EMacro "assert_eq" args) r =
  eval_list (eval max prog fuel d m) args r (fun r vs =>
    match vs with
    | [a; b] => if same a b then Ret (r, SVal unit_value) else Panic
    | _ => stuck
    end).
Proof. reflexivity. Qed.
Lemma ev_vec max prog fuel d m e r : eval max prog fuel (S d) m (EMacro "vec" [e]) r = eval max prog fuel d m e r.
Proof. reflexivity. Qed.

Section Run.
Variables (max : N) (prog : program) (fuel d : nat).
Hypothesis M : 65535 <= max.
Hypothesis U : uses_crate max prog.
Hypothesis enc_names : forall e, find_fn prog [] (enc_name e) = Some ("text_encoding" :: module_of e, encode_fn e).
Hypothesis dec_names : forall e, find_fn prog [] (dec_name e) = Some ("text_encoding" :: module_of e, decode_fn e).
Hypothesis no_vec : find_fn prog [] ["Vec"; "new"] = None.
Hypothesis no_string : find_fn prog [] ["String"; "new"] = None.
Notation ev d := (eval max prog fuel d []).

Lemma zeros_ev d' n r : ev (2 + d') (zeros n) r = Ret (r, SVal (VBytes (repeat 0 (N.to_nat n)))).
Proof. unfold zeros. change (2 + d')%nat with (S (S d')). rewrite ev_repeat, !ev_lit. reflexivity. Qed.
Lemma vec_zeros_ev d' n r : ev (3 + d') (EMacro "vec" [zeros n]) r = Ret (r, SVal (VBytes (repeat 0 (N.to_nat n)))).
Proof. rewrite <- (zeros_ev d' n r). apply ev_vec. Qed.
Lemma vec_new_ev d' r : ev (S d') (ECall ["Vec"; "new"] []) r = Ret (r, SVal (VArr [])).
Proof. rewrite (ev_core _ _ _ _ _ _ _ _ _ _ _ no_vec eq_refl). reflexivity. Qed.
Lemma string_new_ev d' r : ev (S d') (ECall ["String"; "new"] []) r = Ret (r, SVal (VStr [])).
Proof. rewrite (ev_core _ _ _ _ _ _ _ _ _ _ _ no_string eq_refl). reflexivity. Qed.
Lemma all_str_ev d' x cs r : text cs -> lookup x r = Some (VStr (utf8 cs)) -> ev (3 + d') (all_of x) r = Ret (r, SVal (VStr (utf8 cs))).
Proof.
  intros T L. unfold all_of. change (3 + d')%nat with (S (S (S d'))). rewrite ev_ref, ev_index, (ev_var _ _ _ _ _ _ _ _ L).
  cbn [then_ bind fst snd]. rewrite ev_range. unfold eval_opt. cbn [then_ bind fst snd]. rewrite str_all by exact T. reflexivity.
Qed.
Lemma all_bytes_ev d' x l r : lookup x r = Some (VBytes l) -> ev (3 + d') (all_of x) r = Ret (r, SVal (VBytes l)).
Proof.
  intros L. unfold all_of. change (3 + d')%nat with (S (S (S d'))). rewrite ev_ref, ev_index, (ev_var _ _ _ _ _ _ _ _ L).
  cbn [then_ bind fst snd]. rewrite ev_range. unfold eval_opt. cbn [then_ bind fst snd]. rewrite bytes_all. reflexivity.
Qed.
Lemma as_bytes_ev d' x l r : lookup x r = Some (VStr l) -> ev (3 + d') (EMethod (EPath [x]) "as_bytes" []) r = Ret (r, SVal (VBytes l)).
Proof. intros L. change (3 + d')%nat with (S (S (S d'))). rewrite ev_method by reflexivity. rewrite (ev_var _ _ _ _ _ _ _ _ L). reflexivity. Qed.
Lemma same_refl v : (exists l, v = VStr l \/ v = VBytes l) -> same v v = true.
Proof. intros (l & [-> | ->]); cbn [same]; destruct (list_eq_dec N.eq_dec l l); congruence. Qed.
Lemma assert_ev d' a b v r : (exists l, v = VStr l \/ v = VBytes l) -> ev d' a r = Ret (r, SVal v) -> ev d' b r = Ret (r, SVal v) ->
  ev (S d') (EMacro "assert_eq" [a; b]) r = Ret (r, SVal unit_value).
Proof. intros V A B. rewrite ev_assert_eq. cbn [eval_list]. rewrite A. cbn [then_ bind fst snd]. rewrite B. cbn [then_ bind fst snd]. rewrite same_refl by exact V. reflexivity. Qed.

Lemma let_var d' tail x e ss r r1 v y : ev d' e r = Ret (r1, SVal v) -> (forall n, v <> VLit n) ->
  statements max (ev d') tail ss ((x, v) :: r1) = y -> statements max (ev d') tail (SLet (PVar x) None e :: ss) r = y.
Proof.
  intros E V H. eapply let_go; [exact E|]. apply after_val. eapply let_rest; [|reflexivity|reflexivity|exact H].
  unfold let_value. destruct e; try reflexivity. destruct l as [n []| | | |]; try reflexivity. destruct v; try reflexivity. edestruct V; reflexivity.
Qed.
Lemma expr_stmt d' tail e ss r r1 v y : ev d' e r = Ret (r1, SVal v) -> statements max (ev d') tail ss r1 = y -> statements max (ev d') tail (SExpr e :: ss) r = y.
Proof. intros E H. eapply expr_go; [exact E|]. apply after_val. exact H. Qed.
Lemma vec_stmt d' tail x ss r y : statements max (ev (S d')) tail ss ((x, VBytes []) :: r) = y -> statements max (ev (S d')) tail (let_vec x :: ss) r = y.
Proof. intros H. unfold let_vec. eapply let_go; [apply vec_new_ev|]. apply after_val. eapply let_rest; [reflexivity|reflexivity|reflexivity|exact H]. Qed.

Definition good_name (x : string) : Prop := In x ["utf8_encoded"; "utf16"; "utf32"; "ascii"; "latin1"; "iso8859_7"].
Definition assert_ok (cs all : list N) (x : string) (s : stmt) : Prop :=
  forall d' buf, exists e, s = SExpr e /\
    forall r, r = [("tmp", VBytes []); ("tmp", VStr []); ("utf8", VStr (utf8 cs)); (x, VBytes all); ("buf", VBytes buf); ("text", VStr (utf8 cs))] ->
      ev (4 + d') e r = Ret (r, SVal unit_value).
Lemma asserts_go d' cs all x ss buf : Forall (assert_ok cs all x) ss ->
  forall r, r = [("tmp", VBytes []); ("tmp", VStr []); ("utf8", VStr (utf8 cs)); (x, VBytes all); ("buf", VBytes buf); ("text", VStr (utf8 cs))] ->
  statements max (ev (4 + d')) None ss r = Ret (r, SVal unit_value).
Proof.
  intros H r ->. induction H as [|s ss A _ IH]; [reflexivity|]. destruct (A d' buf) as (e & -> & E). eapply expr_stmt; [apply E; reflexivity|exact IH].
Qed.

Ltac names := match goal with H : good_name _ |- _ => cbn [good_name In] in H; intuition (subst; reflexivity) end.
Lemma unicode_ok e x asserts cs all : good_name x -> text cs -> Encoded e cs all -> Decoded e all cs -> Forall (assert_ok cs all x) asserts ->
  4 * N.of_nat (List.length (utf8 cs)) + 4 <= max -> (4 * List.length (utf8 cs) < fuel)%nat ->
  exists r, ev (65 + d) (unicode_body e x asserts) [("text", VStr (utf8 cs))] = Ret (r, SVal unit_value).
Proof.
  intros X T HE HD A L F. pose proof (encoded_size _ _ _ HE) as La.
  pose (mk1 := fun t a b : list N => [("tmp", VStr t); ("utf8", VStr []); (x, VBytes a); ("buf", VBytes b); ("text", VStr (utf8 cs))]).
  destruct (enc_loop_ev max prog fuel d M U x ltac:(names) mk1) with (p := enc_name e) (e := e) (msg := enc_msg) (cs := cs) (all := all) (a := @nil N) (buf := repeat 0 32)
    as (buf & E1 & Lb); try (intros; unfold mk1; names); try (intros; reflexivity).
  all: try (apply enc_names); try (apply dec_names); try eassumption; try (rewrite ?repeat_length; lia).
  rewrite repeat_length in Lb.
  pose (mk2 := fun t a b : list N => [("tmp", VBytes t); ("tmp", VStr []); ("utf8", VStr a); (x, VBytes all); ("buf", VBytes b); ("text", VStr (utf8 cs))]).
  destruct (dec_loop_ev max prog fuel d M U "utf8" eq_refl mk2) with (p := dec_name e) (e := e) (msg := dec_msg) (bs := all) (all := cs) (a := @nil N) (buf := buf)
    as (buf2 & E2 & _); try (intros; unfold mk2; names); try (intros; reflexivity).
  all: try (apply enc_names); try (apply dec_names); try eassumption; try (rewrite ?repeat_length; lia).
  eexists. unfold unicode_body. change (65 + d)%nat with (S (64 + d)). rewrite ev_block. eapply scoped_go; [|reflexivity|reflexivity]. cbn [app].
  eapply let_var; [apply (zeros_ev (62 + d))|discriminate|]. apply vec_stmt.
  eapply let_var; [apply (string_new_ev (63 + d))|discriminate|].
  eapply let_var; [eapply (all_str_ev (61 + d)); [exact T|names]|discriminate|].
  eapply expr_stmt; [exact E1|]. unfold mk1. cbn [app].
  eapply let_var; [eapply (all_bytes_ev (61 + d)); names|discriminate|].
  eapply expr_stmt; [exact E2|]. unfold mk2. cbn [app].
  eapply expr_stmt.
  { eapply (assert_ev (63 + d)) with (v := VStr (utf8 cs)); [eauto| |]; (eapply (all_str_ev (60 + d)); [exact T|names]). }
  exact (asserts_go (60 + d) cs all x asserts buf2 A _ eq_refl).
Qed.

Lemma single_rest m x cs data buf : good_name x -> (List.length buf = 32)%nat -> Decoded (Single m) data cs -> Encoded (Single m) cs data ->
  N.of_nat (List.length data) + 4 <= max -> N.of_nat (List.length (utf8 cs)) + 4 <= max ->
  (List.length data < fuel)%nat -> (List.length (utf8 cs) < fuel)%nat ->
  exists r, statements max (ev (64 + d)) None
    [let_tmp "data"; SExpr (dec_loop (dec_name (Single m)) (Single m) "utf8" dec_msg);
     let_tmp "utf8"; SExpr (enc_loop (enc_name (Single m)) (Single m) x enc_msg); same_all "data" x]
    [(x, VBytes []); ("utf8", VStr []); ("buf", VBytes buf); ("data", VBytes data)] = Ret (r, SVal unit_value).
Proof.
  intros X Lb HD HE L1 L2 F1 F2. destruct (Encoded_text _ _ _ HE) as [T _].
  pose (mk1 := fun t a b : list N => [("tmp", VBytes t); (x, VBytes []); ("utf8", VStr a); ("buf", VBytes b); ("data", VBytes data)]).
  destruct (dec_loop_ev max prog fuel d M U "utf8" eq_refl mk1) with (p := dec_name (Single m)) (e := Single m) (msg := dec_msg) (bs := data) (all := cs) (a := @nil N) (buf := buf)
    as (buf1 & E1 & Lb1); try (intros; unfold mk1; names); try (intros; reflexivity).
  all: try (apply enc_names); try (apply dec_names); try eassumption; try (rewrite ?repeat_length; lia).
  pose (mk2 := fun t a b : list N => [("tmp", VStr t); ("tmp", VBytes []); (x, VBytes a); ("utf8", VStr (utf8 cs)); ("buf", VBytes b); ("data", VBytes data)]).
  destruct (enc_loop_ev max prog fuel d M U x ltac:(names) mk2) with (p := enc_name (Single m)) (e := Single m) (msg := enc_msg) (cs := cs) (all := data) (a := @nil N) (buf := buf1)
    as (buf2 & E2 & _); try (intros; unfold mk2; names); try (intros; reflexivity).
  all: try (apply enc_names); try (apply dec_names); try eassumption; try (rewrite ?repeat_length; lia).
  eexists.
  eapply let_var; [eapply (all_bytes_ev (61 + d)); names|discriminate|].
  eapply expr_stmt; [exact E1|]. unfold mk1. cbn [app].
  eapply let_var; [eapply (all_str_ev (61 + d)); [exact T|names]|discriminate|].
  eapply expr_stmt; [exact E2|]. unfold mk2. cbn [app].
  eapply expr_stmt.
  { eapply (assert_ev (63 + d)) with (v := VBytes data); [eauto| |]; (eapply (all_bytes_ev (60 + d)); names). }
  reflexivity.
Qed.
Lemma single_ok m x first data data' : good_name x ->
  (forall buf ss y,
     statements max (ev (64 + d)) None ss [(x, VBytes []); ("utf8", VStr []); ("buf", VBytes buf); ("data", VBytes data')] = y ->
     statements max (ev (64 + d)) None (first ++ ss) [(x, VBytes []); ("utf8", VStr []); ("buf", VBytes buf); ("data", VBytes data)] = y) ->
  Forall (ProofTests.defined m) data' ->
  4 * N.of_nat (List.length data') + 4 <= max -> (4 * List.length data' < fuel)%nat ->
  exists r, ev (65 + d) (single_body m x first) [("data", VBytes data)] = Ret (r, SVal unit_value).
Proof.
  intros X Hf Dd L F. destruct (ProofTests.sb_decoded m data' Dd) as (cs & HD & HE).
  assert (Lc : (List.length cs = List.length data')%nat).
  { clear - HD. induction HD as [|w u bs cs Hu H IH]; [reflexivity|]. rewrite !app_length, IH. f_equal.
    destruct Hu as (b & c & _ & -> & ->). reflexivity. }
  destruct (Encoded_text _ _ _ HE) as [T _]. pose proof (text_size cs T) as Ls.
  destruct (single_rest m x cs data' (repeat 0 32) X (repeat_length _ _) HD HE) as (r & E); [lia..|].
  eexists. unfold single_body. change (65 + d)%nat with (S (64 + d)). rewrite ev_block. eapply scoped_go; [|reflexivity|reflexivity]. cbn [app].
  eapply let_var; [apply (zeros_ev (62 + d))|discriminate|].
  eapply let_var; [apply (string_new_ev (63 + d))|discriminate|]. apply vec_stmt.
  apply Hf. exact E.
Qed.

Lemma random_enc_ok e ends cs : text cs -> 4 * N.of_nat (List.length (utf8 cs)) + 4 <= max -> (4 * List.length (utf8 cs) < fuel)%nat ->
  exists r, ev (65 + d) (random_enc e ends) [("text", VStr (utf8 cs))] = Ret (r, SVal unit_value).
Proof.
  intros T L F.
  assert (S : forall buf, List.length buf = 4096%nat -> exists r, statements max (ev (64 + d)) None
    (map (fun b => SLet PWild None (enc_call (enc_name e) e (EPath ["text"]) b)) ends) [("buf", VBytes buf); ("text", VStr (utf8 cs))] = Ret (r, SVal unit_value)).
  { induction ends as [|b ends IH]; intros buf Lb; [eexists; reflexivity|].
    destruct (encode_total e b cs buf T) as (res & buf' & E). destruct (encode_frame _ _ _ _ _ _ T E) as [Lb' _].
    destruct (IH buf') as (r & R); [lia|]. exists r. cbn [map].
    eapply let_go.
    - apply (enc_ev max prog fuel (3 + d) M U e (enc_name e) (EPath ["text"]) b cs buf (res, buf')) with (r1 := [("buf", VBytes buf); ("text", VStr (utf8 cs))]);
        [apply enc_names|apply ev_var; reflexivity|reflexivity|exact T|lia|lia|lia|exact E|reflexivity].
    - apply after_val. eapply let_rest; [|reflexivity|reflexivity|exact R]. destruct res as [[? ?]|?]; reflexivity. }
  destruct (S (repeat 0 4096)) as (r & R); [apply repeat_length|].
  eexists. unfold random_enc. change (65 + d)%nat with (Datatypes.S (64 + d)). rewrite ev_block. eapply scoped_go; [|reflexivity|reflexivity].
  eapply let_var; [apply (vec_zeros_ev (61 + d))|discriminate|]. exact R.
Qed.
Lemma random_dec_ok e ends bs : bytes bs -> 4 * N.of_nat (List.length bs) + 4 <= max -> (4 * List.length bs < fuel)%nat ->
  exists r, ev (65 + d) (random_dec e ends) [("data", VBytes bs)] = Ret (r, SVal unit_value).
Proof.
  intros T L F.
  assert (S : forall buf, List.length buf = 4096%nat -> exists r, statements max (ev (64 + d)) None
    (map (fun b => SLet PWild None (dec_call (dec_name e) e (EPath ["data"]) b)) ends) [("buf", VBytes buf); ("data", VBytes bs)] = Ret (r, SVal unit_value)).
  { induction ends as [|b ends IH]; intros buf Lb; [eexists; reflexivity|].
    destruct (decode_total e b bs buf T) as (res & buf' & E). destruct (decode_frame _ _ _ _ _ _ T E) as [Lb' _].
    destruct (IH buf') as (r & R); [lia|]. exists r. cbn [map].
    eapply let_go.
    - apply (dec_ev max prog fuel (3 + d) M U e (dec_name e) (EPath ["data"]) b bs buf (res, buf')) with (r1 := [("buf", VBytes buf); ("data", VBytes bs)]);
        [apply dec_names|apply ev_var; reflexivity|reflexivity|exact T|lia|lia|lia|exact E|reflexivity].
    - apply after_val. eapply let_rest; [|reflexivity|reflexivity|exact R]. destruct res as [[? ?]|?]; reflexivity. }
  destruct (S (repeat 0 4096)) as (r & R); [apply repeat_length|].
  eexists. unfold random_dec. change (65 + d)%nat with (Datatypes.S (64 + d)). rewrite ev_block. eapply scoped_go; [|reflexivity|reflexivity].
  eapply let_var; [apply (vec_zeros_ev (61 + d))|discriminate|]. exact R.
Qed.
End Run.

(** ** All of them *)

Lemma ev_for_mut max prog fuel d m p e body r x y : for_mut_of p e = Some (x, y) ->
  eval max prog fuel (S d) m (EFor p e body) r = for_mut fuel (eval max prog fuel d m) x y body r.
Proof. intros H. cbn [eval]. rewrite H. reflexivity. Qed.
Lemma replace_ev max prog fuel d' x buf data ss y : (List.length data < fuel)%nat -> bytes data -> good_name x ->
  statements max (eval max prog fuel (10 + d') []) None ss [(x, VBytes []); ("utf8", VStr []); ("buf", VBytes buf); ("data", VBytes (map (fun b => if replaced b then 0 else b) data))] = y ->
  statements max (eval max prog fuel (10 + d') []) None (replace_loop :: ss) [(x, VBytes []); ("utf8", VStr []); ("buf", VBytes buf); ("data", VBytes data)] = y.
Proof.
  intros F B X H. set (r := fun l => [(x, VBytes []); ("utf8", VStr []); ("buf", VBytes buf); ("data", VBytes l)]) in *.
  eapply expr_go; [|apply after_val; exact H].
  unfold replace_loop. change [(x, VBytes []); ("utf8", VStr []); ("buf", VBytes buf); ("data", VBytes data)] with (r data). change (10 + d')%nat with (S (9 + d')). rewrite (ev_for_mut _ _ _ _ _ _ _ _ _ "data" "b") by reflexivity.
  match goal with |- for_mut _ _ _ _ ?b _ = _ => set (body := b) end.
  assert (E : forall b done todo, b < 256 -> for_mut_body (eval max prog fuel (9 + d') []) "b" body (done, b :: todo, r data) =
    Ret (Continue (done ++ [if replaced b then 0 else b], todo, r data))).
  { intros b done todo Hb. unfold for_mut_body.
    assert (P : eval max prog fuel (9 + d') [] body (("b", VInt U8 b) :: r data) = Ret (("b", VInt U8 (if replaced b then 0 else b)) :: r data, SVal unit_value)).
    { unfold body, replaced. change (9 + d')%nat with (S (S (S (S (5 + d'))))). rewrite ev_block.
      eapply scoped_then; [apply leave_same; reflexivity|].
      cbn [statements]. unfold else_.
      assert (C : forall d'' k, k < 256 -> eval max prog fuel (3 + d'') [] (EBin Eq (EDeref (EPath ["b"])) (ELit (LInt k ""))) (("b", VInt U8 b) :: r data) =
        Ret (("b", VInt U8 b) :: r data, SVal (VBool (b =? k)))).
      { intros d'' k Hk. change (3 + d'')%nat with (S (S (S d''))). rewrite ev_bin, ev_deref, (ev_var _ _ _ _ _ _ _ (VInt U8 b)) by reflexivity.
        cbn [then_ bind fst snd]. rewrite ev_lit. cbn [literal_value]. unfold value_of, then_. cbn [bind fst snd int_type]. cbn [literal_value bind fst snd value_of].
        unfold binary, lit_as. cbn [is_shift ity_max]. rewrite (proj2 (N.leb_le k 255)) by lia. reflexivity. }
      eapply ev_if.
      - eapply ev_or; [eapply ev_or; [apply C; lia|eapply or_pure; apply C; lia]|eapply or_pure; apply C; lia].
      - destruct ((b =? 174) || (b =? 210) || (b =? 255)) eqn:R; [|reflexivity].
        rewrite ev_block. reflexivity. }
    rewrite P. cbn [bind fst snd lookup String.eqb Ascii.eqb Bool.eqb eqb]. reflexivity. }
  assert (L : forall todo done n, (List.length todo < n)%nat -> bytes todo ->
    loop n (for_mut_body (eval max prog fuel (9 + d') []) "b" body) (done, todo, r data) = Ret (inl (done ++ map (fun b => if replaced b then 0 else b) todo, [], r data))).
  { induction todo as [|b todo IH]; intros done n Hn Hb; (destruct n as [|n]; [cbn in Hn; lia|]); cbn [loop].
    - cbn [for_mut_body bind map]. rewrite app_nil_r. reflexivity.
    - inversion Hb; subst. rewrite E by assumption. cbn [bind]. rewrite IH; [|cbn in Hn; lia|assumption]. cbn [map]. rewrite <- app_assoc. reflexivity. }
  unfold for_mut. replace (lookup "data" (r data)) with (Some (VBytes data)) by (unfold r; cbn [good_name In] in X; intuition (subst; reflexivity)).
  rewrite L by assumption. cbn [bind app]. replace (assign "data" _ (r data)) with (Ret (r (map (fun b => if replaced b then 0 else b) data))) by (unfold r; cbn [good_name In] in X; intuition (subst; reflexivity)).
  reflexivity.
Qed.
