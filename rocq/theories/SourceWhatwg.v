(* The two files of tables in /repo/src/generated/whatwg, read as Rust: the items they contain.  (They are too long to be parsed
   by computation in every check of the proofs; it is proved for every file that the scripts of encoding_tables/whatwg write.) *)
From Coq Require Import List NArith Arith Bool String Ascii Lia.
From Verif Require Import Prelude RustCore Tac FileText FileBig5 FileSjis TabBig5 TabSjis.
From Verif Require SpecFiles ModelGen ModelScripts ProofFiles ProofScripts PropScripts.
From Verif Require Import RustSyntax RustLex RustParse.
Import ListNotations.
Local Open Scope string_scope.
Local Open Scope N_scope.
Local Open Scope list_scope.

Definition lit_char (c : N) : expr := ELit (LChar c).
Definition lit_pair (e : N * (N * N)) : expr := ETuple [ELit (LChar (fst e)); EArr [ELit (LInt (fst (snd e)) ""); ELit (LInt (snd (snd e)) "")]].
Definition char_ty : ty := TyPath ["char"] [].
Definition pair_ty : ty := TyTuple [char_ty; TyArr (TyPath ["u8"] []) 2].
Definition whatwg_items (dec : list N) (enc : list (N * (N * N))) : list item :=
  [IConst "DECODE_TABLE" (TyArr char_ty (N.of_nat (List.length dec))) (EArr (map lit_char dec));
   IConst "ENCODE_TABLE" (TyArr pair_ty (N.of_nat (List.length enc))) (EArr (map lit_pair enc))].

(** ** Tokens *)

Inductive Run : list N -> list token -> list N -> Prop :=
| Run_end bs : Run bs [] bs
| Run_token bs t r ts s : next bs = Some (Some t, r) -> (List.length r < List.length bs)%nat -> Run r ts s -> Run bs (t :: ts) s
| Run_skip bs r ts s : next bs = Some (None, r) -> (List.length r < List.length bs)%nat -> Run r ts s -> Run bs ts s.

Lemma run_app a ts b us c : Run a ts b -> Run b us c -> Run a (ts ++ us) c.
Proof.
  induction 1 as [|bs t r ts s H L R IH|bs r ts s H L R IH]; intros Q; [exact Q| |].
  - exact (Run_token _ _ _ _ _ H L (IH Q)).
  - exact (Run_skip _ _ _ _ H L (IH Q)).
Qed.
Lemma run_lex bs ts s : Run bs ts s -> s = [] -> forall f, (List.length bs < f)%nat -> lex f bs = Some ts.
Proof.
  induction 1 as [|bs t r ts s H L R IH|bs r ts s H L R IH]; intros -> f Hf; (destruct f as [|f]; [lia|]).
  - reflexivity.
  - destruct bs; [discriminate H|]. cbn [lex]. rewrite H, IH by (reflexivity || lia). reflexivity.
  - destruct bs; [discriminate H|]. cbn [lex]. rewrite H. apply IH; [reflexivity|lia].
Qed.

Lemma digits_step base acc c d r : digit_value c = Some d -> d < base -> digits base acc (c :: r) = digits base (acc * base + d) r.
Proof.
  intros H L. apply N.ltb_lt in L. cbn [digits].
  destruct c as [|p]; [rewrite H, L; reflexivity|].
  do 7 (destruct p as [p|p|]; try (rewrite H, L; reflexivity)). discriminate H.
Qed.
Lemma digits_all base ds c r : Forall (fun c => SpecFiles.is_digit base c = true) ds -> digit_value c = None -> c <> 95 -> forall acc,
  digits base acc (ds ++ c :: r) = (fold_left (fun n c => n * base + match SpecFiles.digit_of c with Some d => d | None => 0 end) ds acc, c :: r).
Proof.
  intros F Hc Hn. induction F as [|x ds H F IH]; intros acc; cbn [app fold_left].
  - cbn [digits]. destruct c as [|p]; [rewrite Hc; reflexivity|].
    do 7 (destruct p as [p|p|]; try (rewrite Hc; reflexivity)). contradiction.
  - unfold SpecFiles.is_digit in H. destruct (SpecFiles.digit_of x) as [d|] eqn:E; [|discriminate H]. apply N.ltb_lt in H.
    rewrite (digits_step base acc x d); [apply IH|exact E|exact H].
Qed.
Lemma hex_digits w n c r : (w <= 6)%nat -> n < 0x1000000 -> digit_value c = None -> c <> 95 ->
  digits 16 0 (ModelScripts.py_hex w n ++ c :: r) = (n, c :: r).
Proof.
  intros Hw Hn Hc Hu. destruct (ProofScripts.py_hex_ok w n Hw Hn) as [(_ & D & V) _].
  rewrite (digits_all 16 _ c r D Hc Hu 0). unfold SpecFiles.value in V. rewrite V. reflexivity.
Qed.

Lemma next_char w n r : (w <= 6)%nat -> n < 0x1000000 ->
  next (39 :: 92 :: 117 :: 123 :: ModelScripts.py_hex w n ++ 125 :: 39 :: r) = Some (Some (TChar n), r).
Proof. intros Hw Hn. cbn [next quote escape]. rewrite hex_digits by (assumption || reflexivity || lia). reflexivity. Qed.
Lemma next_hex w n c r : (w <= 6)%nat -> n < 0x1000000 -> digit_value c = None -> is_ident c = false ->
  next (48 :: 120 :: ModelScripts.py_hex w n ++ c :: r) = Some (Some (TNum n ""), c :: r).
Proof.
  intros Hw Hn Hc Hi. assert (Hu : c <> 95) by (intros ->; discriminate Hi).
  cbn -[ModelScripts.py_hex digits ident]. rewrite hex_digits by assumption. cbn [ident]. rewrite Hi. reflexivity.
Qed.

(* the bytes of a text of ASCII characters *)
Lemma ascii_bytes cs : Forall (fun c => c < 128) cs -> flat_map encode_utf8 cs = cs.
Proof.
  induction 1 as [|c cs H F IH]; [reflexivity|]. cbn [flat_map]. rewrite IH. unfold encode_utf8.
  destruct (N.ltb_spec c 0x80); [|lia]. unfold as_u8. rewrite N.mod_small by lia. reflexivity.
Qed.
Lemma digit_ascii base c : SpecFiles.is_digit base c = true -> c < 128.
Proof.
  unfold SpecFiles.is_digit, SpecFiles.digit_of. repeat match goal with |- context [if ?b then _ else _] => destruct b eqn:? end; try discriminate; lia.
Qed.
Lemma hex_bytes w n : (w <= 6)%nat -> n < 0x1000000 -> flat_map encode_utf8 (ModelScripts.py_hex w n) = ModelScripts.py_hex w n.
Proof.
  intros Hw Hn. destruct (ProofScripts.py_hex_ok w n Hw Hn) as [(_ & D & _) _]. apply ascii_bytes. eapply Forall_impl; [|exact D]. intros c. apply digit_ascii.
Qed.
Lemma dec_bytes n : flat_map encode_utf8 (ModelScripts.py_dec n) = ModelScripts.py_dec n.
Proof.
  destruct (ProofScripts.py_format_ok 10 n ltac:(lia)) as [(_ & D & _) _]. apply ascii_bytes. eapply Forall_impl; [|exact D]. intros c. apply digit_ascii.
Qed.

(* one token or space, whose text is known *)
Ltac shorter := repeat first [ progress cbn [List.length] | rewrite app_length ]; lia.
Ltac tok :=
  (eapply Run_token; [lazy -[app]; reflexivity | shorter |]) || (eapply Run_skip; [lazy -[app]; reflexivity | shorter |]).

(* the bytes of the constant parts *)
Ltac const_bytes :=
  repeat match goal with
  | |- context [flat_map encode_utf8 (str ?s)] =>
      let v := eval vm_compute in (flat_map encode_utf8 (str s)) in change (flat_map encode_utf8 (str s)) with v
  end;
  cbn [app].

Definition char_tokens (c : N) : list token := [TChar c; TP ","].
Definition pair_tokens (e : N * (N * N)) : list token :=
  [TP "("; TChar (fst e); TP ","; TP "["; TNum (fst (snd e)) ""; TP ","; TNum (snd (snd e)) ""; TP "]"; TP ")"; TP ","].

Lemma run_decode_item o rest : match o with Some c => c < 0x1000000 | None => True end ->
  Run (flat_map encode_utf8 (ModelScripts.decode_item o) ++ rest) (char_tokens (ModelGen.written o)) rest.
Proof.
  destruct o as [c|]; intros Hc; cbn [ModelScripts.decode_item ModelGen.written].
  - rewrite !flat_map_app, hex_bytes, <- !app_assoc by (assumption || lia).
    const_bytes. eapply Run_token; [apply next_char; [lia|exact Hc]|shorter|]. tok. apply Run_end.
  - change (Run (39 :: 0xEF :: 0xBF :: 0xBD :: 39 :: 44 :: rest) (char_tokens 0xFFFD) rest). do 2 tok. apply Run_end.
Qed.
Lemma run_encode_item e rest : fst e < 0x1000000 -> fst (snd e) < 0x1000000 -> snd (snd e) < 0x1000000 ->
  Run (flat_map encode_utf8 (ModelScripts.encode_item e) ++ rest) (pair_tokens e) rest.
Proof.
  destruct e as [c [b1 b2]]. unfold ModelScripts.encode_item, pair_tokens. cbn [fst snd]. intros Hc H1 H2.
  rewrite !flat_map_app, !hex_bytes, <- !app_assoc by (assumption || lia).
  pose proof (fun r => next_char 0 c r ltac:(lia) Hc) as E.
  pose proof (fun d r => next_hex 0 b1 d r ltac:(lia) H1) as E1. pose proof (fun d r => next_hex 0 b2 d r ltac:(lia) H2) as E2.
  set (h := ModelScripts.py_hex 0 c) in *. set (h1 := ModelScripts.py_hex 0 b1) in *. set (h2 := ModelScripts.py_hex 0 b2) in *. clearbody h h1 h2.
  const_bytes.
  tok. eapply Run_token; [apply E|shorter|]. do 3 tok. eapply Run_token; [apply E1; reflexivity|shorter|]. do 2 tok.
  eapply Run_token; [apply E2; reflexivity|shorter|]. do 4 tok. apply Run_end.
Qed.

Lemma run_items {A} (k : N) (format : A -> list N) (toks : A -> list token) l :
  Forall (fun x => forall rest, Run (flat_map encode_utf8 (format x) ++ rest) (toks x) rest) l ->
  forall i rest, Run (flat_map encode_utf8 (ModelScripts.write_items k i format l) ++ rest) (flat_map toks l) rest.
Proof.
  induction 1 as [|x l H F IH]; intros i rest; cbn [ModelScripts.write_items flat_map]; [apply Run_end|].
  rewrite !flat_map_app, <- !app_assoc.
  assert (R := run_app _ _ _ _ _ (H (flat_map encode_utf8 (ModelScripts.write_items k (i + 1) format l) ++ rest)) (IH (i + 1) rest)).
  destruct (i mod k =? 0); [|exact R]. change (flat_map encode_utf8 (10 :: str "    ")) with [10; 32; 32; 32; 32]. cbn [app].
  match type of R with Run ?a ?b _ => revert R; generalize a b; intros bs ts R end. do 5 tok. exact R.
Qed.

Definition const_tokens (name : string) (t : list token) (n : N) (l : list token) : list token :=
  [TId "const"; TId name; TP ":"; TP "["] ++ t ++ [TP ";"; TNum n ""; TP "]"; TP "="; TP "["] ++ l ++ [TP "]"; TP ";"].
Definition char_ty_tokens : list token := [TId "char"].
Definition pair_ty_tokens : list token := [TP "("; TId "char"; TP ","; TP "["; TId "u8"; TP ";"; TNum 2 ""; TP "]"; TP ")"].
Definition file_tokens (dec : list N) (enc : list (N * (N * N))) : list token :=
  const_tokens "DECODE_TABLE" char_ty_tokens (N.of_nat (List.length dec)) (flat_map char_tokens dec) ++
  const_tokens "ENCODE_TABLE" pair_ty_tokens (N.of_nat (List.length enc)) (flat_map pair_tokens enc).

(* the decimal number n *)
Definition reads_count (n : N) : Prop := forall r, next (ModelScripts.py_dec n ++ 93 :: r) = Some (Some (TNum n ""), 93 :: r).

Lemma run_file dec enc :
  Forall (fun o => match o with Some c => c < 0x1000000 | None => True end) dec ->
  Forall (fun e => fst e < 0x1000000 /\ fst (snd e) < 0x1000000 /\ snd (snd e) < 0x1000000) enc ->
  reads_count (N.of_nat (List.length dec)) -> reads_count (N.of_nat (List.length enc)) ->
  Run (ModelScripts.py_encode (ModelScripts.tables_text dec enc)) (file_tokens (map ModelGen.written dec) enc) [].
Proof.
  intros Hd He Nd Ne.
  pose proof (run_items 8 ModelScripts.decode_item (fun o => char_tokens (ModelGen.written o)) dec
    (Forall_impl _ (fun o H rest => run_decode_item o rest H) Hd) 0) as Rd.
  pose proof (run_items 3 ModelScripts.encode_item pair_tokens enc
    (Forall_impl _ (fun e H rest => match H with conj a (conj b c) => run_encode_item e rest a b c end) He) 0) as Re.
  clear Hd He. unfold ModelScripts.py_encode, ModelScripts.tables_text, file_tokens, const_tokens. rewrite !flat_map_app, !dec_bytes, map_length.
  assert (Ld : (1 <= List.length (ModelScripts.py_dec (N.of_nat (List.length dec))))%nat).
  { destruct (ModelScripts.py_dec (N.of_nat (List.length dec))) eqn:E; [|cbn; lia]. unfold reads_count in Nd. rewrite E in Nd. specialize (Nd []). discriminate Nd. }
  assert (Le : (1 <= List.length (ModelScripts.py_dec (N.of_nat (List.length enc))))%nat).
  { destruct (ModelScripts.py_dec (N.of_nat (List.length enc))) eqn:E; [|cbn; lia]. unfold reads_count in Ne. rewrite E in Ne. specialize (Ne []). discriminate Ne. }
  unfold reads_count in *.
  set (nd := N.of_nat (List.length dec)) in *. set (ne := N.of_nat (List.length enc)) in *.
  set (sd := ModelScripts.py_dec nd) in *. set (se := ModelScripts.py_dec ne) in *.
  set (td := flat_map encode_utf8 (ModelScripts.write_items 8 0 ModelScripts.decode_item dec)) in *.
  set (te := flat_map encode_utf8 (ModelScripts.write_items 3 0 ModelScripts.encode_item enc)) in *.
  replace (flat_map char_tokens (map ModelGen.written dec)) with (flat_map (fun o => char_tokens (ModelGen.written o)) dec)
    by (clear; induction dec as [|o dec IH]; [reflexivity|]; cbn [flat_map map]; rewrite IH; reflexivity).
  clearbody nd ne sd se td te.
  set (ud := flat_map (fun o => char_tokens (ModelGen.written o)) dec) in *. set (ue := flat_map pair_tokens enc) in *. clearbody ud ue.
  rewrite <- !app_assoc. const_bytes.
  do 12 tok. eapply Run_token; [apply Nd|shorter|]. do 5 tok.
  eapply run_app; [apply Rd|]. do 24 tok. eapply Run_token; [apply Ne|shorter|]. do 5 tok.
  eapply run_app; [apply Re|]. do 4 tok. apply Run_end.
Qed.

(** ** Items *)

Lemma unary_S f st ts : unary (S f) st ts =
  if sees ["!"] ts then do a, r <- unary f st (tl ts); Some (ENot a, r)
  else if sees ["*"] ts then do a, r <- unary f st (tl ts); Some (EDeref a, r)
  else if sees ["&"; "mut"] ts then do a, r <- unary f st (skipn 2 ts); Some (ERef true a, r)
  else if sees ["&"] ts then do a, r <- unary f st (tl ts); Some (ERef false a, r)
  else do a, r <- primary f st ts; postfix f a r.
Proof. reflexivity. Qed.
Lemma cast_S f st ts : cast (S f) st ts = do a, ts <- unary f st ts; casts f a ts.
Proof. reflexivity. Qed.
Lemma operand_S f st n ts : operand (S f) st n ts = do a, ts <- cast f st ts; operators_from f st n a ts.
Proof. reflexivity. Qed.
Lemma range_S f st ts : range (S f) st ts =
  if sees [".."] ts then
    if ends (tl ts) then Some (ERange None None false, tl ts)
    else do b, ts <- operand f st 2 (tl ts); Some (ERange None (Some b) false, ts)
  else
    do a, ts <- operand f st 2 ts;
    if sees [".."] ts then
      if ends (tl ts) then Some (ERange (Some a) None false, tl ts)
      else do b, ts <- operand f st 2 (tl ts); Some (ERange (Some a) (Some b) false, ts)
    else if sees ["..="] ts then do b, ts <- operand f st 2 (tl ts); Some (ERange (Some a) (Some b) true, ts)
    else Some (a, ts).
Proof. reflexivity. Qed.
Lemma expression_S f st ts : expression (S f) st ts =
  do a, ts <- range f st ts;
  if sees ["="] ts then do b, ts <- expression f st (tl ts); Some (EAssign a b, ts)
  else
    match symbol compounds ts with
    | Some op => do b, ts <- expression f st (tl ts); Some (EOpAssign op a b, ts)
    | None => Some (a, ts)
    end.
Proof. reflexivity. Qed.
Lemma primary_array f st r : primary (S f) st (TP "[" :: r) =
  if sees ["]"] r then Some (EArr [], tl r)
  else
    do a, r <- expression f true r;
    if sees [";"] r then do n, r <- expression f true (tl r); do _, r <- sym "]" r; Some (ERepeat a n, r)
    else if sees ["]"] r then Some (EArr [a], tl r)
    else do _, r <- sym "," r; do l, r <- comma_list f (expression f true) "]" r; Some (EArr (a :: l), r).
Proof. reflexivity. Qed.
Lemma primary_tuple f st r : primary (S f) st (TP "(" :: r) =
  if sees [")"] r then Some (ETuple [], tl r)
  else
    do a, r <- expression f true r;
    if sees [")"] r then Some (a, tl r)
    else do _, r <- sym "," r; do l, r <- comma_list f (expression f true) ")" r; Some (ETuple (a :: l), r).
Proof. reflexivity. Qed.
Lemma comma_list_S {A} f (p : parser A) close ts : comma_list (S f) p close ts =
  if sees [close] ts then Some ([], tl ts)
  else
    do x, ts <- p ts;
    if sees [","] ts then do xs, ts <- comma_list f p close (tl ts); Some (x :: xs, ts)
    else do _, ts <- sym close ts; Some ([x], ts).
Proof. reflexivity. Qed.

Lemma then_parse {A B} (p : option (A * list token)) (k : A -> parser B) a ts y : p = Some (a, ts) -> k a ts = y -> pbind p k = y.
Proof. intros -> H. exact H. Qed.

Definition stops (r : list token) : Prop := exists t r', r = TP t :: r' /\ In t [","; ")"; "]"; ";"].
Definition no_prefix (ts : list token) : Prop :=
  sees [".."] ts = false /\ sees ["!"] ts = false /\ sees ["*"] ts = false /\ sees ["&"; "mut"] ts = false /\ sees ["&"] ts = false.
Lemma simple_expression f st ts a r : primary (S f) st ts = Some (a, r) -> stops r -> no_prefix ts -> expression (6 + f) st ts = Some (a, r).
Proof.
  intros P (t & r' & -> & Ht) (N1 & N2 & N3 & N4 & N5). cbn [In] in Ht.
  change (6 + f)%nat with (S (S (S (S (S (S f)))))).
  rewrite expression_S. eapply then_parse.
  - rewrite range_S, N1. eapply then_parse.
    + rewrite operand_S. eapply then_parse.
      * rewrite cast_S. eapply then_parse.
        -- rewrite unary_S, N2, N3, N4, N5. eapply then_parse; [exact P|]. destruct Ht as [<-|[<-|[<-|[<-|[]]]]]; reflexivity.
        -- destruct Ht as [<-|[<-|[<-|[<-|[]]]]]; reflexivity.
      * destruct Ht as [<-|[<-|[<-|[<-|[]]]]]; reflexivity.
    + destruct Ht as [<-|[<-|[<-|[<-|[]]]]]; reflexivity.
  - destruct Ht as [<-|[<-|[<-|[<-|[]]]]]; reflexivity.
Qed.
Ltac stop := eexists _, _; split; [reflexivity | cbn [In]; auto 6].
Ltac simple_expr := apply simple_expression; [|stop|repeat split; reflexivity].

Lemma comma_items {A B} (p : parser B) (g : A -> list token) (h : A -> B) close :
  (forall a r, p (g a ++ TP "," :: r) = Some (h a, TP "," :: r)) -> (forall a r, sees [close] (g a ++ r) = false) ->
  forall l f r, (List.length l < f)%nat ->
  comma_list f p close (flat_map (fun a => g a ++ [TP ","]) l ++ TP close :: r) = Some (map h l, r).
Proof.
  intros P S. induction l as [|a l IH]; intros f r L; (destruct f as [|f]; [cbn in L; lia|]); rewrite comma_list_S; cbn [flat_map map].
  - cbn [app sees]. rewrite String.eqb_refl. reflexivity.
  - cbn [List.length] in L. rewrite <- !app_assoc, S. eapply then_parse; [apply P|].
    eapply (then_parse (B := list B)); [apply (IH f r); lia|]. reflexivity.
Qed.

(* an array of elements whose tokens are g a, each followed by a comma *)
Lemma array_expression {A} (g : A -> list token) (h : A -> expr) :
  (forall f a r, expression (20 + f) true (g a ++ TP "," :: r) = Some (h a, TP "," :: r)) ->
  (forall a r, sees ["]"] (g a ++ r) = false) ->
  forall a l f r, (List.length l < f)%nat -> stops r ->
  expression (26 + f) true (TP "[" :: flat_map (fun a => g a ++ [TP ","]) (a :: l) ++ TP "]" :: r) = Some (EArr (map h (a :: l)), r).
Proof.
  intros P S a l f r L R. change (26 + f)%nat with (6 + (20 + f))%nat. apply simple_expression; [|exact R|repeat split; reflexivity].
  rewrite primary_array. cbn [flat_map]. rewrite <- !app_assoc, S. eapply then_parse; [apply P|].
  eapply then_parse; [reflexivity|]. eapply then_parse; [apply (comma_items _ g h "]"); [apply P|exact S|lia]|]. reflexivity.
Qed.

Lemma char_expression f c r : expression (6 + f) true (TChar c :: TP "," :: r) = Some (lit_char c, TP "," :: r).
Proof. simple_expr. reflexivity. Qed.
Lemma num_expression f n t r : In t [","; "]"] -> expression (6 + f) true (TNum n "" :: TP t :: r) = Some (ELit (LInt n ""), TP t :: r).
Proof. intros H. apply simple_expression; [reflexivity| |repeat split; reflexivity]. exists t, r. split; [reflexivity|]. cbn [In] in *. tauto. Qed.
Definition pair_front (e : N * (N * N)) : list token :=
  [TP "("; TChar (fst e); TP ","; TP "["; TNum (fst (snd e)) ""; TP ","; TNum (snd (snd e)) ""; TP "]"; TP ")"].
Lemma pair_expression f e r : expression (20 + f) true (pair_front e ++ TP "," :: r) = Some (lit_pair e, TP "," :: r).
Proof.
  destruct e as [c [b1 b2]]. unfold pair_front, lit_pair. cbn [fst snd app].
  change (20 + f)%nat with (6 + (14 + f))%nat. simple_expr.
  rewrite primary_tuple. change (sees [")"] (TChar c :: ?x)) with false. cbv iota.
  eapply then_parse; [apply (char_expression (8 + f))|].
  eapply then_parse; [reflexivity|]; cbn [tl].
  eapply then_parse; [|reflexivity].
  change (14 + f)%nat with (S (13 + f)) at 1. rewrite comma_list_S. change (sees [")"] (TP "[" :: ?x)) with false. cbv iota.
  eapply then_parse.
  - change (14 + f)%nat with (6 + (8 + f))%nat. apply simple_expression.
    + rewrite primary_array. change (sees ["]"] (TNum b1 "" :: ?x)) with false. cbv iota.
      eapply then_parse; [apply (num_expression (2 + f)); cbn [In]; auto|]. eapply then_parse; [reflexivity|]; cbn [tl].
      eapply then_parse; [|reflexivity]. change (8 + f)%nat with (S (7 + f)) at 1.
      rewrite comma_list_S. change (sees ["]"] (TNum b2 "" :: ?x)) with false. cbv iota.
      eapply then_parse; [apply (num_expression (2 + f)); cbn [In]; auto|]. reflexivity.
    + stop.
    + repeat split; reflexivity.
  - reflexivity.
Qed.

(* a constant *)
Lemma items_const f name t n a l r (ty : list token) :
  (forall r, type_tok f ([TP "["] ++ ty ++ [TP ";"; TNum n ""; TP "]"] ++ r) = Some (t, r)) ->
  expression f true (TP "[" :: l ++ TP "]" :: TP ";" :: r) = Some (a, TP ";" :: r) ->
  items (S f) false (const_tokens name ty n l ++ r) = do k, r <- items f false r; Some (IConst name t a :: k, r).
Proof.
  intros T E. unfold const_tokens. rewrite <- !app_assoc. cbn [app].
  match goal with |- items (S f) false (_ :: _ :: _ :: ?x) = _ =>
    change (items (S f) false (TId "const" :: TId name :: TP ":" :: x)) with
      (do t, r <- type_tok f x; do _, r <- sym "=" r; do e, r <- expression f true r; do _, r <- sym ";" r;
       do l, r <- items f false r; Some (IConst name t e :: l, r)) end.
  eapply then_parse; [apply (T (TP "=" :: TP "[" :: l ++ TP "]" :: TP ";" :: r))|].
  eapply then_parse; [reflexivity|]; cbn [tl]. eapply then_parse; [exact E|]. reflexivity.
Qed.

Lemma parse_file dec enc : dec <> [] -> enc <> [] ->
  forall f, (10 + List.length dec + List.length enc < f)%nat ->
  items (40 + f) false (file_tokens dec enc) = Some (whatwg_items dec enc, []).
Proof.
  intros Hd He f Hf. destruct dec as [|c dec]; [contradiction|]. destruct enc as [|e enc]; [contradiction|]. clear Hd He. cbn [List.length] in Hf.
  unfold file_tokens. change (40 + f)%nat with (S (26 + (13 + f))). rewrite (items_const _ _ (TyArr char_ty (N.of_nat (List.length (c :: dec)))) _ (EArr (map lit_char (c :: dec)))).
  - change (26 + (13 + f))%nat with (S (26 + (12 + f))). rewrite <- (app_nil_r (const_tokens "ENCODE_TABLE" _ _ _)).
    rewrite (items_const _ _ (TyArr pair_ty (N.of_nat (List.length (e :: enc)))) _ (EArr (map lit_pair (e :: enc)))).
    + reflexivity.
    + reflexivity.
    + apply (array_expression pair_front lit_pair); [intros; apply pair_expression|reflexivity|lia|stop].
  - reflexivity.
  - apply (array_expression (fun c => [TChar c]) lit_char); [intros g c0 r; apply (char_expression (14 + g))|reflexivity|lia|stop].
Qed.

Lemma parse_text dec enc : dec <> [] -> enc <> [] ->
  Forall (fun o => match o with Some c => c < 0x1000000 | None => True end) dec ->
  Forall (fun e => fst e < 0x1000000 /\ fst (snd e) < 0x1000000 /\ snd (snd e) < 0x1000000) enc ->
  reads_count (N.of_nat (List.length dec)) -> reads_count (N.of_nat (List.length enc)) ->
  parse (ModelScripts.py_encode (ModelScripts.tables_text dec enc)) = Some (whatwg_items (map ModelGen.written dec) enc).
Proof.
  intros Hd He Fd Fe Nd Ne. pose proof (run_lex _ _ _ (run_file dec enc Fd Fe Nd Ne) eq_refl) as L.
  unfold parse, tokens. rewrite L by lia. clear L.
  assert (Ll : forall l : list N, List.length (flat_map char_tokens l) = (2 * List.length l)%nat).
  { induction l as [|x l IH]; [reflexivity|]. cbn [flat_map List.length app char_tokens] in *. lia. }
  assert (Lp : forall l, List.length (flat_map pair_tokens l) = (10 * List.length l)%nat).
  { induction l as [|x l IH]; [reflexivity|]. cbn [flat_map List.length app pair_tokens] in *. lia. }
  assert (K : (List.length (file_tokens (map ModelGen.written dec) enc) = 32 + 2 * List.length dec + 10 * List.length enc)%nat).
  { unfold file_tokens, const_tokens. rewrite !app_length, Ll, Lp, map_length. cbn [List.length char_ty_tokens pair_ty_tokens]. lia. }
  rewrite K. match goal with |- context [items ?n] => replace n with (40 + (n - 40))%nat by lia end.
  rewrite parse_file; [reflexivity| |exact He|rewrite map_length; lia].
  destruct dec; [contradiction|discriminate].
Qed.

(** ** The two files *)

Definition in_bounds (dec : list N) (enc : list (N * (N * N))) : bool :=
  forallb (fun c => c <? 0x1000000) dec &&
  forallb (fun e => (fst e <? 0x1000000) && (fst (snd e) <? 0x1000000) && (snd (snd e) <? 0x1000000)) enc.
Lemma parse_tables dec enc inc : dec <> [] -> enc <> [] -> in_bounds dec enc = true ->
  reads_count (N.of_nat (List.length dec)) -> reads_count (N.of_nat (List.length enc)) ->
  ProofFiles.same (ModelScripts.py_encode (ModelScripts.tables_text (map ProofFiles.undef dec) enc)) (contents inc) = true ->
  parse (contents inc) = Some (whatwg_items dec enc).
Proof.
  intros Hd He B Nd Ne S. apply ProofFiles.same_ok in S. rewrite <- S. clear S. unfold in_bounds in B. apply andb_prop in B. destruct B as [Bd Be].
  rewrite forallb_forall in Bd, Be.
  assert (W : map ModelGen.written (map ProofFiles.undef dec) = dec).
  { rewrite map_map. clear. induction dec as [|c dec IH]; [reflexivity|]. cbn [map]. rewrite IH. f_equal.
    unfold ProofFiles.undef. destruct (N.eqb_spec c 0xFFFD); [subst; reflexivity|reflexivity]. }
  rewrite parse_text, ?W; [reflexivity|destruct dec; [contradiction|discriminate]|exact He| | |rewrite map_length; exact Nd|exact Ne].
  - apply Forall_forall. intros o Ho. apply in_map_iff in Ho. destruct Ho as (c & <- & Hc). apply Bd in Hc. apply N.ltb_lt in Hc.
    unfold ProofFiles.undef. destruct (c =? 0xFFFD); [exact I|exact Hc].
  - apply Forall_forall. intros e H. apply Be in H. lia.
Qed.

Lemma whatwg_bounds : in_bounds big5_decode_table big5_encode_table && in_bounds sjis_decode_table sjis_encode_table = true.
Proof. vm_compute. reflexivity. Qed.
Lemma whatwg_counts :
  (N.of_nat (List.length big5_decode_table) = 19782 /\ N.of_nat (List.length big5_encode_table) = 18490) /\
  (N.of_nat (List.length sjis_decode_table) = 11104 /\ N.of_nat (List.length sjis_encode_table) = 7326).
Proof. split; split; vm_compute; reflexivity. Qed.

Lemma big5_items : parse (contents big5_inc) = Some (whatwg_items big5_decode_table big5_encode_table).
Proof.
  pose proof whatwg_bounds as B. apply andb_prop in B. destruct B as [B _]. destruct whatwg_counts as [[C1 C2] _].
  apply parse_tables; [discriminate|discriminate|exact B| | |exact PropScripts.big5_tables_file].
  - rewrite C1. intros r. reflexivity.
  - rewrite C2. intros r. reflexivity.
Qed.
Lemma sjis_items : parse (contents shiftjis_inc) = Some (whatwg_items sjis_decode_table sjis_encode_table).
Proof.
  pose proof whatwg_bounds as B. apply andb_prop in B. destruct B as [_ B]. destruct whatwg_counts as [_ [C1 C2]].
  apply parse_tables; [discriminate|discriminate|exact B| | |exact PropScripts.sjis_tables_file].
  - rewrite C1. intros r. reflexivity.
  - rewrite C2. intros r. reflexivity.
Qed.
