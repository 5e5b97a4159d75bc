(* Lemmas and tactics for running programs of RustEval.v on values that are not known.  Nothing in this file is specific to the
   crate. *)
From Coq Require Import List NArith Arith Bool String Ascii Lia.
From Verif Require Import Prelude RustCore RustSyntax RustEval Tac.
Import ListNotations.
Local Open Scope string_scope.
Local Open Scope N_scope.
Local Open Scope list_scope.

(** ** Sequencing *)

Definition after (r : env) (s : sig) (k : env -> value -> outcome (env * sig)) : outcome (env * sig) :=
  match s with SVal v => k r v | s => Ret (r, s) end.
Lemma then_go m k r s x : m = Ret (r, s) -> after r s k = x -> then_ m k = x.
Proof. intros -> <-. destruct s; reflexivity. Qed.
Lemma scoped_go r m r' r'' s x : m = Ret (r', s) -> leave r r' = r'' -> Ret (r'', s) = x -> scoped r m = x.
Proof. intros -> <- <-. reflexivity. Qed.
Lemma value_go r m v x : m = Ret v -> Ret (r, SVal v) = x -> value_of r m = x.
Proof. intros -> <-. reflexivity. Qed.
Lemma bind_go {A B} (m : outcome A) (k : A -> outcome B) a x : m = Ret a -> k a = x -> bind m k = x.
Proof. intros -> <-. reflexivity. Qed.
Lemma list_nil ev r k x : k r [] = x -> eval_list ev [] r k = x.
Proof. intros <-. reflexivity. Qed.
Lemma list_cons ev e es r k r1 s x :
  ev e r = Ret (r1, s) -> after r1 s (fun r v => eval_list ev es r (fun r vs => k r (v :: vs))) = x -> eval_list ev (e :: es) r k = x.
Proof. intros H <-. cbn [eval_list]. rewrite H. destruct s; reflexivity. Qed.
Lemma branch_go ev p v r e next o x :
  match_pat p v r = Ret o -> match o with Some r1 => scoped r (ev e r1) | None => next end = x -> branch ev p v r e next = x.
Proof. unfold branch. intros -> <-. reflexivity. Qed.
Lemma if_true {A} (c : bool) (a b x : A) : c = true -> a = x -> (if c then a else b) = x.
Proof. intros -> <-. reflexivity. Qed.
Lemma if_false {A} (c : bool) (a b x : A) : c = false -> b = x -> (if c then a else b) = x.
Proof. intros -> <-. reflexivity. Qed.
(* the rest of a block after the value of a let *)
Definition let_k max ev tail p t e ss (r : env) (v : value) : outcome (env * sig) :=
  let* v := let_value max p e v in
  let* v := (match t with Some t => coerce max t v | None => Ret v end) in
  let* o := match_pat p v r in
  match o with Some r => statements max ev tail ss r | None => stuck end.
Lemma let_go max ev tail p t e ss r r1 s x :
  ev e r = Ret (r1, s) -> after r1 s (let_k max ev tail p t e ss) = x -> statements max ev tail (SLet p t e :: ss) r = x.
Proof. intros H <-. cbn [statements]. rewrite H. destruct s; reflexivity. Qed.
Lemma let_rest max ev tail p t e ss r v v1 v2 r1 x :
  let_value max p e v = Ret v1 -> (match t with Some t => coerce max t v1 | None => Ret v1 end) = Ret v2 ->
  match_pat p v2 r = Ret (Some r1) -> statements max ev tail ss r1 = x -> let_k max ev tail p t e ss r v = x.
Proof. unfold let_k. intros -> H1 H2 <-. cbn [bind]. rewrite H1. cbn [bind]. rewrite H2. reflexivity. Qed.
Lemma expr_go max ev tail e ss r r1 s x :
  ev e r = Ret (r1, s) -> after r1 s (fun r _ => statements max ev tail ss r) = x -> statements max ev tail (SExpr e :: ss) r = x.
Proof. intros H <-. cbn [statements]. rewrite H. destruct s; reflexivity. Qed.

(** ** Expressions *)

Section Rules.
Variables (max : N) (prog : program) (fuel : nat) (d : nat) (m : path).
Notation ev := (eval max prog fuel d m).
Notation evS := (eval max prog fuel (S d) m).

Lemma ev_lit l r : evS (ELit l) r = value_of r (literal_value max l).
Proof. reflexivity. Qed.
Lemma ev_var x r v : lookup x r = Some v -> evS (EPath [x]) r = Ret (r, SVal v).
Proof. cbn [eval]. intros ->. reflexivity. Qed.
Lemma ev_const p r v : (match p with [x] => lookup x r | _ => None end) = None -> find_const prog m p = Some v ->
  evS (EPath p) r = Ret (r, SVal v).
Proof. cbn [eval]. intros -> ->. reflexivity. Qed.
Lemma ev_unit p r : (match p with [x] => lookup x r | _ => None end) = None -> find_const prog m p = None ->
  evS (EPath p) r = Ret (r, SVal (VCon (last p "") [])).
Proof. cbn [eval]. intros -> ->. reflexivity. Qed.
Lemma ev_tuple es r : evS (ETuple es) r = eval_list ev es r (fun r vs => Ret (r, SVal (VTuple vs))).
Proof. reflexivity. Qed.
Lemma ev_arr es r : evS (EArr es) r = eval_list ev es r (fun r vs => value_of r (array max vs)).
Proof. reflexivity. Qed.
Lemma ev_repeat e n r : evS (ERepeat e n) r =
  then_ (ev e r) (fun r v => then_ (ev n r) (fun r n =>
    value_of r (let* n := index_of n in
                match v with
                | VInt U8 b => Ret (VBytes (repeat b n))
                | _ => Ret (VArr (repeat v n))
                end))).
Proof. reflexivity. Qed.
Lemma ev_struct p fs r : evS (EStruct p fs) r =
  eval_list ev (map snd fs) r (fun r vs => Ret (r, SVal (VStruct (last p "") (combine (map fst fs) vs)))).
Proof. reflexivity. Qed.
Lemma ev_ref b e r : evS (ERef b e) r = ev e r.
Proof. reflexivity. Qed.
Lemma ev_deref e r : evS (EDeref e) r = ev e r.
Proof. reflexivity. Qed.
Lemma ev_not e r b r1 : ev e r = Ret (r1, SVal (VBool b)) -> evS (ENot e) r = Ret (r1, SVal (VBool (negb b))).
Proof. cbn [eval]. intros ->. reflexivity. Qed.
Lemma ev_bin op a b r : evS (EBin op a b) r =
  then_ (ev a r) (fun r a => then_ (ev b r) (fun r b => value_of r (binary max op a b))).
Proof. reflexivity. Qed.
Lemma ev_and a b r r1 c x : ev a r = Ret (r1, SVal (VBool c)) -> (if c then ev b r1 else Ret (r1, SVal (VBool false))) = x ->
  evS (EAnd a b) r = x.
Proof. cbn [eval]. intros -> <-. destruct c; reflexivity. Qed.
Lemma and_pure b r (c c' : bool) : ev b r = Ret (r, SVal (VBool c')) ->
  (if c then ev b r else Ret (r, SVal (VBool false))) = Ret (r, SVal (VBool (c && c'))).
Proof. destruct c; auto. Qed.
Lemma ev_or a b r r1 c x : ev a r = Ret (r1, SVal (VBool c)) -> (if c then Ret (r1, SVal (VBool true)) else ev b r1) = x ->
  evS (EOr a b) r = x.
Proof. cbn [eval]. intros -> <-. destruct c; reflexivity. Qed.
Lemma or_pure b r (c c' : bool) : ev b r = Ret (r, SVal (VBool c')) ->
  (if c then Ret (r, SVal (VBool true)) else ev b r) = Ret (r, SVal (VBool (c || c'))).
Proof. destruct c; auto. Qed.
Lemma ev_cast e t r : evS (ECast e t) r = then_ (ev e r) (fun r v => value_of r (cast max v t)).
Proof. reflexivity. Qed.
Lemma ev_field e f r : evS (EField e f) r =
  then_ (ev e r) (fun r v =>
    match v with
    | VTuple [a; b] => if is f "0" then Ret (r, SVal a) else if is f "1" then Ret (r, SVal b) else stuck
    | VStruct _ fs => match lookup f fs with Some w => Ret (r, SVal w) | None => stuck end
    | _ => stuck
    end).
Proof. reflexivity. Qed.
Lemma ev_index e i r : evS (EIndex e i) r = then_ (ev e r) (fun r v => then_ (ev i r) (fun r i => value_of r (index v i))).
Proof. reflexivity. Qed.
Lemma ev_range lo hi incl r : evS (ERange lo hi incl) r =
  eval_opt ev lo r (fun r lo => eval_opt ev hi r (fun r hi => Ret (r, SVal (VRange lo hi incl)))).
Proof. reflexivity. Qed.
Lemma ev_call p args r m' f : find_fn prog m p = Some (m', f) -> evS (ECall p args) r =
  eval_list ev args r (fun r vs =>
    let* q := apply_fn max (eval max prog fuel d m') f vs in
    let* r := write_backs (fn_params f) args (snd q) r in
    Ret (r, SVal (fst q))).
Proof. cbn [eval]. intros ->. reflexivity. Qed.
Lemma ev_con c args r : find_fn prog m [c] = None -> evS (ECall [c] args) r =
  eval_list ev args r (fun r vs => Ret (r, SVal (VCon c vs))).
Proof. cbn [eval]. intros ->. reflexivity. Qed.
Lemma ev_core p args r f t rest : find_fn prog m p = None -> rev p = f :: t :: rest -> evS (ECall p args) r =
  eval_list ev args r (fun r vs => value_of r (core_fn t f vs)).
Proof. cbn [eval]. intros -> ->. reflexivity. Qed.
Lemma ev_next e args r : evS (EMethod e "next" args) r = then_ (ev e r) (fun r v => next_item e v r).
Proof. reflexivity. Qed.
Lemma ev_copy x i a r : evS (EMethod (EIndex (EPath [x]) i) "copy_from_slice" [a]) r =
  then_ (ev i r) (fun r i => then_ (ev a r) (fun r s => copy_slice x i s r)).
Proof. reflexivity. Qed.
Lemma ev_encode_utf8 e a r : evS (EMethod e "encode_utf8" [a]) r =
  then_ (ev e r) (fun r c => then_ (ev a r) (fun r b => write_utf8 c b a r)).
Proof. reflexivity. Qed.
Lemma ev_search e k p body r : evS (EMethod e "binary_search_by_key" [k; EClosure [p] body]) r =
  then_ (ev e r) (fun r v => then_ (ev k r) (fun r k => search_by_key ev p body v k r)).
Proof. reflexivity. Qed.
Lemma ev_method e f args r :
  is f "next" = false -> is f "copy_from_slice" = false -> is f "extend_from_slice" || is f "extend" = false -> is f "encode_utf8" = false -> is f "binary_search_by_key" = false ->
  evS (EMethod e f args) r = then_ (ev e r) (fun r v => eval_list ev args r (fun r vs => value_of r (core_method v f vs))).
Proof. cbn [eval]. intros -> -> -> -> ->. reflexivity. Qed.
Lemma ev_block ss tail r : evS (EBlock ss tail) r = scoped r (statements max ev tail ss r).
Proof. reflexivity. Qed.
Lemma ev_if c a b r r1 t x : ev c r = Ret (r1, SVal (VBool t)) -> (if t then ev a r1 else else_ ev b r1) = x -> evS (EIf c a b) r = x.
Proof. cbn [eval]. intros -> <-. destruct t; reflexivity. Qed.
Lemma ev_if_let p e a b r : evS (EIfLet p e a b) r = then_ (ev e r) (fun r v => branch ev p v r a (else_ ev b r)).
Proof. reflexivity. Qed.
Lemma ev_match e l r : evS (EMatch e l) r = then_ (ev e r) (fun r v => arms ev l v r).
Proof. reflexivity. Qed.
Lemma ev_while c body r : evS (EWhile c body) r = loop_end (fun r => r) (loop fuel (while_body ev c body) r).
Proof. reflexivity. Qed.
Lemma ev_while_let p e body r : evS (EWhileLet p e body) r = loop_end (fun r => r) (loop fuel (while_let_body ev p e body) r).
Proof. reflexivity. Qed.
Lemma ev_for p e body r : for_mut_of p e = None -> evS (EFor p e body) r =
  then_ (ev e r) (fun r v => let* its := items_of max v in loop_end snd (loop fuel (for_body ev p body) (its, r))).
Proof. cbn [eval]. intros ->. reflexivity. Qed.
Lemma ev_assign x e r : evS (EAssign (EPath [x]) e) r = then_ (ev e r) (fun r v => set_var max x v r).
Proof. reflexivity. Qed.
Lemma ev_assign_index x i e r : evS (EAssign (EIndex (EPath [x]) i) e) r =
  then_ (ev e r) (fun r v => then_ (ev i r) (fun r i => set_index max x i v r)).
Proof. reflexivity. Qed.
Lemma ev_op_assign op x e r : evS (EOpAssign op (EPath [x]) e) r =
  then_ (ev e r) (fun r v => match lookup x r with Some w => let* w := binary max op w v in set_var max x w r | None => stuck end).
Proof. reflexivity. Qed.
Lemma ev_break r : evS EBreak r = Ret (r, SBreak).
Proof. reflexivity. Qed.
Lemma ev_continue r : evS EContinue r = Ret (r, SContinue).
Proof. reflexivity. Qed.
Lemma ev_return o r : evS (EReturn o) r =
  eval_opt ev o r (fun r o => Ret (r, SReturn (match o with Some v => v | None => unit_value end))).
Proof. reflexivity. Qed.
End Rules.

(** ** Operators *)

Lemma bin_lit max op t a b v : is_shift op = false -> b <= ity_max max t -> arith max op t a b = Ret v -> binary max op (VInt t a) (VLit b) = Ret v.
Proof. intros S B <-. cbn [binary]. rewrite S. unfold lit_as. rewrite (proj2 (N.leb_le _ _) B). reflexivity. Qed.
Lemma bin_lit_l max op t a b v : is_shift op = false -> a <= ity_max max t -> arith max op t a b = Ret v -> binary max op (VLit a) (VInt t b) = Ret v.
Proof. intros S B <-. cbn [binary]. rewrite S. unfold lit_as. rewrite (proj2 (N.leb_le _ _) B). reflexivity. Qed.
Lemma bin_int max op t a b v : is_shift op = false -> arith max op t a b = Ret v -> binary max op (VInt t a) (VInt t b) = Ret v.
Proof. intros S <-. cbn [binary]. rewrite S. destruct t; reflexivity. Qed.
Lemma shl_u32 max a k : k <? 32 = true -> binary max Shl (VInt U32 a) (VLit k) = Ret (VInt U32 (as_u32 (N.shiftl a k))).
Proof. intros H. unfold binary, shift. cbn [is_shift ity_bits]. rewrite H. reflexivity. Qed.
Lemma shr_u32 max a k : k <? 32 = true -> binary max Shr (VInt U32 a) (VLit k) = Ret (VInt U32 (N.shiftr a k)).
Proof. intros H. unfold binary, shift. cbn [is_shift ity_bits]. rewrite H. reflexivity. Qed.
Lemma arith_add max t a b : a + b <= ity_max max t -> arith max Add t a b = Ret (VInt t (a + b)).
Proof. intros H. cbn [arith]. unfold in_type. rewrite (proj2 (N.leb_le _ _) H). reflexivity. Qed.
Lemma arith_mul max t a b : a * b <= ity_max max t -> arith max Mul t a b = Ret (VInt t (a * b)).
Proof. intros H. cbn [arith]. unfold in_type. rewrite (proj2 (N.leb_le _ _) H). reflexivity. Qed.
Lemma arith_sub max t a b : b <= a -> arith max Sub t a b = Ret (VInt t (a - b)).
Proof. intros H. cbn [arith]. rewrite (proj2 (N.leb_le _ _) H). reflexivity. Qed.
Lemma arith_div max t a b : b <> 0 -> arith max Div t a b = Ret (VInt t (a / b)).
Proof. intros H. cbn [arith]. rewrite (proj2 (N.eqb_neq _ _) H). reflexivity. Qed.
Lemma arith_rem max t a b : b <> 0 -> arith max Rem t a b = Ret (VInt t (a mod b)).
Proof. intros H. cbn [arith]. rewrite (proj2 (N.eqb_neq _ _) H). reflexivity. Qed.

(* indices and lengths *)
Lemma usz_add_lit max a k j : N.to_nat k = j -> N.of_nat (a + j) <= max -> binary max Add (usize a) (VLit k) = Ret (usize (a + j)).
Proof.
  intros <- H. unfold usize. apply bin_lit; [reflexivity|cbn [ity_max]; lia|].
  rewrite arith_add by (cbn [ity_max]; lia). do 2 f_equal. lia.
Qed.
Lemma usz_add max a b : N.of_nat (a + b) <= max -> binary max Add (usize a) (usize b) = Ret (usize (a + b)).
Proof.
  intros H. unfold usize. apply bin_int; [reflexivity|]. rewrite arith_add by (cbn [ity_max]; lia). do 2 f_equal. lia.
Qed.
Lemma usz_sub_lit max a k j : N.to_nat k = j -> N.of_nat j <= max -> (j <= a)%nat -> binary max Sub (usize a) (VLit k) = Ret (usize (a - j)).
Proof.
  intros <- H L. unfold usize. apply bin_lit; [reflexivity|cbn [ity_max]; lia|].
  rewrite arith_sub by lia. do 2 f_equal. lia.
Qed.
Lemma usz_sub max a b : (b <= a)%nat -> binary max Sub (usize a) (usize b) = Ret (usize (a - b)).
Proof. intros H. unfold usize. apply bin_int; [reflexivity|]. rewrite arith_sub by lia. do 2 f_equal. lia. Qed.
Lemma usz_mul_lit max a k j : N.to_nat k = j -> N.of_nat j <= max -> N.of_nat (a * j) <= max -> binary max Mul (usize a) (VLit k) = Ret (usize (a * j)).
Proof.
  intros <- B H. unfold usize. apply bin_lit; [reflexivity|cbn [ity_max]; lia|].
  rewrite arith_mul by (cbn [ity_max]; lia). do 2 f_equal. lia.
Qed.
Definition nat_cmp (op : binop) (a b : nat) : bool :=
  match op with
  | Eq => (a =? b)%nat
  | Ne => negb (a =? b)%nat
  | Lt => (a <? b)%nat
  | Le => (a <=? b)%nat
  | Gt => (b <? a)%nat
  | Ge => (b <=? a)%nat
  | _ => false
  end.
Definition is_cmp (op : binop) : bool := match op with Eq | Ne | Lt | Le | Gt | Ge => true | _ => false end.
Lemma usz_cmp max op a b : is_cmp op = true -> binary max op (usize a) (usize b) = Ret (VBool (nat_cmp op a b)).
Proof.
  intros H. unfold usize. destruct op; try discriminate H; (apply bin_int; [reflexivity|]); cbn [arith nat_cmp];
    do 2 f_equal; lia.
Qed.
Lemma usz_cmp_lit max op a k j : is_cmp op = true -> N.to_nat k = j -> N.of_nat j <= max ->
  binary max op (usize a) (VLit k) = Ret (VBool (nat_cmp op a j)).
Proof.
  intros H <- B. unfold usize. destruct op; try discriminate H;
    (apply bin_lit; [reflexivity|cbn [ity_max]; lia|]); cbn [arith nat_cmp]; do 2 f_equal; lia.
Qed.

Lemma index_usz n : index_of (usize n) = Ret n.
Proof. unfold usize. cbn [index_of]. rewrite Nat2N.id. reflexivity. Qed.
Lemma slice_to_slice {A} (l : list A) n s : slice_to l n = Ret s -> slice l 0 n = Ret s.
Proof.
  unfold slice_to, slice. change (0 <=? n)%nat with true. cbn [andb skipn]. rewrite Nat.sub_0_r. destruct (n <=? List.length l)%nat; auto.
Qed.
Lemma index_bytes l n b : idx l n = Ret b -> index (VBytes l) (usize n) = Ret (VInt U8 b).
Proof. intros H. unfold usize, index, index_of. rewrite Nat2N.id. cbn [bind]. rewrite H. reflexivity. Qed.
Lemma index_bytes_lit l k n b : N.to_nat k = n -> idx l n = Ret b -> index (VBytes l) (VLit k) = Ret (VInt U8 b).
Proof. intros <- H. unfold index, index_of. cbn [bind]. rewrite H. reflexivity. Qed.
Lemma index_arr l n b : idx l n = Ret b -> index (VArr l) (usize n) = Ret b.
Proof. intros H. unfold usize, index, index_of. rewrite Nat2N.id. cbn [bind]. exact H. Qed.
Lemma idx_map {A B} (f : A -> B) l n x : idx l n = Ret x -> idx (map f l) n = Ret (f x).
Proof. unfold idx. rewrite nth_error_map. destruct (nth_error l n); cbn; congruence. Qed.
Lemma index_to l n s : slice_to l n = Ret s -> index (VBytes l) (VRange None (Some (usize n)) false) = Ret (VBytes s).
Proof.
  intros H. apply slice_to_slice in H. unfold index, bounds. rewrite index_usz. cbn [bind fst snd]. rewrite H. reflexivity.
Qed.

(** ** Calls that change variables *)

Lemma set_var_go max x v r w v' r' y : lookup x r = Some w -> retype max w v = Ret v' -> assign x v' r = Ret r' ->
  Ret (r', SVal unit_value) = y -> set_var max x v r = y.
Proof. unfold set_var. intros -> -> H <-. cbn [bind]. rewrite H. reflexivity. Qed.
Lemma op_assign_go max op x v r w w' y : lookup x r = Some w -> binary max op w v = Ret w' -> set_var max x w' r = y ->
  match lookup x r with Some w => let* w := binary max op w v in set_var max x w r | None => stuck end = y.
Proof. intros -> H <-. rewrite H. reflexivity. Qed.
Lemma set_index_go max x n b r l l' r' y : lookup x r = Some (VBytes l) -> upd l n b = Ret l' -> assign x (VBytes l') r = Ret r' ->
  Ret (r', SVal unit_value) = y -> set_index max x (usize n) (VInt U8 b) r = y.
Proof. unfold set_index. intros -> H1 H2 <-. rewrite index_usz. cbn [bind]. rewrite H1. cbn [bind]. rewrite H2. reflexivity. Qed.
Lemma set_index_lit max x n b r l l' r' y : b <=? 0xFF = true ->
  lookup x r = Some (VBytes l) -> upd l n b = Ret l' -> assign x (VBytes l') r = Ret r' ->
  Ret (r', SVal unit_value) = y -> set_index max x (usize n) (VLit b) r = y.
Proof.
  unfold set_index. intros B -> H1 H2 <-. rewrite index_usz. unfold lit_as. cbn [ity_max]. rewrite B. cbn [bind]. rewrite H1. cbn [bind].
  rewrite H2. reflexivity.
Qed.
Lemma copy_slice_go x a b s r l l' r' y : lookup x r = Some (VBytes l) -> copy_at l a b s = Ret l' -> assign x (VBytes l') r = Ret r' ->
  Ret (r', SVal unit_value) = y -> copy_slice x (VRange (Some (usize a)) (Some (usize b)) false) (VBytes s) r = y.
Proof.
  unfold copy_slice. intros -> H1 H2 <-. unfold bounds. rewrite !index_usz. cbn [bind fst snd]. rewrite H1. cbn [bind]. rewrite H2. reflexivity.
Qed.
Lemma copy_slice_to x b s r l l' r' y : lookup x r = Some (VBytes l) -> copy_at l 0 b s = Ret l' -> assign x (VBytes l') r = Ret r' ->
  Ret (r', SVal unit_value) = y -> copy_slice x (VRange None (Some (usize b)) false) (VBytes s) r = y.
Proof.
  unfold copy_slice. intros -> H1 H2 <-. unfold bounds. rewrite !index_usz. cbn [bind fst snd]. rewrite H1. cbn [bind]. rewrite H2. reflexivity.
Qed.
Lemma write_utf8_go c b a r b' r' y : copy_at b 0 (List.length (encode_utf8 c)) (encode_utf8 c) = Ret b' -> write_back a (VBytes b') r = Ret r' ->
  Ret (r', SVal (VStr (encode_utf8 c))) = y -> write_utf8 (VChar c) (VBytes b) a r = y.
Proof. unfold write_utf8. intros H1 H2 <-. rewrite H1. cbn [bind]. rewrite H2. reflexivity. Qed.
Lemma next_nil e r r' y : write_back e (VIter []) r = Ret r' -> Ret (r', SVal (VCon "None" [])) = y -> next_item e (VIter []) r = y.
Proof. unfold next_item. intros H <-. cbn [tl hd_error option_con]. rewrite H. reflexivity. Qed.
Lemma next_cons e v l r r' y : write_back e (VIter l) r = Ret r' -> Ret (r', SVal (VCon "Some" [v])) = y -> next_item e (VIter (v :: l)) r = y.
Proof. unfold next_item. intros H <-. cbn [tl hd_error option_con]. rewrite H. reflexivity. Qed.

(* binary_search_by_key only looks at the keys *)
Lemma bsearch_keys {V W} (t : list (N * V)) (u : list (N * W)) key : map fst t = map fst u -> binary_search_by_key t key = binary_search_by_key u key.
Proof.
  intros H.
  assert (X : forall i, option_map fst (nth_error t i) = option_map fst (nth_error u i)).
  { intros i. rewrite <- !nth_error_map, H. reflexivity. }
  assert (L : forall n base size, bsearch_loop n t key base size = bsearch_loop n u key base size).
  { induction n as [|n IH]; intros base size; [reflexivity|]. cbn [bsearch_loop]. destruct (1 <? size)%nat; [|reflexivity].
    unfold idx_unchecked. specialize (X (base + Nat.div2 size)%nat).
    destruct (nth_error t _) as [p|], (nth_error u _) as [q|]; try discriminate X; cbn [bind]; [|reflexivity].
    cbn [option_map] in X. assert (E : fst p = fst q) by congruence. rewrite E. apply IH. }
  unfold binary_search_by_key. rewrite <- (map_length fst t), H, map_length. destruct (List.length u =? 0)%nat; [reflexivity|].
  rewrite L. destruct (bsearch_loop _ u key 0 _) as [b| | |]; cbn [bind]; try reflexivity.
  unfold idx_unchecked. specialize (X b).
  destruct (nth_error t _) as [p|], (nth_error u _) as [q|]; try discriminate X; cbn [bind]; [|reflexivity].
  cbn [option_map] in X. assert (E : fst p = fst q) by congruence. rewrite E. reflexivity.
Qed.
Lemma map_m_map {A C} (f : A -> value) (k : value -> outcome C) (g : A -> C) (l : list A) :
  (forall x, k (f x) = Ret (g x)) -> map_m k (map f l) = Ret (map g l).
Proof. intros H. induction l as [|x l IH]; [reflexivity|]. cbn [map map_m]. rewrite H. cbn [bind]. rewrite IH. reflexivity. Qed.
Lemma search_go {V} ev p body (entry : N * V -> value) t c r o y :
  (forall x, key_of ev p body r (entry x) = Ret (fst x)) ->
  binary_search_by_key t c = Ret o ->
  Ret (r, SVal (match o with Some i => VCon "Ok" [usize i] | None => VCon "Err" [unit_value] end)) = y ->
  search_by_key ev p body (VArr (map entry t)) (VChar c) r = y.
Proof.
  intros K B <-. unfold search_by_key. rewrite (map_m_map entry _ fst t K). cbn [bind]. unfold search. cbn [char_key bind].
  rewrite (bsearch_keys _ t) by (rewrite map_map; apply map_id). rewrite B. reflexivity.
Qed.

(** ** Loops *)

Definition sim {S S' R R'} (rel : S -> S' -> Prop) (ret : R -> R' -> Prop) (c : ctl S R) (c' : ctl S' R') : Prop :=
  match c, c' with
  | Continue t, Continue t' | Break t, Break t' => rel t t'
  | Return x, Return x' => ret x x'
  | _, _ => False
  end.
Definition sim_end {S S' R R'} (rel : S -> S' -> Prop) (ret : R -> R' -> Prop) (e : S + R) (e' : S' + R') : Prop :=
  match e, e' with inl t, inl t' => rel t t' | inr x, inr x' => ret x x' | _, _ => False end.
Lemma loop_sim {S S' R R'} (rel : S -> S' -> Prop) (ret : R -> R' -> Prop)
    (body : S -> outcome (ctl S R)) (body' : S' -> outcome (ctl S' R')) :
  (forall s s' c, rel s s' -> body s = Ret c -> exists c', body' s' = Ret c' /\ sim rel ret c c') ->
  forall n n' s s' res, (n <= n')%nat -> rel s s' -> loop n body s = Ret res ->
  exists res', loop n' body' s' = Ret res' /\ sim_end rel ret res res'.
Proof.
  intros H n. induction n as [|n IH]; intros n' s s' res L Rs E; [discriminate E|].
  destruct n' as [|n']; [lia|]. cbn [loop] in *. destruct (body s) as [c| | |] eqn:B; try discriminate E. cbn [bind] in E.
  destruct (H s s' c Rs B) as (c' & -> & Rc). cbn [bind].
  destruct c as [t|t|x], c' as [t'|t'|x']; try contradiction.
  - apply (IH n' t t' res); [lia|exact Rc|exact E].
  - exists (inl t'). split; [reflexivity|]. replace res with (@inl S R t) by congruence. exact Rc.
  - exists (inr x'). split; [reflexivity|]. replace res with (@inr S R x) by congruence. exact Rc.
Qed.
Lemma for_go max prog fuel d m p e body r r1 v its rest r2 s : for_mut_of p e = None ->
  eval max prog fuel d m e r = Ret (r1, SVal v) -> items_of max v = Ret its ->
  loop fuel (for_body (eval max prog fuel d m) p body) (its, r1) = Ret rest ->
  (match rest with inl s => (snd s, SVal unit_value) | inr (r, v) => (r, SReturn v) end) = (r2, s) ->
  eval max prog fuel (S d) m (EFor p e body) r = Ret (r2, s).
Proof.
  intros H0 H1 H2 H3 H4. rewrite (ev_for _ _ _ _ _ _ _ _ _ H0), H1. unfold then_. cbn [bind snd fst]. rewrite H2. cbn [bind]. rewrite H3.
  unfold loop_end. cbn [bind]. destruct rest as [t|[r' w]]; rewrite <- H4; reflexivity.
Qed.
Lemma while_let_go max prog fuel d m p e body r rest r2 s :
  loop fuel (while_let_body (eval max prog fuel d m) p e body) r = Ret rest ->
  (match rest with inl r => (r, SVal unit_value) | inr (r, v) => (r, SReturn v) end) = (r2, s) ->
  eval max prog fuel (S d) m (EWhileLet p e body) r = Ret (r2, s).
Proof.
  intros H1 H2. rewrite ev_while_let, H1. unfold loop_end. cbn [bind]. destruct rest as [t|[r' w]]; rewrite <- H2; reflexivity.
Qed.

(** ** Conversions *)

Lemma cast_char_u32 max c : c < 4294967296 -> cast max (VChar c) (TyPath ["u32"] []) = Ret (VInt U32 c).
Proof. intros H. unfold cast. change (int_type "u32") with (Some U32). cbv iota. cbn [ity_max]. rewrite N.mod_small by lia. reflexivity. Qed.
Lemma cast_char_u8 max c : cast max (VChar c) (TyPath ["u8"] []) = Ret (VInt U8 (as_u8 c)).
Proof. reflexivity. Qed.
Lemma cast_u8 max t n : cast max (VInt t n) (TyPath ["u8"] []) = Ret (VInt U8 (as_u8 n)).
Proof. reflexivity. Qed.
Lemma cast_u16 max t n : cast max (VInt t n) (TyPath ["u16"] []) = Ret (VInt U16 (as_u16 n)).
Proof. reflexivity. Qed.
Lemma cast_u32 max t n : n < 4294967296 -> cast max (VInt t n) (TyPath ["u32"] []) = Ret (VInt U32 n).
Proof. intros H. unfold cast. change (int_type "u32") with (Some U32). cbv iota. cbn [ity_max]. rewrite N.mod_small by lia. reflexivity. Qed.
Lemma cast_usize max t n : n <= max -> cast max (VInt t n) (TyPath ["usize"] []) = Ret (VInt Usize n).
Proof. intros H. unfold cast. change (int_type "usize") with (Some Usize). cbv iota. cbn [ity_max]. rewrite N.mod_small by lia. reflexivity. Qed.
Lemma let_usz max x n w j : N.to_nat n = j -> N.of_nat j <= max -> let_value max (PVar x) (ELit (LInt n "")) (VLit w) = Ret (usize j).
Proof. intros <- H. unfold let_value, lit_as, usize. cbn [ity_max]. rewrite (proj2 (N.leb_le _ _)) by lia. rewrite N2Nat.id. reflexivity. Qed.
Lemma len_map {A} (f : A -> value) l : core_method (VArr (map f l)) "len" [] = Ret (usize (List.length l)).
Proof. unfold core_method, usize. cbn. rewrite map_length. reflexivity. Qed.
Lemma index_arr_N l n b : idx l (N.to_nat n) = Ret b -> index (VArr l) (VInt Usize n) = Ret b.
Proof. exact (fun H => H). Qed.
Lemma as_bytes_ints (l : list N) : (List.length l <> 0)%nat -> array 0 (map (VInt U8) l) = Ret (VBytes l).
Proof.
  intros H. unfold array. destruct l as [|b l]; [contradiction H; reflexivity|].
  assert (F : forall l, forallb is_byte (map (VInt U8) l) = true) by (induction l0; [reflexivity|assumption]).
  assert (G : forall l, as_bytes 0 (map (VInt U8) l) = Ret l).
  { induction l0 as [|x l0 IH]; [reflexivity|]. cbn [map as_bytes]. rewrite IH. reflexivity. }
  rewrite F, G. reflexivity.
Qed.
Lemma after_val r v k x : k r v = x -> after r (SVal v) k = x.
Proof. exact (fun H => H). Qed.

(** ** Tactics *)

(* computes in goals about variables, patterns and types; touches no numbers *)
Ltac compute_env :=
  lazy beta iota zeta delta [lookup assign leave same_size String.eqb Ascii.eqb Bool.eqb eqb bind match_pat last write_back referent
    write_backs coerce is_u8 int_type bind_params fst snd fn_params fn_ret fn_body is].

Ltac any_hyp := match goal with H : forall _, _ |- _ => eapply H end.
Ltac env_tac := first [ eassumption | any_hyp | compute_env; reflexivity ].
(* decides a condition *)
Ltac yes := first [ assumption | reflexivity | lia ].
Ltac num := first [ lia | cbn [ity_max]; lia ].

Ltac decide_all :=
  repeat lazymatch goal with
  | |- context [if ?b then _ else _] =>
      first [ let H := fresh in assert (H : b = true) by yes; rewrite H; clear H
            | let H := fresh in assert (H : b = false) by yes; rewrite H; clear H ];
      cbv iota
  end.
Ltac arith_tac :=
  lazymatch goal with
  | |- arith _ Add _ _ _ = _ => eapply arith_add; num
  | |- arith _ Sub _ _ _ = _ => eapply arith_sub; num
  | |- arith _ Mul _ _ _ = _ => eapply arith_mul; num
  | |- arith _ Div _ _ _ = _ => eapply arith_div; num
  | |- arith _ Rem _ _ _ = _ => eapply arith_rem; num
  | |- arith _ _ _ _ _ = _ => lazy beta iota delta [arith]; reflexivity
  end.
Ltac binary_tac :=
  lazymatch goal with
  | |- binary _ Add (usize _) (VLit _) = _ => eapply usz_add_lit; [cbv; reflexivity | num]
  | |- binary _ Add (usize _) (usize _) = _ => eapply usz_add; num
  | |- binary _ Sub (usize _) (VLit _) = _ => eapply usz_sub_lit; [cbv; reflexivity | num | num]
  | |- binary _ Sub (usize _) (usize _) = _ => eapply usz_sub; num
  | |- binary _ Mul (usize _) (VLit _) = _ => eapply usz_mul_lit; [cbv; reflexivity | num | num]
  | |- binary _ _ (usize _) (usize _) = _ => eapply eq_trans; [eapply usz_cmp; reflexivity | lazy beta iota delta [nat_cmp]; reflexivity]
  | |- binary _ _ (usize _) (VLit _) = _ =>
      eapply eq_trans; [eapply usz_cmp_lit; [reflexivity | cbv; reflexivity | num] | lazy beta iota delta [nat_cmp]; reflexivity]
  | |- binary _ Shl (VInt U32 _) (VLit _) = _ => eapply shl_u32; reflexivity
  | |- binary _ Shr (VInt U32 _) (VLit _) = _ => eapply shr_u32; reflexivity
  | |- binary _ _ (VInt _ _) (VLit _) = _ => eapply bin_lit; [reflexivity | num | arith_tac]
  | |- binary _ _ (VLit _) (VInt _ _) = _ => eapply bin_lit_l; [reflexivity | num | arith_tac]
  | |- binary _ _ (VInt ?t ?a) (usize ?b) = _ => change (usize b) with (VInt Usize (N.of_nat b)); eapply bin_int; [reflexivity | arith_tac]
  | |- binary _ _ (VInt _ _) (VInt _ _) = _ => eapply bin_int; [reflexivity | arith_tac]
  | |- binary _ _ (VChar _) (VChar _) = _ => reflexivity
  end.
Ltac cast_tac :=
  first [ eapply cast_char_u32; num | eapply cast_char_u8 | eapply cast_u8 | eapply cast_u16 | eapply cast_u32; num | eapply cast_usize; num ].
Ltac index_tac :=
  lazymatch goal with
  | |- index (VBytes _) (usize _) = _ => eapply index_bytes; eassumption
  | |- index (VBytes _) (VLit _) = _ => eapply index_bytes_lit; [cbv; reflexivity | first [eassumption | reflexivity]]
  | |- index (VBytes _) (VRange None (Some (usize _)) false) = _ => eapply index_to; eassumption
  | |- index (VArr (map _ _)) (usize _) = _ => eapply index_arr; eapply idx_map; eassumption
  | |- index (VArr (map _ _)) (VInt Usize _) = _ => eapply index_arr_N; eapply idx_map; eassumption
  end.
Ltac method_tac :=
  first [ eapply len_map
        | eapply eq_trans; [ lazy beta iota zeta delta [core_method is String.eqb Ascii.eqb Bool.eqb eqb orb le_bytes be_bytes bind] | ]; reflexivity ].
(* writing to the buffer of encode_utf8; to be extended *)
Ltac scratch_tac := eassumption.
(* calls of core that are not just computed; to be extended *)
Ltac core_tac := fail.
Ltac pure :=
  lazymatch goal with
  | |- literal_value _ _ = _ => reflexivity
  | |- binary _ _ _ _ = _ => binary_tac
  | |- cast _ _ _ = _ => cast_tac
  | |- index _ _ = _ => index_tac
  | |- core_method _ _ _ = _ => first [ core_tac | method_tac ]
  | |- core_fn _ _ _ = _ => first [ core_tac | reflexivity ]
  | |- array _ _ = _ => reflexivity
  | |- bind (index_of _) _ = _ => reflexivity
  end.

(* calls of functions of the program; to be extended *)
Ltac apply_tac := first [ eassumption | any_hyp ].
(* fields; to be extended *)
Ltac field_tac := lazy beta iota delta [is String.eqb Ascii.eqb Bool.eqb eqb]; reflexivity.

Ltac go :=
  lazymatch goal with
  | |- eval _ _ _ _ _ _ _ = _ => ev
  | |- then_ _ _ = _ => eapply then_go; [go | go]
  | |- after _ (SVal _) _ = _ => apply after_val; cbv beta; go
  | |- after _ _ _ = _ => reflexivity
  | |- value_of _ _ = _ => eapply value_go; [pure | reflexivity]
  | |- eval_list _ [] _ _ = _ => apply list_nil; cbv beta; go
  | |- eval_list _ (_ :: _) _ _ = _ => eapply list_cons; [go | go]
  | |- eval_opt _ None _ _ = _ => unfold eval_opt; go
  | |- eval_opt _ (Some _) _ _ = _ => unfold eval_opt; go
  | |- scoped _ _ = _ => eapply scoped_go; [go | env_tac | reflexivity]
  | |- statements _ _ _ [] _ = _ => cbn [statements]; go
  | |- statements _ _ _ (SLet _ _ _ :: _) _ = _ => eapply let_go; [go | go]
  | |- statements _ _ _ (SExpr _ :: _) _ = _ => eapply expr_go; [go | go]
  | |- let_k _ _ _ _ _ _ _ _ _ = _ =>
      eapply let_rest;
        [ first [ eapply let_usz; [cbv; reflexivity | num] | reflexivity ] | first [ reflexivity | compute_env; reflexivity ] | env_tac | go ]
  | |- else_ _ (Some _) _ = _ => unfold else_; go
  | |- else_ _ None _ = _ => reflexivity
  | |- branch _ _ _ _ _ _ = _ => eapply branch_go; [compute_env; decide_all; reflexivity | cbv iota; go]
  | |- arms _ (_ :: _) _ _ = _ => cbn [arms]; go
  | |- set_var _ _ _ _ = _ => eapply set_var_go; [env_tac | reflexivity | env_tac | reflexivity]
  | |- set_index _ _ (usize _) (VInt U8 _) _ = _ =>
      eapply set_index_go; [env_tac | eassumption | env_tac | reflexivity]
  | |- set_index _ _ (usize _) (VLit _) _ = _ =>
      eapply set_index_lit; [reflexivity | env_tac | eassumption | env_tac | reflexivity]
  | |- copy_slice _ (VRange (Some _) (Some _) false) _ _ = _ =>
      eapply copy_slice_go; [env_tac | eassumption | env_tac | reflexivity]
  | |- copy_slice _ (VRange None (Some _) false) _ _ = _ =>
      eapply copy_slice_to; [env_tac | eassumption | env_tac | reflexivity]
  | |- write_utf8 _ _ _ _ = _ => eapply write_utf8_go; [scratch_tac | compute_env; reflexivity | reflexivity]
  | |- next_item _ (VIter []) _ = _ => eapply next_nil; [compute_env; reflexivity | reflexivity]
  | |- next_item _ (VIter (_ :: _)) _ = _ => eapply next_cons; [compute_env; reflexivity | reflexivity]
  | |- Ret _ = _ => reflexivity
  | |- match lookup _ _ with _ => _ end = _ => eapply op_assign_go; [env_tac | binary_tac | go]
  | |- bind (binary _ _ _ _) _ = _ => eapply bind_go; [binary_tac | cbv beta; go]
  | |- search_by_key _ _ _ (VArr (map _ _)) (VChar _) _ = _ =>
      eapply search_go;
        [ let x := fresh "x" in intros x; unfold key_of; (eapply bind_go; [compute_env; reflexivity | cbv iota; (eapply bind_go; [go | reflexivity])])
        | eassumption | cbv iota; reflexivity ]
  | |- bind (apply_fn _ _ _ _) _ = _ =>
      eapply bind_go; [apply_tac | cbv beta; (eapply bind_go; [compute_env; reflexivity | cbn [fst snd]; reflexivity])]
  | |- match _ with _ => _ end = _ => field_tac
  | |- ?g => idtac "no rule for" g; fail
  end
with ev :=
  lazymatch goal with
  | |- eval _ _ _ _ _ ?e _ = _ =>
      lazymatch e with
      | ELit _ => refine (eq_trans (ev_lit _ _ _ _ _ _ _) _); go
      | EPath [_] =>
          first [ eapply ev_var; env_tac
                | eapply ev_const; [compute_env; reflexivity | const_tac]
                | eapply ev_unit; [compute_env; reflexivity | const_tac] ]
      | EPath _ => first [ eapply ev_const; [reflexivity | const_tac] | eapply ev_unit; [reflexivity | const_tac] ]
      | ETuple _ => refine (eq_trans (ev_tuple _ _ _ _ _ _ _) _); go
      | EArr _ => refine (eq_trans (ev_arr _ _ _ _ _ _ _) _); go
      | ERepeat _ _ => refine (eq_trans (ev_repeat _ _ _ _ _ _ _ _) _); go
      | EStruct _ _ => refine (eq_trans (ev_struct _ _ _ _ _ _ _ _) _); cbn [map snd]; go
      | ERef _ _ => refine (eq_trans (ev_ref _ _ _ _ _ _ _ _) _); ev
      | EDeref _ => refine (eq_trans (ev_deref _ _ _ _ _ _ _) _); ev
      | ENot _ => eapply ev_not; ev
      | EBin _ _ _ => refine (eq_trans (ev_bin _ _ _ _ _ _ _ _ _) _); go
      | EAnd _ _ =>
          eapply ev_and; [ev | first [eapply if_true; [yes | ] | eapply if_false; [yes | ] | eapply and_pure]; go]
      | EOr _ _ =>
          eapply ev_or; [ev | first [eapply if_true; [yes | ] | eapply if_false; [yes | ] | eapply or_pure]; go]
      | ECast _ _ => refine (eq_trans (ev_cast _ _ _ _ _ _ _ _) _); go
      | EField _ _ => refine (eq_trans (ev_field _ _ _ _ _ _ _ _) _); go
      | EIndex _ _ => refine (eq_trans (ev_index _ _ _ _ _ _ _ _) _); go
      | ERange _ _ _ => refine (eq_trans (ev_range _ _ _ _ _ _ _ _ _) _); go
      | ECall _ _ => call_tac
      | EMethod _ "next" _ => refine (eq_trans (ev_next _ _ _ _ _ _ _ _) _); go
      | EMethod _ "copy_from_slice" _ => refine (eq_trans (ev_copy _ _ _ _ _ _ _ _ _) _); go
      | EMethod _ "encode_utf8" _ => refine (eq_trans (ev_encode_utf8 _ _ _ _ _ _ _ _) _); go
      | EMethod _ "binary_search_by_key" _ => refine (eq_trans (ev_search _ _ _ _ _ _ _ _ _ _) _); go
      | EMethod _ _ _ => eapply eq_trans; [eapply ev_method; reflexivity | go]
      | EBlock _ _ => refine (eq_trans (ev_block _ _ _ _ _ _ _ _) _); go
      | EIf _ _ _ => eapply ev_if; [ev | first [eapply if_true; [yes | ] | eapply if_false; [yes | ]]; go]
      | EIfLet _ _ _ _ => refine (eq_trans (ev_if_let _ _ _ _ _ _ _ _ _ _) _); go
      | EMatch _ _ => refine (eq_trans (ev_match _ _ _ _ _ _ _ _) _); go
      | EAssign (EPath _) _ => refine (eq_trans (ev_assign _ _ _ _ _ _ _ _) _); go
      | EAssign (EIndex _ _) _ => refine (eq_trans (ev_assign_index _ _ _ _ _ _ _ _ _) _); go
      | EOpAssign _ _ _ => refine (eq_trans (ev_op_assign _ _ _ _ _ _ _ _ _) _); go
      | EBreak => apply ev_break
      | EContinue => apply ev_continue
      | EReturn _ => refine (eq_trans (ev_return _ _ _ _ _ _ _) _); go
      | EFor _ _ _ => eapply for_go; [reflexivity | ev | reflexivity | eassumption | reflexivity]
      | EWhileLet _ _ _ => eapply while_let_go; [eassumption | reflexivity]
      | EWhile _ _ => first [eassumption | any_hyp]
      end
  end
with call_tac := fail
with const_tac := reflexivity.
