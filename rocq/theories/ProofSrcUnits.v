(* A small evaluator for the unit tests of the crate, which calls the functions of the model in place of those of the crate, and its
   correctness: what it finds is what the interpreter finds, for every sufficiently large usize::MAX, fuel and depth. *)
From Coq Require Import List NArith Arith Bool String Lia.
From Verif Require Import Prelude RustCore Encodings Types ModelApi ModelWord.
From Verif Require Import RustSyntax RustEval RustProgram SourceCrate SourceWhatwg SourceAst SourceApi RustRules Tac.
From Verif Require Import ProofUtf8 ProofApi ProofWord ProofSrc ProofSrcAll ProofSrcTests ProofSrcTestsRun ProofSrcFiles.
From Verif Require Import Spec.
Import ListNotations.
Local Open Scope string_scope.
Local Open Scope N_scope.
Local Open Scope list_scope.

Definition opt {A} (o : outcome A) : option A := match o with Ret a => Some a | _ => None end.
Notation "'do' x <- a ; b" := (match a with Some x => b | None => None end) (x pattern, at level 200).
Lemma opt_ret {A} (o : outcome A) a : opt o = Some a -> o = Ret a.
Proof. destruct o; cbn; congruence. Qed.

Inductive target := ToEncode (e : encoding) | ToDecode (e : encoding) | ToFn (f : fn) | ToCon.

(** ** Types of parameters *)

Definition low_int (t : ity) (n : N) : option value := if n <=? ity_max 65535 t then Some (VInt t n) else None.
Definition coerce0 (t : ty) (v : value) : option value :=
  match t with
  | TyPath [s] [] => match v, int_type s with VLit n, Some t => low_int t n | _, _ => Some v end
  | _ => None
  end.
Definition coerce1 (t : ty) (v : value) : option value :=
  match t with
  | TyRef _ (TySlice t) =>
      match v with
      | VArr vs => if is_u8 t then opt (let* l := as_bytes 65535 vs in Ret (VBytes l)) else None
      | _ => Some v
      end
  | TyRef _ t => coerce0 t v
  | TyTuple [t; u] => match v with VTuple [v; w] => do v <- coerce0 t v; do w <- coerce0 u w; Some (VTuple [v; w]) | _ => None end
  | _ => coerce0 t v
  end.
Fixpoint params (ps : list (string * ty)) (vs : list value) : option env :=
  match ps, vs with
  | [], [] => Some []
  | (x, t) :: ps, v :: vs => do v <- coerce1 t v; do r <- params ps vs; Some ((x, v) :: r)
  | _, _ => None
  end.

(** ** Arguments of the functions of the crate *)

Definition enc_inputs (e : encoding) (vs : list value) : option (list N * list N * bool) :=
  match vs with
  | [VStr s; VBytes out] => match e with Big5WHATWG => None | _ => Some (s, out, true) end
  | [VStr s; VBytes out; VBool b] => match e with Big5WHATWG => Some (s, out, b) | _ => None end
  | _ => None
  end.
Definition byte_values (v : value) : option (list N) :=
  match v with VBytes l => Some l | VArr vs => opt (as_bytes 65535 vs) | _ => None end.
Definition dec_inputs (e : encoding) (vs : list value) : option (list N * list N * bool) :=
  match vs with
  | [v; VBytes out] => do l <- byte_values v; match e with Single _ => Some (l, out, true) | _ => None end
  | [v; VBytes out; VBool b] => do l <- byte_values v; match e with Single _ => None | _ => Some (l, out, b) end
  | _ => None
  end.
Definition small (l : list N) : bool := N.of_nat (List.length l) <? 600.

(** ** Expressions *)

Section Parts.
Variable ev : expr -> env -> option (env * value).
Fixpoint run_list (es : list expr) (r : env) : option (env * list value) :=
  match es with
  | [] => Some (r, [])
  | e :: es => do (r, v) <- ev e r; do (r, vs) <- run_list es r; Some (r, v :: vs)
  end.
Definition run_opt (o : option expr) (r : env) : option (env * option value) :=
  match o with None => Some (r, None) | Some e => do (r, v) <- ev e r; Some (r, Some v) end.
Definition let_low (p : pat) (e : expr) (v : value) : option value :=
  match p, e, v with
  | PVar _, ELit (LInt n EmptyString), VLit _ => low_int Usize n
  | _, _, _ => Some v
  end.
Fixpoint run_statements (ss : list stmt) (r : env) : option env :=
  match ss with
  | [] => Some r
  | SLet p None e :: ss =>
      do (r, v) <- ev e r; do v <- let_low p e v;
      match match_pat p v r with Ret (Some r) => run_statements ss r | _ => None end
  | SExpr e :: ss => do (r, _) <- ev e r; run_statements ss r
  | _ => None
  end.
Fixpoint run_for (p : pat) (body : expr) (its : list value) (r : env) : option env :=
  match its with
  | [] => Some r
  | it :: its =>
      match match_pat p it r with
      | Ret (Some r1) => do (r2, _) <- ev body r1; run_for p body its (leave r r2)
      | _ => None
      end
  end.
End Parts.

Definition pure_methods := ["unwrap"; "as_bytes"; "len"; "len_utf8"].
Definition range_items (v : value) : option (list value) :=
  match v with
  | VRange (Some (VLit a)) (Some (VInt U8 b)) true =>
      if a <=? 255 then Some (map (fun i => VInt U8 (a + N.of_nat i)) (seq 0 (N.to_nat (b + 1 - a)))) else None
  | _ => None
  end.

Section Run.
Variable known : path -> option target.     (* the functions *)
Variable unit_path : path -> bool.          (* paths of constructors without arguments *)

Fixpoint run (n : nat) (e : expr) (r : env) {struct n} : option (env * value) :=
  match n with
  | O => None
  | S n =>
      let ev := run n in
      match e with
      | ELit (LInt k s) => do v <- match s with EmptyString => Some (VLit k) | _ => do t <- int_type s; low_int t k end; Some (r, v)
      | ELit l => do v <- opt (literal_value 65535 l); Some (r, v)
      | EPath [x] => do v <- lookup x r; Some (r, v)
      | EPath p => if unit_path p then Some (r, VCon (last p "") []) else None
      | ETuple es => do (r, vs) <- run_list ev es r; Some (r, VTuple vs)
      | EArr es => do (r, vs) <- run_list ev es r; do v <- opt (array 65535 vs); Some (r, v)
      | ERepeat e k =>
          do (r, v) <- ev e r; do (r, k) <- ev k r; do k <- opt (index_of k);
          match v with VInt U8 b => Some (r, VBytes (repeat b k)) | _ => None end
      | EStruct p fs => do (r, vs) <- run_list ev (map snd fs) r; Some (r, VStruct (last p "") (combine (map fst fs) vs))
      | ERef _ e => ev e r
      | ECast e (TyPath [s] []) =>
          if String.eqb s "char" then do (r, v) <- ev e r; match v with VInt U8 k => Some (r, VChar k) | _ => None end else None
      | EIndex e i => do (r, v) <- ev e r; do (r, i) <- ev i r; do v <- opt (index v i); Some (r, v)
      | ERange lo hi incl => do (r, lo) <- run_opt ev lo r; do (r, hi) <- run_opt ev hi r; Some (r, VRange lo hi incl)
      | ECall p args =>
          do t <- known p; do (r, vs) <- run_list ev args r;
          match t with
          | ToEncode e =>
              match args with
              | a :: b :: _ =>
                  do (s, out, ie) <- enc_inputs e vs;
                  if small s && small out && forallb (fun c => c <? 256) s && (utf8_valid_up_to s =? List.length s)%nat then
                    do (res, buf) <- opt (encode_from_str e s out ie); do r <- opt (write_back b (VBytes buf) r); Some (r, encode_value res)
                  else None
              | _ => None
              end
          | ToDecode e =>
              match args with
              | a :: b :: _ =>
                  do (s, out, ie) <- dec_inputs e vs;
                  if small s && small out && forallb (fun c => c <? 256) s then
                    do (res, buf) <- opt (decode_to_str e s out ie); do r <- opt (write_back b (VBytes buf) r); Some (r, decode_value res)
                  else None
              | _ => None
              end
          | ToFn f =>
              match fn_ret f with
              | None => do r0 <- params (fn_params f) vs; do (rf, v) <- run n (fn_body f) r0; do r <- opt (write_backs (fn_params f) args rf r); Some (r, v)
              | Some _ => None
              end
          | ToCon => match p with [c] => Some (r, VCon c vs) | _ => None end
          end
      | EMethod e f args =>
          if is f "encode_utf8" then
            match args with
            | [a] => do (r, c) <- ev e r; do (r, b) <- ev a r;
                     match opt (write_utf8 c b a r) with Some (r, SVal v) => Some (r, v) | _ => None end
            | _ => None
            end
          else if existsb (String.eqb f) pure_methods then
            do (r, v) <- ev e r; do (r, vs) <- run_list ev args r; do v <- opt (core_method v f vs); Some (r, v)
          else None
      | EMacro f args =>
          if is f "assert_eq" then
            do (r, vs) <- run_list ev args r;
            match vs with [a; b] => if same a b then Some (r, unit_value) else None | _ => None end
          else None
      | EBlock ss tail =>
          do r1 <- run_statements ev ss r;
          match tail with
          | None => Some (leave r r1, unit_value)
          | Some e => do (r2, v) <- ev e r1; Some (leave r r2, v)
          end
      | EFor p e body =>
          match for_mut_of p e with
          | Some _ => None
          | None => do (r, v) <- ev e r; do its <- range_items v;
                    if (N.of_nat (List.length its) <? 600) then do r <- run_for ev p body its r; Some (r, unit_value) else None
          end
      | _ => None
      end
  end.


(** ** It agrees with the interpreter *)

Variables (max : N) (fuel : nat) (m : path).
Hypothesis M : 65535 <= max.
Hypothesis F : (600 <= fuel)%nat.
Let prog := source max.
Hypothesis known_ok : forall p t, known p = Some t ->
  match t with
  | ToEncode e => find_fn prog m p = Some (module_of e, encode_fn e)
  | ToDecode e => find_fn prog m p = Some (module_of e, decode_fn e)
  | ToFn f => find_fn prog m p = Some (m, f)
  | ToCon => find_fn prog m p = None
  end.
Hypothesis unit_ok : forall p, unit_path p = true -> find_const prog m p = None.
Notation eval := (eval max prog fuel).

Lemma low_int_ok t n v : low_int t n = Some v -> lit_as max t n = Ret v.
Proof.
  unfold low_int, lit_as. destruct (N.leb_spec n (ity_max 65535 t)) as [L|]; [|discriminate]. intros [= <-].
  rewrite (proj2 (N.leb_le n (ity_max max t))); [reflexivity|]. destruct t; cbn [ity_max] in *; lia.
Qed.
Lemma coerce0_ok t v w : coerce0 t v = Some w -> coerce max t v = Ret w.
Proof.
  unfold coerce0. destruct t as [[|s []] []| | | |]; try discriminate. cbn [coerce].
  destruct v; try (intros [= <-]; reflexivity). destruct (int_type s); [apply low_int_ok|intros [= <-]; reflexivity].
Qed.
Lemma as_bytes_any vs : as_bytes max vs = as_bytes 65535 vs.
Proof. reflexivity. Qed.
Lemma coerce1_ok t v w : coerce1 t v = Some w -> coerce max t v = Ret w.
Proof.
  destruct t as [p l|b t|t|t n|ts]; try apply coerce0_ok.
  - destruct t as [p l|b' t|t|t n|ts]; try (intros H; exact (coerce0_ok _ _ _ H)).
    cbn [coerce1 coerce]. destruct v; try (intros [= <-]; reflexivity). destruct (is_u8 t); [|discriminate].
    intros H. apply opt_ret in H. rewrite as_bytes_any. exact H.
  - cbn [coerce1]. destruct ts as [|t [|u []]]; try apply coerce0_ok. destruct v; try discriminate. destruct vs as [|v [|v' []]]; try discriminate.
    destruct (coerce0 t v) eqn:E1; [|discriminate]. destruct (coerce0 u v') eqn:E2; [|discriminate]. intros [= <-].
    cbn [coerce]. rewrite (coerce0_ok _ _ _ E1), (coerce0_ok _ _ _ E2). reflexivity.
Qed.
Lemma params_ok ps : forall vs r, params ps vs = Some r -> bind_params max ps vs = Ret r.
Proof.
  induction ps as [|[x t] ps IH]; intros [|v vs] r; cbn [params bind_params]; try discriminate; [intros [= <-]; reflexivity|].
  destruct (coerce1 t v) eqn:E; [|discriminate]. destruct (params ps vs) eqn:E1; [|discriminate]. intros [= <-].
  rewrite (coerce1_ok _ _ _ E). cbn [bind]. rewrite (IH _ _ E1). reflexivity.
Qed.
Lemma array_any vs : array max vs = array 65535 vs.
Proof. reflexivity. Qed.

(* e: what a smaller evaluator finds *)
Section Step.
Variables (ev : expr -> env -> option (env * value)) (d : nat).
Hypothesis H : forall e r r' v, ev e r = Some (r', v) -> eval d m e r = Ret (r', SVal v).
Lemma list_ok es : forall r r' vs k, run_list ev es r = Some (r', vs) -> eval_list (eval d m) es r k = k r' vs.
Proof.
  induction es as [|e es IH]; intros r r' vs k; cbn [run_list eval_list]; [intros [= <- <-]; reflexivity|].
  destruct (ev e r) as [[r1 v]|] eqn:E; [|discriminate]. destruct (run_list ev es r1) as [[r2 vs']|] eqn:E1; [|discriminate]. intros [= <- <-].
  rewrite (H _ _ _ _ E). cbn [then_ bind fst snd]. rewrite (IH _ _ _ _ E1). reflexivity.
Qed.
Lemma opt_ok o r r' v k : run_opt ev o r = Some (r', v) -> eval_opt (eval d m) o r k = k r' v.
Proof.
  destruct o as [e|]; cbn [run_opt eval_opt]; [|intros [= <- <-]; reflexivity].
  destruct (ev e r) as [[r1 w]|] eqn:E; [|discriminate]. intros [= <- <-]. rewrite (H _ _ _ _ E). reflexivity.
Qed.
Lemma let_low_ok p e v w : let_low p e v = Some w -> let_value max p e v = Ret w.
Proof.
  unfold let_low, let_value. destruct p; try (intros [= <-]; reflexivity). destruct e; try (intros [= <-]; reflexivity).
  destruct l; try (intros [= <-]; reflexivity). destruct suffix; try (intros [= <-]; reflexivity). destruct v; try (intros [= <-]; reflexivity).
  apply low_int_ok.
Qed.
Lemma statements_ok tail ss : forall r r', run_statements ev ss r = Some r' -> statements max (eval d m) tail ss r = else_ (eval d m) tail r'.
Proof.
  induction ss as [|[p [t|] e|e] ss IH]; intros r r'; cbn [run_statements statements]; try discriminate; [intros [= <-]; reflexivity| |].
  - destruct (ev e r) as [[r1 v]|] eqn:E; [|discriminate]. destruct (let_low p e v) eqn:E1; [|discriminate].
    rewrite (H _ _ _ _ E). cbn [then_ bind fst snd]. rewrite (let_low_ok _ _ _ _ E1). cbn [bind].
    destruct (match_pat p v0 r1) as [[r2|]| | |]; try discriminate. cbn [bind]. apply IH.
  - destruct (ev e r) as [[r1 v]|] eqn:E; [|discriminate]. rewrite (H _ _ _ _ E). cbn [then_ bind fst snd]. apply IH.
Qed.
Lemma for_ok p body its : forall r r' n, (List.length its < n)%nat -> run_for ev p body its r = Some r' ->
  loop n (for_body (eval d m) p body) (its, r) = Ret (inl ([], r')).
Proof.
  induction its as [|it its IH]; intros r r' [|n] L; try (cbn in L; lia); cbn [run_for loop for_body fst snd].
  - intros [= <-]. reflexivity.
  - unfold branch. destruct (match_pat p it r) as [[r1|]| | |]; try discriminate.
    destruct (ev body r1) as [[r2 v]|] eqn:E; [|discriminate]. intros E1. cbn [bind]. rewrite (H _ _ _ _ E). cbn [scoped bind fst snd loop_ctl].
    apply IH; [cbn in L; lia|exact E1].
Qed.
End Step.

Lemma enc_inputs_ok e vs s out ie : enc_inputs e vs = Some (s, out, ie) -> vs = encode_args e s out ie.
Proof.
  unfold enc_inputs. destruct vs as [|v vs]; try discriminate. destruct v; try discriminate. destruct vs as [|v vs]; try discriminate.
  destruct v; try discriminate. destruct vs as [|v vs]; [|destruct v; try discriminate; destruct vs; try discriminate]; destruct e; try discriminate; intros [= <- <- <-]; reflexivity.
Qed.
Lemma bytes_param t v l : byte_values v = Some l -> is_u8 t = true -> coerce max (TyRef false (TySlice t)) v = coerce max (TyRef false (TySlice t)) (VBytes l).
Proof.
  intros E T. destruct v; try discriminate; cbn [byte_values] in E; [injection E as <-; reflexivity|]. cbn [coerce]. rewrite T. apply opt_ret in E.
  rewrite as_bytes_any, E. reflexivity.
Qed.
Lemma dec_inputs_ok e vs s out ie : dec_inputs e vs = Some (s, out, ie) ->
  bind_params max (fn_params (decode_fn e)) vs = bind_params max (fn_params (decode_fn e)) (decode_args e s out ie).
Proof.
  unfold dec_inputs. destruct vs as [|v [|[] [|[] []]]]; try discriminate; destruct (byte_values v) eqn:E; try discriminate;
    destruct e; try discriminate; intros [= <- <- <-]; cbn -[coerce]; f_equal; apply (bytes_param _ _ _ E); reflexivity.
Qed.

Lemma small_ok l : small l = true -> (List.length l < 600)%nat.
Proof. unfold small. intros H. apply N.ltb_lt in H. lia. Qed.
Lemma bytes_ok l : forallb (fun c => c <? 256) l = true -> bytes l.
Proof. intros H. rewrite forallb_forall in H. apply Forall_forall. intros b Hb. apply N.ltb_lt, H, Hb. Qed.

Lemma enc_apply e s out ie res buf d : (60 <= d)%nat -> small s = true -> small out = true -> bytes s -> utf8_valid_up_to s = List.length s ->
  encode_from_str e s out ie = Ret (res, buf) ->
  exists r, apply_fn max (eval d (module_of e)) (encode_fn e) (encode_args e s out ie) = Ret (encode_value res, r) /\ lookup "out_buffer" r = Some (VBytes buf).
Proof.
  intros D Hs Ho B V E. apply small_ok in Hs, Ho. destruct (utf8_of_valid s B V) as (cs & T & ->).
  rewrite <- (encode_word_same max) in E by (assumption || lia).
  replace d with (60 + (d - 60))%nat by lia.
  destruct (encode_call max fuel (d - 60) e (utf8 cs) out ie (res, buf) M) as (r & C & Lb); [lia|apply text_items, T|exact E|].
  exists r. split; [exact C|exact Lb].
Qed.
Lemma dec_apply e s out ie res buf d : (60 <= d)%nat -> small s = true -> small out = true -> bytes s ->
  decode_to_str e s out ie = Ret (res, buf) ->
  exists r, apply_fn max (eval d (module_of e)) (decode_fn e) (decode_args e s out ie) = Ret (decode_value res, r) /\ lookup "out_buffer" r = Some (VBytes buf).
Proof.
  intros D Hs Ho B E. apply small_ok in Hs, Ho.
  rewrite <- (decode_word_same max) in E by (assumption || lia).
  replace d with (60 + (d - 60))%nat by lia.
  destruct (decode_call max fuel (d - 60) e s out ie (res, buf) M) as (r & C & Lb); [lia|exact B|exact E|].
  exists r. split; [exact C|exact Lb].
Qed.
Lemma enc_back e s out ie rf args r r' buf a b rest : args = a :: b :: rest -> List.length args = List.length (encode_args e s out ie) ->
  lookup "out_buffer" rf = Some (VBytes buf) -> write_back b (VBytes buf) r = Ret r' -> write_backs (fn_params (encode_fn e)) args rf r = Ret r'.
Proof.
  intros -> L Lb W.
  destruct e; cbn [encode_fn utf8_encode utf16_be_encode utf16_le_encode utf32_be_encode utf32_le_encode big5_encode sjis_encode sb_wrap_encode wrap buffer_ty str_ty bytes_ty fn_params enc_tail app write_backs snd encode_args List.length] in *;
    rewrite Lb, W; cbn [bind]; destruct rest as [|? []]; try discriminate L; reflexivity.
Qed.
Lemma dec_back e vs rf args r r' buf a b rest s out ie : args = a :: b :: rest -> List.length args = List.length vs -> dec_inputs e vs = Some (s, out, ie) ->
  lookup "out_buffer" rf = Some (VBytes buf) -> write_back b (VBytes buf) r = Ret r' -> write_backs (fn_params (decode_fn e)) args rf r = Ret r'.
Proof.
  intros -> L D Lb W.
  assert (List.length vs = match e with Single _ => 2 | _ => 3 end)%nat as Lv.
  { unfold dec_inputs in D. destruct vs as [|v [|w vs]]; try discriminate D. destruct w; try discriminate D. destruct vs as [|w vs].
    - destruct (byte_values v); [|discriminate]. destruct e; try discriminate; reflexivity.
    - destruct w; try discriminate D. destruct vs; [|discriminate]. destruct (byte_values v); [|discriminate]. destruct e; try discriminate; reflexivity. }
  destruct e; cbn [decode_fn utf8_decode utf16_be_decode utf16_le_decode utf32_be_decode utf32_le_decode big5_decode sjis_decode sb_wrap_decode wrap buffer_ty str_ty bytes_ty fn_params dec_tail app write_backs snd] in *;
    rewrite Lb, W; cbn [bind]; cbn [List.length] in L; rewrite Lv in L; destruct rest as [|? []]; try discriminate L; reflexivity.
Qed.
Lemma run_list_length ev es : forall r r' vs, run_list ev es r = Some (r', vs) -> List.length es = List.length vs.
Proof.
  induction es as [|e es IH]; intros r r' vs; cbn [run_list]; [intros [= <- <-]; reflexivity|].
  destruct (ev e r) as [[r1 v]|]; [|discriminate]. destruct (run_list ev es r1) as [[r2 vs']|] eqn:E; [|discriminate]. intros [= <- <-].
  cbn [List.length]. f_equal. exact (IH _ _ _ E).
Qed.

Ltac get H := match type of H with
  | (match ?x with Some _ => _ | None => None end) = Some _ => let E := fresh "E" in destruct x as [[? ?]|] eqn:E; [|discriminate H]
  | (match ?x with Some _ => _ | None => None end) = Some _ => let E := fresh "E" in destruct x as [?|] eqn:E; [|discriminate H]
  end.
Ltac done H := injection H as <- <-.

Theorem run_ok n : forall e r r' v, run n e r = Some (r', v) -> forall d, (61 + n <= d)%nat -> eval d m e r = Ret (r', SVal v).
Proof.
  induction n as [|n IH]; intros e r r' v H d D; [discriminate|].
  destruct d as [|d]; [lia|].
  assert (IH' : forall e r r' v, run n e r = Some (r', v) -> eval d m e r = Ret (r', SVal v)) by (intros; apply IH with (d := d); [assumption|lia]).
  pose proof (list_ok (run n) d IH') as L.
  cbn [run] in H. destruct e; try discriminate H.
  - (* literal *) rewrite ev_lit. destruct l; cbn [literal_value opt] in *; try (done H; reflexivity).
    destruct suffix as [|a s]; [done H; reflexivity|]. destruct (int_type (String a s)); [|discriminate].
    get H. done H. rewrite (low_int_ok _ _ _ E). reflexivity.
  - (* path *) destruct p as [|x [|y p]]; [| |].
    + destruct (unit_path []) eqn:U; [|discriminate]. done H. exact (ev_unit _ _ _ _ _ [] _ eq_refl (unit_ok _ U)).
    + get H. done H. apply ev_var, E.
    + destruct (unit_path (x :: y :: p)) eqn:U; [|discriminate]. done H. exact (ev_unit _ _ _ _ _ (x :: y :: p) _ eq_refl (unit_ok _ U)).
  - (* tuple *) get H. done H. rewrite ev_tuple, (L _ _ _ _ _ E). reflexivity.
  - (* array *) get H. get H. done H. rewrite ev_arr, (L _ _ _ _ _ E), array_any. rewrite (opt_ret _ _ E0). reflexivity.
  - (* repeat *) get H. get H. get H. destruct v0; try discriminate. destruct t; try discriminate. done H.
    rewrite ev_repeat, (IH' _ _ _ _ E). cbn [then_ bind fst snd]. rewrite (IH' _ _ _ _ E0). cbn [then_ bind fst snd]. rewrite (opt_ret _ _ E1). reflexivity.
  - (* struct *) get H. done H. rewrite ev_struct, (L _ _ _ _ _ E). reflexivity.
  - (* reference *) rewrite ev_ref. apply IH', H.
  - (* cast *) destruct t as [[|s []] []| | | |]; try discriminate. destruct (String.eqb_spec s "char") as [->|]; [|discriminate].
    get H. destruct v0; try discriminate. destruct t; try discriminate. done H. rewrite ev_cast, (IH' _ _ _ _ E). reflexivity.
  - (* index *) get H. get H. get H. done H. rewrite ev_index, (IH' _ _ _ _ E). cbn [then_ bind fst snd]. rewrite (IH' _ _ _ _ E0). cbn [then_ bind fst snd].
    rewrite (opt_ret _ _ E1). reflexivity.
  - (* range *) get H. get H. done H. rewrite ev_range, (opt_ok _ _ IH' _ _ _ _ _ E), (opt_ok _ _ IH' _ _ _ _ _ E0). reflexivity.
  - (* call *) destruct (known p) as [t|] eqn:K; [|discriminate]. apply known_ok in K. destruct (run_list (run n) args r) as [[r1 vs]|] eqn:E; [|discriminate]. destruct t as [enc|enc|f|].
    + destruct args as [|a [|b rest]]; try discriminate. destruct (enc_inputs enc vs) as [[[s out] ie]|] eqn:EI; [|discriminate].
      destruct (small s && small out && forallb (fun c => c <? 256) s && (utf8_valid_up_to s =? List.length s)%nat) eqn:C; [|discriminate].
      rewrite !andb_true_iff in C. destruct C as (((C1 & C2) & C3) & C4). apply Nat.eqb_eq in C4.
      destruct (opt (encode_from_str enc s out ie)) as [[res buf]|] eqn:E0; [|discriminate]. destruct (opt (write_back b (VBytes buf) r1)) as [r2|] eqn:E1; [|discriminate]. done H. apply opt_ret in E0, E1. apply enc_inputs_ok in EI. subst vs.
      destruct (enc_apply enc s out ie res buf d) as (rf & A & Lb); [lia|assumption|assumption|apply bytes_ok, C3|exact C4|exact E0|].
      rewrite (ev_call _ _ _ _ _ _ _ _ _ _ K), (L _ _ _ _ _ E), A. cbn [bind fst snd].
      rewrite (enc_back enc s out ie rf _ _ _ buf a b rest eq_refl (run_list_length _ _ _ _ _ E) Lb E1). reflexivity.
    + destruct args as [|a [|b rest]]; try discriminate. destruct (dec_inputs enc vs) as [[[s out] ie]|] eqn:EI; [|discriminate].
      destruct (small s && small out && forallb (fun c => c <? 256) s) eqn:C; [|discriminate].
      rewrite !andb_true_iff in C. destruct C as ((C1 & C2) & C3).
      destruct (opt (decode_to_str enc s out ie)) as [[res buf]|] eqn:E0; [|discriminate]. destruct (opt (write_back b (VBytes buf) r1)) as [r2|] eqn:E1; [|discriminate]. done H. apply opt_ret in E0, E1.
      destruct (dec_apply enc s out ie res buf d) as (rf & A & Lb); [lia|assumption|assumption|apply bytes_ok, C3|exact E0|].
      rewrite (ev_call _ _ _ _ _ _ _ _ _ _ K), (L _ _ _ _ _ E). unfold apply_fn in A |- *. rewrite (dec_inputs_ok _ _ _ _ _ EI), A. cbn [bind fst snd].
      rewrite (dec_back enc vs rf _ _ _ buf a b rest s out ie eq_refl (run_list_length _ _ _ _ _ E) EI Lb E1). reflexivity.
    + destruct (fn_ret f) eqn:R; [discriminate|]. get H. get H. get H. done H.
      rewrite (ev_call _ _ _ _ _ _ _ _ _ _ K), (L _ _ _ _ _ E). unfold apply_fn. rewrite (params_ok _ _ _ E0). cbn [bind].
      rewrite (IH' _ _ _ _ E1). cbn [bind fst snd]. rewrite R. cbn [bind fst snd]. rewrite (opt_ret _ _ E2). reflexivity.
    + destruct p as [|c []]; try discriminate. done H. rewrite ev_con by exact K. rewrite (L _ _ _ _ _ E). reflexivity.
  - (* method *) destruct (is f "encode_utf8") eqn:Ef.
    + apply String.eqb_eq in Ef. subst f. destruct args as [|a []]; try discriminate. get H. get H. get H. destruct s; try discriminate. done H.
      rewrite ev_encode_utf8, (IH' _ _ _ _ E). cbn [then_ bind fst snd]. rewrite (IH' _ _ _ _ E0). cbn [then_ bind fst snd]. exact (opt_ret _ _ E1).
    + destruct (existsb (String.eqb f) pure_methods) eqn:P; [|discriminate]. get H. get H. get H. done H.
      assert (In f pure_methods) as I by (apply existsb_exists in P; destruct P as (y & I & Q); apply String.eqb_eq in Q; subst; exact I).
      rewrite ev_method by (cbn [pure_methods In] in I; intuition (subst; reflexivity)).
      rewrite (IH' _ _ _ _ E). cbn [then_ bind fst snd]. rewrite (L _ _ _ _ _ E0), (opt_ret _ _ E1). reflexivity.
  - (* macro *) destruct (is f "assert_eq") eqn:Ef; [|discriminate]. apply String.eqb_eq in Ef. subst f. get H.
    destruct l as [|a [|b []]]; try discriminate. destruct (same a b) eqn:S1; [|discriminate]. done H. rewrite ev_assert_eq, (L _ _ _ _ _ E), S1. reflexivity.
  - (* block *) rewrite ev_block. destruct (run_statements (run n) ss r) as [r1|] eqn:E; [|discriminate].
    rewrite (statements_ok _ _ IH' _ _ _ _ E). destruct tail as [e|]; cbn [else_].
    + get H. done H. rewrite (IH' _ _ _ _ E0). reflexivity.
    + done H. reflexivity.
  - (* for *) destruct (for_mut_of p e1) eqn:Fm; [discriminate|]. get H. get H. destruct (N.ltb_spec (N.of_nat (List.length l)) 600) as [Ll|]; [|discriminate]. get H. done H.
    rewrite ev_for by exact Fm. rewrite (IH' _ _ _ _ E). cbn [then_ bind fst snd].
    assert (items_of max v0 = Ret l) as ->.
    { unfold range_items in E0. destruct v0; try discriminate. destruct lo as [[]|]; try discriminate. destruct hi as [[]|]; try discriminate. destruct t; try discriminate.
      destruct incl; try discriminate. destruct (N.leb_spec n0 255); [|discriminate]. injection E0 as <-. cbn [items_of]. unfold lit_as. cbn [ity_max].
      rewrite (proj2 (N.leb_le n0 255)) by assumption. reflexivity. }
    cbn [bind]. rewrite (for_ok _ _ IH' _ _ l _ _ fuel ltac:(lia) E1). reflexivity.
Qed.
End Run.
