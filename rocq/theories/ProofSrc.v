(* What the proofs about the functions of the crate have in common. *)
From Coq Require Import List NArith Arith Bool String Lia.
From Verif Require Import Prelude RustCore Types RustSyntax RustEval RustProgram SourceCrate SourceAst RustRules ModelWord Tac.
Import ListNotations.
Local Open Scope string_scope.
Local Open Scope N_scope.
Local Open Scope list_scope.

(** ** Results as values *)

Definition encode_error_value (e : encode_error) : value :=
  VStruct "EncodeError" [("character", VChar (ee_character e));
                         ("error_range", VTuple [usize (fst (ee_range e)); usize (snd (ee_range e))]);
                         ("output_bytes_written", usize (ee_written e))].
Definition cause_value (c : decode_error_cause) : value :=
  VCon (match c with InvalidData => "InvalidData" | UnknownConversion => "UnknownConversion" end) [].
Definition decode_error_value (e : decode_error) : value :=
  VStruct "DecodeError" [("cause", cause_value (de_cause e));
                         ("error_range", VTuple [usize (fst (de_range e)); usize (snd (de_range e))]);
                         ("output_bytes_written", usize (de_written e))].
Definition encode_value (r : encode_result) : value :=
  match r with
  | Ok (s, n) => VCon "Ok" [VTuple [VBytes s; usize n]]
  | Err e => VCon "Err" [encode_error_value e]
  end.
Definition decode_value (r : decode_result) : value :=
  match r with
  | Ok (s, n) => VCon "Ok" [VTuple [VStr s; usize n]]
  | Err e => VCon "Err" [decode_error_value e]
  end.

(** ** Inverting the model *)

Lemma add_usz_inv max a b c : add_usz max a b = Ret c -> c = (a + b)%nat /\ N.of_nat (a + b) <= max.
Proof. unfold add_usz. destruct (N.of_nat (a + b) <=? max) eqn:E; [|discriminate]. intros H. split; [congruence|lia]. Qed.
Lemma sub_usz_inv a b c : sub_usz a b = Ret c -> c = (a - b)%nat /\ (b <= a)%nat.
Proof. unfold sub_usz. destruct (b <=? a)%nat eqn:E; [|discriminate]. intros H. split; [congruence|lia]. Qed.
Lemma add_to_inv max a b c : add_to max a b = Ret c -> c = a + b /\ a + b <= max.
Proof. unfold add_to. destruct (a + b <=? max) eqn:E; [|discriminate]. intros H. split; [congruence|lia]. Qed.
Lemma mul_to_inv max a b c : mul_to max a b = Ret c -> c = a * b /\ a * b <= max.
Proof. unfold mul_to. destruct (a * b <=? max) eqn:E; [|discriminate]. intros H. split; [congruence|lia]. Qed.
Lemma sub_chk_inv a b c : sub_chk a b = Ret c -> c = a - b /\ b <= a.
Proof. unfold sub_chk. destruct (b <=? a) eqn:E; [|discriminate]. intros H. split; [congruence|lia]. Qed.
Lemma unwrap_inv {A} (o : option A) x : unwrap o = Ret x -> o = Some x.
Proof. destruct o; cbn; congruence. Qed.
Lemma Some_inj {A} (a b : A) : Some a = Some b -> a = b.
Proof. congruence. Qed.
Lemma twice n : N.to_nat (N.of_nat n * 2) = (n * 2)%nat.
Proof. lia. Qed.
Lemma Ret_inj {A} (a b : A) : Ret a = Ret b -> a = b.
Proof. congruence. Qed.

Ltac fact H :=
  lazymatch type of H with
  | add_usz _ _ _ = Ret _ => apply add_usz_inv in H; destruct H as [-> H]
  | sub_usz _ _ = Ret _ => apply sub_usz_inv in H; destruct H as [-> H]
  | add_to _ _ _ = Ret _ => apply add_to_inv in H; destruct H as [-> H]
  | mul_to _ _ _ = Ret _ => apply mul_to_inv in H; destruct H as [-> H]
  | sub_chk _ _ = Ret _ => apply sub_chk_inv in H; destruct H as [-> H]
  | unwrap _ = Ret _ => apply unwrap_inv in H
  | Ret _ = Ret _ => apply Ret_inj in H; subst
  | _ => idtac
  end.
(* every way in which a model function can return *)
Ltac paths H :=
  lazymatch type of H with
  | bind ?m _ = Ret _ =>
      let E := fresh "E" in
      destruct m eqn:E; cbn [bind] in H; [ fact E; try paths E; paths H | discriminate H | discriminate H | discriminate H ]
  | (if ?b then _ else _) = Ret _ => let E := fresh "E" in destruct b eqn:E; paths H
  | match ?x with _ => _ end = Ret _ => let E := fresh "E" in destruct x eqn:E; try paths E; paths H
  | match ?x with _ => _ end = Some _ => let E := fresh "E" in destruct x eqn:E; paths H
  | match ?x with _ => _ end = None => let E := fresh "E" in destruct x eqn:E; paths H
  | None = Some _ => discriminate H
  | Some _ = None => discriminate H
  | Some _ = Some _ => apply Some_inj in H; subst
  | Panic = Ret _ => discriminate H
  | UB = Ret _ => discriminate H
  | _ => fact H
  end.

(** ** Names in the crate *)

(* Long names, folded to keep the terms small. *)
Definition n_output_i : string := "output_i".
Definition n_input_i : string := "input_i".
Definition n_out_buffer : string := "out_buffer".
Definition n_input : string := "input".
Definition n_offset : string := "offset".
Definition n_byte_1 : string := "byte_1".
Definition n_byte_2 : string := "byte_2".
Definition n_output_bytes_written : string := "output_bytes_written".
Definition n_error_range : string := "error_range".
Definition n_DecodeErrorCause : string := "DecodeErrorCause".
Definition n_DecodeError : string := "DecodeError".
Definition n_InvalidData : string := "InvalidData".
Definition n_cause : string := "cause".
Ltac fold_names := fold n_output_i n_input_i n_out_buffer n_input n_offset n_byte_1 n_byte_2 n_output_bytes_written n_error_range n_DecodeErrorCause n_DecodeError n_InvalidData n_cause.
Ltac compute_env ::=
  lazy beta iota zeta delta [lookup assign leave same_size String.eqb Ascii.eqb Bool.eqb eqb bind match_pat last write_back referent
    write_backs coerce is_u8 int_type bind_params fst snd fn_params fn_ret fn_body is
    n_output_i n_input_i n_out_buffer n_input n_offset n_byte_1 n_byte_2 n_output_bytes_written n_error_range n_DecodeErrorCause n_DecodeError n_InvalidData n_cause];
  fold_names.
(* the modules *)
Definition m_utf8 : path := ["utf8"].
Definition m_utf16_be : path := ["utf16_be"].
Definition m_utf16_le : path := ["utf16_le"].
Definition m_utf32_be : path := ["utf32_be"].
Definition m_utf32_le : path := ["utf32_le"].
Definition m_single_byte : path := ["single_byte"].
Definition m_big5 : path := ["big5_whatwg"].
Definition m_sjis : path := ["shiftjis_whatwg"].
(* the parts of a loop *)
Ltac read_loop :=
  repeat match goal with
  | |- context [loop_pat (loop_of ?f)] => let t := eval vm_compute in (loop_pat (loop_of f)) in change (loop_pat (loop_of f)) with t
  | |- context [loop_body (loop_of ?f)] => let t := eval vm_compute in (loop_body (loop_of f)) in change (loop_body (loop_of f)) with t
  | |- context [loop_expr (loop_of ?f)] => let t := eval vm_compute in (loop_expr (loop_of f)) in change (loop_expr (loop_of f)) with t
  end;
  fold_names; cbn [Nat.add].

Ltac no_name :=
  lazymatch goal with
  | H : find_fn ?p ?m ?x = None |- find_fn ?p ?m ?x = None => exact H
  | |- _ => vm_cast_no_check (eq_refl (@None (path * fn)))
  end.
Ltac call_tac ::=
  lazymatch goal with
  | |- eval _ _ _ _ _ (ECall [_] _) _ = _ => eapply eq_trans; [eapply ev_con; no_name | go]
  | |- eval _ _ _ _ _ (ECall _ _) _ = _ => eapply eq_trans; [eapply ev_core; [no_name | reflexivity] | go]
  end.
(* the value of a constant, in a form that proof search does not unfold *)
Record const_is (p : program) (m x : path) (v : value) : Prop := { const_value_is : find_const p m x = Some v }.
Ltac const_tac ::=
  lazymatch goal with
  | H : const_is ?p ?m ?x _ |- find_const ?p ?m ?x = Some _ => exact (const_value_is _ _ _ _ H)
  | |- find_const _ _ _ = None => vm_cast_no_check (eq_refl (@None value))
  end.

(** ** How much of the input was consumed *)

Definition finish_while : expr :=
  EWhile (ENot (EMethod (EPath ["input"]) "is_char_boundary" [EPath ["input_i"]]))
    (EBlock [SExpr (EOpAssign Add (EPath ["input_i"]) (ELit (LInt 1 "")))] None).

Lemma is_boundary s n : core_method (VStr s) "is_char_boundary" [usize n] = Ret (VBool (is_char_boundary s n)).
Proof. unfold core_method, is. cbn [String.eqb Ascii.eqb Bool.eqb]. rewrite index_usz. reflexivity. Qed.
Ltac core_tac ::=
  lazymatch goal with
  | |- core_method (VStr _) "is_char_boundary" [usize _] = _ => eapply is_boundary
  end.

(* the loop ends within fuel iterations in the way in which it ends within n *)
Definition within {S R} (n fuel : nat) (body : S -> outcome (ctl S R)) (s : S) : Prop := forall r, loop n body s = Ret r -> loop fuel body s = Ret r.
(* the loops of an encoder, and that of a decoder *)
Definition to_boundary (max : N) (input : list N) (i : nat) : outcome (ctl nat Empty_set) :=
  if is_char_boundary input i then Ret (Break i) else let* j := add_usz max i 1 in Ret (Continue j).
Definition enc_within (max : N) (fuel : nat) (body : enc_state -> outcome (ctl enc_state (encode_error * list N))) (input out : list N) : Prop :=
  (forall itr, within (S (List.length input)) fuel body (EncState itr 0 0 out)) /\ forall i, within (S (List.length input)) fuel (to_boundary max input) i.
Definition dec_within {T} (fuel n : nat) (body : dec_state T -> outcome (ctl (dec_state T) (decode_error * list N))) (itr : list T) (out : list N) : Prop :=
  within n fuel body (DecState itr 0 0 out).

Lemma finish_while_ok max prog fuel d m (rr : nat -> env) input i j :
  (forall i, lookup "input" (rr i) = Some (VStr input)) ->
  (forall i, lookup "input_i" (rr i) = Some (usize i)) ->
  (forall i j, assign "input_i" (usize j) (rr i) = Ret (rr j)) ->
  (forall i j, leave (rr i) (rr j) = rr j) ->
  1 <= max -> within (S (List.length input)) fuel (to_boundary max input) i ->
  loop (R := Empty_set) (S (List.length input))
    (fun i => if is_char_boundary input i then Ret (Break i) else let* j := add_usz max i 1 in Ret (Continue j)) i = Ret (inl j) ->
  eval max prog fuel (S (S (S (S (S (S (S (S (S (S d)))))))))) m finish_while (rr i) = Ret (rr j, SVal unit_value).
Proof.
  intros H1 H2 H3 H4 M F W. apply F in W. unfold to_boundary in W. unfold finish_while. rewrite ev_while.
  match goal with |- loop_end _ (loop fuel ?b _) = _ =>
    match type of W with loop _ ?w _ = _ =>
      destruct (fun B => loop_sim (R := Empty_set) (fun (i : nat) r => r = rr i) (fun _ _ => False) w b B fuel fuel i (rr i) (inl j) (le_n fuel) eq_refl W)
        as (res & -> & E) end end.
  - intros s s' c -> B. destruct (is_char_boundary input s) eqn:E; cbn [bind] in B; paths B; unfold while_body.
    + eexists. split; [eapply bind_go; [eapply then_go; [go | rewrite E; reflexivity] | reflexivity]|reflexivity].
    + eexists. split; [eapply bind_go; [eapply then_go; [go | rewrite E; apply after_val; cbn [negb]; go] | reflexivity]|reflexivity].
  - destruct res; [|contradiction]. cbn [sim_end] in E. subst. reflexivity.
Qed.

(** ** What is known about iterators, buffers and calls of core *)

Definition item (p : nat * N) : value := VTuple [usize (fst p); VChar (snd p)].
Definition scalar_items (l : list (nat * N)) : Prop := Forall (fun p => snd p < 0x110000) l.
Definition byte_items (l : list N) : Prop := Forall (fun b => b < 256) l.

Lemma str_indices s l : char_indices s = Ret l -> core_method (VStr s) "char_indices" [] = Ret (VIter (map item l)).
Proof. intros H. unfold core_method, is. cbn [String.eqb Ascii.eqb Bool.eqb orb]. rewrite H. reflexivity. Qed.
Lemma encode_utf8_len c : (List.length (encode_utf8 c) <= 4)%nat.
Proof. unfold encode_utf8. destruct (_ <? _); [cbn; lia|]. destruct (_ <? _); [cbn; lia|]. destruct (_ <? _); cbn; lia. Qed.
(* writing a character to a buffer of four bytes *)
Lemma scratch_write (b : list N) c : List.length b = 4%nat ->
  copy_at b 0 (List.length (encode_utf8 c)) (encode_utf8 c) = Ret (encode_utf8 c ++ skipn (List.length (encode_utf8 c)) b).
Proof.
  intros H. unfold copy_at. pose proof (encode_utf8_len c). rewrite H.
  rewrite (proj2 (Nat.leb_le _ _)), (proj2 (Nat.leb_le _ _)) by lia. rewrite Nat.sub_0_r, Nat.eqb_refl. reflexivity.
Qed.
Lemma scratch_len (b : list N) c : List.length b = 4%nat ->
  List.length (encode_utf8 c ++ skipn (List.length (encode_utf8 c)) b) = 4%nat.
Proof. intros H. pose proof (encode_utf8_len c). rewrite app_length, skipn_length. lia. Qed.
Lemma unchecked_char n c : from_u32_unchecked n = Ret c -> core_fn "char" "from_u32_unchecked" [VInt U32 n] = Ret (VChar c).
Proof. intros H. unfold core_fn, is. cbn [String.eqb Ascii.eqb Bool.eqb andb]. rewrite H. reflexivity. Qed.
Lemma unchecked_str l s : from_utf8_unchecked l = Ret s -> core_fn "str" "from_utf8_unchecked" [VBytes l] = Ret (VStr s).
Proof. intros H. unfold core_fn, is. cbn [String.eqb Ascii.eqb Bool.eqb andb]. rewrite H. reflexivity. Qed.
Lemma some_u32 n c : from_u32 n = Some c -> core_fn "char" "from_u32" [VInt U32 n] = Ret (VCon "Some" [VChar c]).
Proof. intros H. unfold core_fn, is. cbn [String.eqb Ascii.eqb Bool.eqb andb]. rewrite H. reflexivity. Qed.
Lemma none_u32 n : from_u32 n = None -> core_fn "char" "from_u32" [VInt U32 n] = Ret (VCon "None" []).
Proof. intros H. unfold core_fn, is. cbn [String.eqb Ascii.eqb Bool.eqb andb]. rewrite H. reflexivity. Qed.

Lemma idx_byte l k b : byte_items l -> idx l k = Ret b -> b < 256.
Proof.
  unfold idx. intros F. destruct (nth_error l k) eqn:E; [|discriminate]. intros H. apply Ret_inj in H. subst.
  apply (proj1 (Forall_forall _ _) F). apply (nth_error_In _ _ E).
Qed.
Lemma bytes_chunks k l n : N.to_nat k = S n -> core_method (VBytes l) "chunks" [VLit k] = Ret (VIter (map VBytes (chunks (S n) l))).
Proof. intros H. unfold core_method, is. cbn [String.eqb Ascii.eqb Bool.eqb orb index_of bind]. rewrite H. reflexivity. Qed.
Ltac core_tac ::=
  lazymatch goal with
  | |- core_method (VStr _) "is_char_boundary" [usize _] = _ => eapply is_boundary
  | |- core_method (VStr _) "char_indices" [] = _ => eapply str_indices; eassumption
  | |- core_method (VBytes _) "chunks" [VLit _] = _ => eapply bytes_chunks; cbv; reflexivity
  | |- core_fn "char" "from_u32_unchecked" [_] = _ => eapply unchecked_char; eassumption
  | |- core_fn "str" "from_utf8_unchecked" [_] = _ => eapply unchecked_str; eassumption
  | |- core_fn "char" "from_u32" [_] = _ => first [ eapply some_u32; eassumption | eapply none_u32; eassumption ]
  end.
Ltac scratch_tac ::= first [ eassumption | eapply scratch_write; first [ eassumption | reflexivity ] ].

(** ** Calls *)

(* the outcome of a call, with the final contents of the buffer, which is the parameter x *)
Definition returns (v : value) (x : string) (buf : list N) (o : outcome (value * env)) : Prop :=
  exists r, o = Ret (v, r) /\ lookup x r = Some (VBytes buf).

Lemma returns_params {A} (m : outcome A) a (k : A -> outcome (value * env)) v x buf : m = Ret a -> (exists r, k a = Ret (v, r) /\ lookup x r = Some (VBytes buf)) ->
  exists r, bind m k = Ret (v, r) /\ lookup x r = Some (VBytes buf).
Proof. intros -> H. exact H. Qed.
(* a path through a loop body.  unfold_vars: unfolds the definitions of the local variables *)
Ltac unfold_vars := idtac.
Ltac related := repeat first [ assumption | reflexivity | eexists | split | apply scratch_len ].
Ltac bounds_tac := idtac.
Ltac body_path :=
  repeat match goal with H : Forall _ (_ :: _) |- _ => inversion H; clear H; subst end; cbn [fst snd] in *;
  rewrite ?twice in *; unfold u32_max in *; bounds_tac;
  (eexists; split;
  [ unfold_vars; fold_names; cbv delta [for_body while_let_body item] beta; cbn [map fst snd];
    first [ reflexivity | eapply bind_go; [go | reflexivity] ]
  | unfold_vars; cbv [loop_ctl sim fst snd es_itr es_in es_out es_buf ds_itr ds_in ds_out ds_buf]; related ]).
Ltac body_paths H :=
  cbn [es_itr es_in es_out es_buf ds_itr ds_in ds_out ds_buf] in *; unfold scalar_items, byte_items in *;
  paths H; body_path.

(* a whole call, after what its loop does is known *)
Ltac run_body :=
  eexists; split;
  [ eapply bind_go;
      [ go | eapply bind_go; [reflexivity | eapply bind_go; [first [reflexivity | compute_env; reflexivity] | reflexivity]] ]
  | reflexivity ].
Ltac run_fn := eapply returns_params; [ compute_env; reflexivity | run_body ].
(* vars: the local variables, by the value of input_i *)
Ltac finish_loop vars input F :=
  try match goal with
  | L : loop (R := Empty_set) _ _ ?i = Ret (inl ?j) |- context [eval ?max ?prog ?fuel _ ?m _ _] =>
      let W := fresh in
      pose proof (fun d => finish_while_ok max prog fuel d m vars input i j
        (fun _ => eq_refl) (fun _ => eq_refl) (fun _ _ => eq_refl) (fun _ _ => eq_refl) ltac:(lia) (proj2 F i) L) as W;
      cbv beta delta [finish_while] in W
  end.
