(* The encoder and the decoder of UTF-8 in the source do what ModelWord.v says. *)
From Coq Require Import List NArith Arith Bool String Lia.
From Verif Require Import Prelude RustCore Types RustSyntax RustEval RustProgram SourceCrate SourceAst RustRules ModelUtf8 ModelWord Tac ProofSrc.
Import ListNotations.
Local Open Scope string_scope.
Local Open Scope N_scope.
Local Open Scope list_scope.

(* a `while` loop, whose state in the model is a number *)
Lemma while_nat max prog fuel d m c body (rr : nat -> env) (w : nat -> outcome (ctl nat Empty_set)) n i j :
  (forall i x, w i = Ret x -> exists x', while_body (eval max prog fuel d m) c body (rr i) = Ret x' /\ sim (fun i r => r = rr i) (fun _ _ => False) x x') ->
  (n <= fuel)%nat -> loop n w i = Ret (inl j) ->
  eval max prog fuel (S d) m (EWhile c body) (rr i) = Ret (rr j, SVal unit_value).
Proof.
  intros B F W. rewrite ev_while.
  assert (B' : forall s s' x, s' = rr s -> w s = Ret x ->
    exists x', while_body (eval max prog fuel d m) c body s' = Ret x' /\ sim (fun i r => r = rr i) (fun _ _ => False) x x').
  { intros s s' x ->. apply B. }
  destruct (loop_sim (R := Empty_set) _ _ w _ B' n fuel i (rr i) (inl j) F eq_refl W) as (res & -> & E).
  destruct res; [|contradiction]. cbn [sim_end] in E. subst. reflexivity.
Qed.

Ltac while_path :=
  unfold while_body; (eexists; split;
  [ eapply bind_go;
    [ eapply then_go;
      [ go
      | apply after_val; cbv beta iota;
        (lazymatch goal with
         | |- (if ?b then _ else _) = _ =>
             let H := fresh in first [ assert (H : b = true) by yes | assert (H : b = false) by yes ]; rewrite H
         | _ => idtac
         end);
        cbv iota; first [ reflexivity | go ] ]
    | reflexivity ]
  | reflexivity ]).

(** ** copy_len *)

Lemma find_copy_len max : find_fn (source max) m_utf8 ["copy_len"] = Some (m_utf8, utf8_copy_len).
Proof. vm_cast_no_check (eq_refl (Some (m_utf8, utf8_copy_len))). Qed.

Definition copy_while : expr :=
  EWhile (EAnd (EBin Gt (EPath ["i"]) (ELit (LInt 0 "")))
               (EBin Eq (EBin BitAnd (EIndex (EPath ["input"]) (EPath ["i"])) (ELit (LInt 192 ""))) (ELit (LInt 128 ""))))
    (EBlock [SExpr (EOpAssign Sub (EPath ["i"]) (ELit (LInt 1 "")))] None).

Definition back_body (input : list N) (i : nat) : outcome (ctl nat Empty_set) :=
  if (0 <? i)%nat then
    let* b := idx input i in
    if N.land b 0xC0 =? 0x80 then let* j := sub_usz i 1 in Ret (Continue j) else Ret (Break i)
  else Ret (Break i).
Definition copy_within (fuel : nat) (input : list N) (n : nat) : Prop := (n < List.length input)%nat -> within (S n) fuel (back_body input) n.
Definition error_body (max : N) (input : list N) (i : nat) : outcome (ctl nat Empty_set) :=
  if (i <? List.length input)%nat then
    let* b := idx input i in
    if (N.land b 0xC0 =? 0x80) || (N.land b 0xF8 =? 0xF8)
    then let* j := add_usz max i 1 in Ret (Continue j) else Ret (Break i)
  else Ret (Break i).

Lemma copy_while_ok max prog fuel d m input n i j : 65535 <= max ->
  within (S n) fuel (back_body input) i ->
  loop (R := Empty_set) (S n)
    (fun i =>
       if (0 <? i)%nat then
         let* b := idx input i in
         if N.land b 0xC0 =? 0x80 then let* j := sub_usz i 1 in Ret (Continue j) else Ret (Break i)
       else Ret (Break i)) i = Ret (inl j) ->
  eval max prog fuel (12 + d) m copy_while [("i", usize i); ("input", VBytes input); ("output_len", usize n)] =
    Ret ([("i", usize j); ("input", VBytes input); ("output_len", usize n)], SVal unit_value).
Proof.
  intros M F L. apply F in L. unfold back_body in L. refine (while_nat max prog fuel (11 + d) m _ _ (fun i => [("i", usize i); ("input", VBytes input); ("output_len", usize n)]) _ fuel i j _ (le_n fuel) L).
  clear F L. clear i j. intros i x H. cbn [Nat.add]. paths H; while_path.
Qed.

Lemma copy_len_ok max fuel d input n cl : 65535 <= max -> copy_within fuel input n -> w_copy_len input n = Ret cl ->
  apply_fn max (eval max (source max) fuel (20 + d) m_utf8) utf8_copy_len [VBytes input; usize n] =
    Ret (usize cl, [("input", VBytes input); ("output_len", usize n)]).
Proof.
  intros M F H. unfold apply_fn, utf8_copy_len, w_copy_len in *. cbn [fn_params fn_body fn_ret Nat.add]. paths H.
  - eapply bind_go; [compute_env; reflexivity | eapply bind_go; [go|]]. eapply bind_go; [reflexivity|]. eapply bind_go; reflexivity.
  - pose proof (fun d => copy_while_ok max (source max) fuel d m_utf8 input n n cl M (F ltac:(lia)) E0) as W. unfold copy_while in W. cbn [Nat.add] in W.
    eapply bind_go; [compute_env; reflexivity | eapply bind_go; [go|]]. eapply bind_go; [reflexivity|]. eapply bind_go; reflexivity.
Qed.
Ltac call_tac ::=
  lazymatch goal with
  | |- eval _ _ _ _ _ (ECall ["copy_len"] _) _ = _ => eapply eq_trans; [eapply ev_call; eapply find_copy_len | go]
  | |- eval _ _ _ _ _ (ECall [_] _) _ = _ => eapply eq_trans; [eapply ev_con; no_name | go]
  | |- eval _ _ _ _ _ (ECall _ _) _ = _ => eapply eq_trans; [eapply ev_core; [no_name | reflexivity] | go]
  end.

(** ** Encoder *)

Lemma str_to s n t : str_slice_to s n = Ret t -> index (VStr s) (VRange None (Some (usize n)) false) = Ret (VStr t).
Proof.
  unfold index, bounds. rewrite index_usz. cbn [bind fst snd]. unfold str_slice_to, slice.
  destruct (n <=? List.length s)%nat eqn:L; [|discriminate]. destruct (is_char_boundary s n) eqn:B; [|discriminate].
  intros H. apply Ret_inj in H. subst. unfold is_char_boundary at 1. rewrite Nat.eqb_refl. cbn [orb andb Nat.leb skipn bind]. rewrite Nat.sub_0_r.
  reflexivity.
Qed.
Ltac index_tac ::=
  lazymatch goal with
  | |- index (VStr _) (VRange None (Some (usize _)) false) = _ => eapply str_to; eassumption
  | |- index (VBytes _) (VRange None (Some (usize _)) false) = _ => eapply index_to; eassumption
  | |- index (VBytes _) (usize _) = _ => eapply index_bytes; eassumption
  end.

Lemma utf8_encode_ok max fuel d input out res : 65535 <= max -> copy_within fuel input (List.length out) ->
  w_utf8_encode_from_str input out = Ret res ->
  returns (encode_value (fst res)) "out_buffer" (snd res) (call max (source max) fuel (40 + d) m_utf8 utf8_encode [VStr input; VBytes out]).
Proof.
  intros M F H. unfold returns, call, apply_fn, utf8_encode, w_utf8_encode_from_str in *. cbn [fn_params fn_body fn_ret Nat.add] in *.
  destruct (w_copy_len _ _) as [cl| | |] eqn:C; try discriminate H. cbn [bind] in H.
  pose proof (fun d => copy_len_ok max fuel d input (List.length out) cl M F C) as W. cbn [Nat.add] in W. paths H.
  run_fn.
Qed.

(** ** Decoder *)

Lemma from_utf8_valid l : utf8_valid_up_to l = List.length l -> core_fn "str" "from_utf8" [VBytes l] = Ret (VCon "Ok" [VStr l]).
Proof. intros H. unfold core_fn, is. cbn [String.eqb Ascii.eqb Bool.eqb andb]. rewrite H, Nat.eqb_refl. reflexivity. Qed.
Lemma from_utf8_invalid l : utf8_valid_up_to l <> List.length l ->
  core_fn "str" "from_utf8" [VBytes l] = Ret (VCon "Err" [VStruct "Utf8Error" [("valid_up_to", usize (utf8_valid_up_to l))]]).
Proof. intros H. unfold core_fn, is. cbn [String.eqb Ascii.eqb Bool.eqb andb]. rewrite (proj2 (Nat.eqb_neq _ _) H). reflexivity. Qed.
Ltac core_tac ::=
  lazymatch goal with
  | |- core_fn "str" "from_utf8_unchecked" [_] = _ => eapply unchecked_str; eassumption
  | |- core_fn "str" "from_utf8" [_] = _ => first [ eapply from_utf8_valid; eassumption | eapply from_utf8_invalid; eassumption ]
  end.

Definition error_while : expr :=
  EWhile
    (EAnd (EBin Lt (EPath ["i"]) (EMethod (EPath ["input"]) "len" []))
       (EOr (EBin Eq (EBin BitAnd (EIndex (EPath ["input"]) (EPath ["i"])) (ELit (LInt 192 ""))) (ELit (LInt 128 "")))
            (EBin Eq (EBin BitAnd (EIndex (EPath ["input"]) (EPath ["i"])) (ELit (LInt 248 ""))) (ELit (LInt 248 "")))))
    (EBlock [SExpr (EOpAssign Add (EPath ["i"]) (ELit (LInt 1 "")))] None).
Lemma error_while_ok max prog fuel d m (rr : nat -> env) input i j :
  (forall i, lookup "input" (rr i) = Some (VBytes input)) ->
  (forall i, lookup "i" (rr i) = Some (usize i)) ->
  (forall i j, assign "i" (usize j) (rr i) = Ret (rr j)) ->
  (forall i j, leave (rr i) (rr j) = rr j) ->
  65535 <= max -> within (S (List.length input)) fuel (error_body max input) i ->
  w_utf8_error_end max input i = Ret j ->
  eval max prog fuel (12 + d) m error_while (rr i) = Ret (rr j, SVal unit_value).
Proof.
  intros H1 H2 H3 H4 M F W. unfold w_utf8_error_end in W.
  destruct (loop _ _ _) as [[k|[]]| | |] eqn:L; try discriminate W. cbn [bind] in W. apply Ret_inj in W. subst k.
  apply F in L. unfold error_body in L. refine (while_nat max prog fuel (11 + d) m _ _ rr _ _ i j _ (le_n fuel) L).
  clear F L. clear i j. intros i x H. cbn [Nat.add]. paths H; while_path.
Qed.

(* what the loop does, if there is an error *)
Ltac error_loop max fuel M F cl is_end :=
  lazymatch goal with
  | E : w_utf8_error_end _ ?input ?i = Ret ?j, E' : idx ?input ?k = Ret ?b, E'' : copy_at _ _ _ _ = Ret ?o |- _ =>
    let X := fresh "X" in
    pose proof (fun v d => error_while_ok max (source max) fuel d m_utf8
      (fun n => [("i", usize n); ("is_truncated", VBool v); ("byte", VInt U8 b); ("trailing_bytes", usize (List.length input - utf8_valid_up_to input)%nat);
                 ("bytes_copied", usize cl); ("valid_up_to", usize (utf8_valid_up_to input)); ("input", VBytes input); ("out_buffer", VBytes o);
                 ("is_end", VBool is_end)]) input i j
      (fun _ => eq_refl) (fun _ => eq_refl) (fun _ _ => eq_refl) (fun _ _ => eq_refl) M F E) as X;
    unfold error_while in X; cbn [Nat.add] in X
  end.
Lemma utf8_decode_ok max fuel d input is_end out res : 65535 <= max ->
  copy_within fuel (firstn (utf8_valid_up_to input) input) (List.length out) ->
  (forall e buf, res = (Err e, buf) -> within (S (List.length input)) fuel (error_body max input) (utf8_valid_up_to input + 1)%nat) ->
  w_utf8_decode_to_str max input out is_end = Ret res ->
  returns (decode_value (fst res)) "out_buffer" (snd res)
    (call max (source max) fuel (40 + d) m_utf8 utf8_decode [VBytes input; VBytes out; VBool is_end]).
Proof.
  intros M Fc F H. unfold returns, call, apply_fn, utf8_decode, w_utf8_decode_to_str in *. cbn [fn_params fn_body fn_ret Nat.add] in *.
  destruct (slice_to input _) as [valid| | |] eqn:V; try discriminate H. cbn [bind] in H.
  destruct (w_copy_len _ _) as [cl| | |] eqn:C; try discriminate H. cbn [bind] in H.
  assert (L : valid = firstn (utf8_valid_up_to input) input).
  { unfold slice_to in V. destruct (_ <=? _)%nat; [|discriminate V]. apply Ret_inj in V. subst. reflexivity. }
  rewrite <- L in Fc.
  pose proof (fun d => copy_len_ok max fuel d valid (List.length out) cl M Fc C) as W. cbn [Nat.add] in W.
  destruct (Nat.eq_dec (utf8_valid_up_to input) (List.length input)) as [U|U]; [rewrite U in *|].
  all: paths H; try (exfalso; lia).
  2: specialize (F _ _ eq_refl); error_loop max fuel M F cl is_end.
  all: run_fn.
Qed.
