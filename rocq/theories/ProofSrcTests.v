(* The tests in /repo/tests return. *)
From Coq Require Import List NArith Arith Bool String Lia.
From Verif Require Import Prelude RustCore Encodings Types TabBig5 TabSjis ModelApi ModelWord FileTests.
From Verif Require Import RustSyntax RustEval RustProgram RustLink SourceCrate SourceWhatwg SourceAst SourceApi SourceTests RustRules Tac.
From Verif Require Import ProofUtf8 SpecErrors Units Decide Greedy NextDec ProofSession ProofMore ProofApi ProofWord ProofSrc ProofSrcAll ProofSrcLink.
From Verif Require ProofTests ProofRound PropRound.
From Verif Require Import Spec.
Import ListNotations.
Local Open Scope string_scope.
Local Open Scope N_scope.
Local Open Scope list_scope.

(* a program that is linked with the crate *)
Definition uses_crate (max : N) (prog : program) : Prop :=
  (forall m p, find_fn prog ("text_encoding" :: m) p = moved "text_encoding" (find_fn (source max) m p)) /\
  (forall m p, find_const prog ("text_encoding" :: m) p = find_const (source max) m p).

Lemma text_items cs : text cs -> forall itr, char_indices (utf8 cs) = Ret itr -> scalar_items itr.
Proof.
  intros T itr I. unfold char_indices in I. rewrite (char_indices_offsets cs T) in I. apply Ret_inj in I. subst.
  clear - T. unfold scalar_items. generalize 0%nat. induction T as [|c cs H _ IH]; intros off; cbn [offsets]; constructor; [|apply IH].
  cbn. unfold scalar in H. lia.
Qed.

(** ** Calls of the functions of the crate *)

Definition enc_tail (e : encoding) (is_end : bool) : list expr := match e with Big5WHATWG => [ELit (LBool is_end)] | _ => [] end.
Definition dec_tail (e : encoding) (is_end : bool) : list expr := match e with Single _ => [] | _ => [ELit (LBool is_end)] end.
Definition enc_call (p : path) (e : encoding) (x : expr) (is_end : bool) : expr := ECall p (x :: ERef true (EPath ["buf"]) :: enc_tail e is_end).
Definition dec_call (p : path) (e : encoding) (x : expr) (is_end : bool) : expr := ECall p (x :: ERef true (EPath ["buf"]) :: dec_tail e is_end).

Section Calls.
Variables (max : N) (prog : program) (fuel d : nat).
Hypothesis M : 65535 <= max.
Hypothesis U : uses_crate max prog.

Lemma enc_ev e p x is_end cs out res r r1 r2 :
  find_fn prog [] p = Some ("text_encoding" :: module_of e, encode_fn e) ->
  eval max prog fuel (60 + d) [] x r = Ret (r1, SVal (VStr (utf8 cs))) -> lookup "buf" r1 = Some (VBytes out) ->
  text cs -> N.of_nat (List.length (utf8 cs)) + 4 <= max -> N.of_nat (List.length out) + 4 <= max -> (List.length (utf8 cs) < fuel)%nat ->
  encode_from_str e (utf8 cs) out is_end = Ret res ->
  assign "buf" (VBytes (snd res)) r1 = Ret r2 ->
  eval max prog fuel (61 + d) [] (enc_call p e x is_end) r = Ret (r2, SVal (encode_value (fst res))).
Proof.
  intros N X B T L1 L2 F E A. rewrite <- (encode_word_same max) in E by assumption.
  destruct (encode_call max fuel d e (utf8 cs) out is_end res M F (text_items cs T) E) as (r' & C & Lb).
  rewrite <- (call_linked max "text_encoding" (source max) prog fuel (proj1 U) (proj2 U)) in C. unfold call in C.
  unfold enc_call. change (61 + d)%nat with (S (60 + d)). rewrite (ev_call _ _ _ _ _ _ _ _ _ _ N).
  eapply list_cons; [exact X|]. apply after_val.
  eapply list_cons; [exact (eq_trans (ev_ref _ _ _ (59 + d) _ _ _ _) (ev_var _ _ _ (58 + d) _ _ _ _ B))|]. apply after_val.
  remember (encode_fn e) as f eqn:Hf.
  match goal with |- eval_list ?ev _ _ ?k = ?y => change (eval_list ev (enc_tail e is_end) r1 k = y) end.
  match goal with |- eval_list ?ev ?es _ ?k = _ =>
    replace (eval_list ev es r1 k) with (k r1 (match e with Big5WHATWG => [VBool is_end] | _ => [] end)) by (destruct e; reflexivity) end.
  cbv beta. eapply bind_go; [exact C|]. cbv beta. subst f.
  eapply bind_go; [|reflexivity].
  destruct e; cbn [encode_fn utf8_encode utf16_be_encode utf16_le_encode utf32_be_encode utf32_le_encode big5_encode sjis_encode sb_wrap_encode wrap buffer_ty str_ty bytes_ty fn_params enc_tail app write_backs snd]; rewrite Lb; unfold write_back; cbn [referent]; rewrite A; reflexivity.
Qed.
Lemma dec_ev e p x is_end bs out res r r1 r2 :
  find_fn prog [] p = Some ("text_encoding" :: module_of e, decode_fn e) ->
  eval max prog fuel (60 + d) [] x r = Ret (r1, SVal (VBytes bs)) -> lookup "buf" r1 = Some (VBytes out) ->
  bytes bs -> N.of_nat (List.length bs) + 4 <= max -> N.of_nat (List.length out) + 4 <= max -> (List.length bs < fuel)%nat ->
  decode_to_str e bs out is_end = Ret res ->
  assign "buf" (VBytes (snd res)) r1 = Ret r2 ->
  eval max prog fuel (61 + d) [] (dec_call p e x is_end) r = Ret (r2, SVal (decode_value (fst res))).
Proof.
  intros N X B T L1 L2 F E A. rewrite <- (decode_word_same max) in E by assumption.
  destruct (decode_call max fuel d e bs out is_end res M F T E) as (r' & C & Lb).
  rewrite <- (call_linked max "text_encoding" (source max) prog fuel (proj1 U) (proj2 U)) in C. unfold call in C.
  unfold dec_call. change (61 + d)%nat with (S (60 + d)). rewrite (ev_call _ _ _ _ _ _ _ _ _ _ N).
  eapply list_cons; [exact X|]. apply after_val.
  eapply list_cons; [exact (eq_trans (ev_ref _ _ _ (59 + d) _ _ _ _) (ev_var _ _ _ (58 + d) _ _ _ _ B))|]. apply after_val.
  remember (decode_fn e) as f eqn:Hf.
  match goal with |- eval_list ?ev _ _ ?k = ?y => change (eval_list ev (dec_tail e is_end) r1 k = y) end.
  match goal with |- eval_list ?ev ?es _ ?k = _ =>
    replace (eval_list ev es r1 k) with (k r1 (match e with Single _ => [] | _ => [VBool is_end] end)) by (destruct e; reflexivity) end.
  cbv beta. eapply bind_go; [exact C|]. cbv beta. subst f.
  eapply bind_go; [|reflexivity].
  destruct e; cbn [decode_fn utf8_decode utf16_be_decode utf16_le_decode utf32_be_decode utf32_le_decode big5_decode sjis_decode sb_wrap_decode wrap buffer_ty str_ty bytes_ty fn_params dec_tail app write_backs snd]; rewrite Lb; unfold write_back; cbn [referent]; rewrite A; reflexivity.
Qed.
End Calls.

(** ** The loops *)

Definition all_of (x : string) : expr := ERef false (EIndex (EPath [x]) (ERange None None false)).
Definition rest_of : expr := EAssign (EPath ["tmp"]) (ERef false (EIndex (EPath ["tmp"]) (ERange (Some (EPath ["n"])) None false))).
Definition condition : expr := ENot (EMethod (EPath ["tmp"]) "is_empty" []).
Definition loop_block (call : expr) (x : string) (add : expr) (msg : list N) : expr :=
  EBlock [] (Some (EIfLet (PCon ["Ok"] [PTuple [PVar x; PVar "n"]]) call
    (EBlock [SExpr rest_of; SExpr add] None)
    (Some (EBlock [SExpr (EMacro "panic" [ELit (LStr msg)])] None)))).
Definition enc_block (p : path) (e : encoding) (acc : string) (msg : list N) : expr :=
  loop_block (enc_call p e (EPath ["tmp"]) true) "encoded" (EMethod (EPath [acc]) "extend_from_slice" [EPath ["encoded"]]) msg.
Definition dec_block (p : path) (e : encoding) (acc : string) (msg : list N) : expr :=
  loop_block (dec_call p e (EPath ["tmp"]) true) "decoded" (EMethod (EPath [acc]) "extend" [EMethod (EPath ["decoded"]) "chars" []]) msg.
Definition enc_loop (p : path) (e : encoding) (acc : string) (msg : list N) : expr := EWhile condition (enc_block p e acc msg).
Definition dec_loop (p : path) (e : encoding) (acc : string) (msg : list N) : expr := EWhile condition (dec_block p e acc msg).

Lemma same_size_ok r : forall r', List.length r = List.length r' -> same_size r r' = true.
Proof. induction r as [|x r IH]; intros [|y r'] L; try discriminate L; [reflexivity|]. cbn. apply IH. cbn in L. lia. Qed.
Lemma same_size_no r : forall r', List.length r <> List.length r' -> same_size r r' = false.
Proof. induction r as [|x r IH]; intros [|y r'] L; try reflexivity; [contradiction L; reflexivity|]. cbn. apply IH. cbn in L. lia. Qed.
Lemma leave_same r r' : List.length r = List.length r' -> leave r r' = r'.
Proof. intros L. destruct r'; [reflexivity|]. cbn [leave]. rewrite same_size_ok by exact L. reflexivity. Qed.
Lemma leave_more r x r' : (List.length r <= List.length r')%nat -> leave r (x :: r') = leave r r'.
Proof. intros L. cbn [leave]. rewrite same_size_no; [reflexivity|]. cbn. lia. Qed.

Lemma ev_extend_slice max prog fuel d m x a r : eval max prog fuel (S d) m (EMethod (EPath [x]) "extend_from_slice" [a]) r =
  then_ (eval max prog fuel d m a r) (fun r s => extend_slice x s r).
Proof. reflexivity. Qed.
Lemma ev_extend max prog fuel d m x a r : eval max prog fuel (S d) m (EMethod (EPath [x]) "extend" [a]) r =
  then_ (eval max prog fuel d m a r) (fun r s => extend_string x s r).
Proof. reflexivity. Qed.
Lemma scoped_then r m r1 r2 s : leave r r1 = r2 -> m = Ret (r1, s) -> scoped r m = Ret (r2, s).
Proof. intros L ->. unfold scoped. cbn [bind fst snd]. rewrite L. reflexivity. Qed.

Lemma slice_all {A} (l : list A) : slice l 0 (List.length l) = Ret l.
Proof. unfold slice. rewrite Nat.sub_0_r, Nat.leb_refl. cbn [Nat.leb andb]. rewrite skipn_O, firstn_all. reflexivity. Qed.
Lemma slice_rest {A} (a b : list A) : slice (a ++ b) (List.length a) (List.length (a ++ b)) = Ret b.
Proof.
  unfold slice. rewrite app_length, (proj2 (Nat.leb_le _ _)), Nat.leb_refl by lia. cbn [andb].
  rewrite skipn_app, skipn_all, Nat.sub_diag. cbn [app skipn]. f_equal. replace (_ + _ - _)%nat with (List.length b) by lia. apply firstn_all.
Qed.
Lemma index_usize n : index_of (usize n) = Ret n.
Proof. unfold index_of, usize. rewrite Nat2N.id. reflexivity. Qed.
Lemma bytes_rest a b : index (VBytes (a ++ b)) (VRange (Some (usize (List.length a))) None false) = Ret (VBytes b).
Proof. unfold index, bounds. rewrite index_usize. cbn [bind fst snd]. rewrite slice_rest. reflexivity. Qed.
Lemma bytes_all a : index (VBytes a) (VRange None None false) = Ret (VBytes a).
Proof. unfold index, bounds. cbn [bind fst snd]. rewrite slice_all. reflexivity. Qed.
Lemma boundary_end cs : text cs -> is_char_boundary (utf8 cs) (List.length (utf8 cs)) = true.
Proof. intros T. rewrite <- (app_nil_r cs) at 1. apply boundary_true. constructor. Qed.
Lemma boundary_start cs : text cs -> is_char_boundary (utf8 cs) 0 = true.
Proof. intros T. exact (boundary_true [] cs T). Qed.
Lemma str_rest pre post : text (pre ++ post) ->
  index (VStr (utf8 (pre ++ post))) (VRange (Some (usize (List.length (utf8 pre)))) None false) = Ret (VStr (utf8 post)).
Proof.
  intros T. unfold index, bounds. rewrite index_usize. cbn [bind fst snd]. rewrite boundary_end by exact T.
  rewrite boundary_true by (apply Forall_app in T; apply T). cbn [andb]. rewrite utf8_app, slice_rest. reflexivity.
Qed.
Lemma str_all cs : text cs -> index (VStr (utf8 cs)) (VRange None None false) = Ret (VStr (utf8 cs)).
Proof. intros T. unfold index, bounds. cbn [bind fst snd]. rewrite boundary_end, boundary_start by exact T. cbn [andb]. rewrite slice_all. reflexivity. Qed.

Lemma chars_ok cs : text cs -> exists its, core_method (VStr (utf8 cs)) "chars" [] = Ret (VIter its) /\ map_m char_key its = Ret cs /\ flat_map encode_utf8 cs = utf8 cs.
Proof.
  intros T. exists (map (fun p => VChar (snd p)) (offsets 0 cs)). split; [|split].
  - cbn. unfold char_indices. rewrite (char_indices_offsets cs T). reflexivity.
  - rewrite <- (ProofTests.offsets_snd cs 0) at 2. generalize (offsets 0 cs). intros l. induction l as [|x l IH]; [reflexivity|].
    cbn [map map_m char_key bind]. rewrite IH. reflexivity.
  - unfold utf8. rewrite !flat_map_concat_map. f_equal. apply map_ext_in. intros c H. apply utf8_char_encode. unfold text in T. rewrite Forall_forall in T. auto.
Qed.

Section Loops.
Variables (max : N) (prog : program) (fuel d : nat).
Hypothesis M : 65535 <= max.
Hypothesis U : uses_crate max prog.
(* the variables: tmp, what is being collected, the buffer *)
Variable acc : string.
Hypothesis acc_n : String.eqb acc "n" = false.
Notation D := (60 + d)%nat.

Section Encoding.
Variable mk : list N -> list N -> list N -> env.
Hypothesis get_tmp : forall t a b, lookup "tmp" (mk t a b) = Some (VStr t).
Hypothesis get_acc : forall t a b, lookup acc (mk t a b) = Some (VBytes a).
Hypothesis get_buf : forall t a b, lookup "buf" (mk t a b) = Some (VBytes b).
Hypothesis set_tmp : forall t a b t', assign "tmp" (VStr t') (mk t a b) = Ret (mk t' a b).
Hypothesis set_acc : forall t a b a', assign acc (VBytes a') (mk t a b) = Ret (mk t a' b).
Hypothesis set_buf : forall t a b b', assign "buf" (VBytes b') (mk t a b) = Ret (mk t a b').
Hypothesis acc_e : String.eqb acc "encoded" = false.
Hypothesis mk_size : forall t a b t' a' b', List.length (mk t a b) = List.length (mk t' a' b').

Lemma mk_leave t a b t' a' b' : leave (mk t a b) (mk t' a' b') = mk t' a' b'.
Proof. apply leave_same, mk_size. Qed.
Lemma mk_leave2 t a b x y t' a' b' : leave (mk t a b) (x :: y :: mk t' a' b') = mk t' a' b'.
Proof. rewrite !leave_more; [apply mk_leave| |]; cbn [List.length]; rewrite (mk_size t a b t' a' b'); lia. Qed.
Lemma mk_leave_in t a b x y t' a' b' : leave (x :: y :: mk t a b) (x :: y :: mk t' a' b') = x :: y :: mk t' a' b'.
Proof. apply leave_same. cbn [List.length]. do 2 f_equal. apply mk_size. Qed.

Lemma enc_condition t a b d' : eval max prog fuel (3 + d') [] condition (mk t a b) = Ret (mk t a b, SVal (VBool (match t with [] => false | _ => true end))).
Proof.
  unfold condition. change (3 + d')%nat with (S (S (S d'))).
  erewrite ev_not; [|rewrite ev_method by reflexivity; rewrite (ev_var _ _ _ _ _ _ _ _ (get_tmp t a b)); reflexivity]. destruct t; reflexivity.
Qed.
Lemma enc_step p e msg pre post a buf s buf' :
  find_fn prog [] p = Some ("text_encoding" :: module_of e, encode_fn e) ->
  text (pre ++ post) -> N.of_nat (List.length (utf8 (pre ++ post))) + 4 <= max -> N.of_nat (List.length buf) + 4 <= max ->
  (List.length (utf8 (pre ++ post)) < fuel)%nat ->
  encode_from_str e (utf8 (pre ++ post)) buf true = Ret (Ok (s, List.length (utf8 pre)), buf') ->
  eval max prog fuel (63 + d) [] (enc_block p e acc msg) (mk (utf8 (pre ++ post)) a buf) = Ret (mk (utf8 post) (a ++ s) buf', SVal unit_value).
Proof.
  intros N T L1 L2 F E. unfold enc_block, loop_block. change (63 + d)%nat with (S (S (61 + d))). rewrite ev_block.
  eapply (scoped_then _ _ _ _ _ (mk_leave _ _ _ _ _ _)). cbn [statements]. unfold else_. rewrite ev_if_let.
  rewrite (enc_ev max prog fuel d M U e p (EPath ["tmp"]) true (pre ++ post) buf _ _ _ _ N
    (ev_var _ _ _ _ _ _ _ _ (get_tmp _ _ _)) (get_buf _ _ _) T L1 L2 F E (set_buf _ _ _ _)).
  cbn [then_ bind fst snd encode_value]. unfold branch. cbn [match_pat bind is String.eqb Ascii.eqb Bool.eqb last].
  eapply (scoped_then _ _ _ _ _ (mk_leave2 _ _ _ _ _ _ _ _)).
  change (61 + d)%nat with (S (S (S (S (S (S (S (54 + d)))))))). rewrite ev_block.
  eapply (scoped_then _ _ _ _ _ (mk_leave_in _ _ _ _ _ _ _ _)).
  eapply expr_go.
  { unfold rest_of. rewrite ev_assign, ev_ref, ev_index.
    rewrite (ev_var _ _ _ _ _ "tmp" _ (VStr (utf8 (pre ++ post)))) by (cbn; apply get_tmp).
    cbn [then_ bind fst snd]. rewrite ev_range. unfold eval_opt. rewrite (ev_var _ _ _ _ _ "n" _ (usize (List.length (utf8 pre)))) by reflexivity.
    cbn [then_ bind fst snd]. rewrite str_rest by exact T. unfold value_of. cbn [bind then_ fst snd]. unfold set_var.
    cbn [lookup String.eqb Ascii.eqb Bool.eqb eqb]. rewrite get_tmp. cbn [retype bind assign String.eqb Ascii.eqb Bool.eqb eqb]. rewrite set_tmp. reflexivity. }
  apply after_val. eapply expr_go.
  { rewrite ev_extend_slice, (ev_var _ _ _ _ _ "encoded" _ (VBytes s)) by reflexivity.
    cbn [then_ bind fst snd]. unfold extend_slice. cbn [lookup]. rewrite acc_n, acc_e, get_acc. cbn [assign bind]. rewrite acc_n, acc_e, set_acc. reflexivity. }
  apply after_val. reflexivity.
Qed.
Lemma enc_loop_go p e msg : find_fn prog [] p = Some ("text_encoding" :: module_of e, encode_fn e) ->
  forall n cs all a buf, Encoded e cs all -> (4 <= List.length buf)%nat -> (List.length (utf8 cs) < n)%nat ->
  N.of_nat (List.length (utf8 cs)) + 4 <= max -> N.of_nat (List.length buf) + 4 <= max -> (List.length (utf8 cs) < fuel)%nat ->
  exists buf', loop n (while_body (eval max prog fuel (63 + d) []) condition (enc_block p e acc msg)) (mk (utf8 cs) a buf) = Ret (inl (mk [] (a ++ all) buf')) /\
    List.length buf' = List.length buf.
Proof.
  intros N. induction n as [|n IH]; intros cs all a buf HE Hl Hn L1 L2 F; [lia|].
  destruct cs as [|c cs].
  - assert (all = []) as ->.
    { destruct (PropRound.Encoded_inv _ _ _ HE) as [[-> _]|(u & w & x & y & E & -> & Hu & _)]; [reflexivity|].
      exfalso. symmetry in E. apply app_eq_nil in E. destruct E as [-> _]. destruct (enc_unit_shape _ _ _ Hu) as (_ & L & _). cbn in L. lia. }
    exists buf. rewrite app_nil_r. split; [|reflexivity]. cbn [loop]. unfold while_body. rewrite (enc_condition _ _ _ (60 + d)). reflexivity.
  - destruct (ProofTests.encode_call e (c :: cs) all buf HE Hl) as (pre & post & s & s' & buf' & E & -> & HE' & Hp & Lb & H); [discriminate|].
    destruct (Encoded_text _ _ _ HE) as [T _]. rewrite E in *. rewrite utf8_app, app_length in *.
    destruct (IH post s' (a ++ s) buf' HE') as (b2 & Hb2 & L3); [lia..|].
    exists b2. split; [|lia]. cbn [loop]. unfold while_body at 1. rewrite (enc_condition _ _ _ (60 + d)). cbn [then_ bind fst snd].
    destruct (utf8 pre ++ utf8 post) as [|x y] eqn:Ex; [apply app_eq_nil in Ex; destruct Ex as [Ex _]; rewrite Ex in Hp; cbn in Hp; lia|]. rewrite <- Ex, <- utf8_app in *.
    rewrite (enc_step p e msg pre post a buf s buf' N T); [|rewrite utf8_app, app_length; lia|lia|rewrite utf8_app, app_length; lia|exact H].
    cbn [bind loop_ctl snd fst]. rewrite Hb2, app_assoc. reflexivity.
Qed.
Lemma enc_loop_ev p e msg cs all a buf : find_fn prog [] p = Some ("text_encoding" :: module_of e, encode_fn e) ->
  Encoded e cs all -> (4 <= List.length buf)%nat ->
  N.of_nat (List.length (utf8 cs)) + 4 <= max -> N.of_nat (List.length buf) + 4 <= max -> (List.length (utf8 cs) < fuel)%nat ->
  exists buf', eval max prog fuel (64 + d) [] (enc_loop p e acc msg) (mk (utf8 cs) a buf) = Ret (mk [] (a ++ all) buf', SVal unit_value) /\
    List.length buf' = List.length buf.
Proof.
  intros N HE Hl L1 L2 F. destruct (enc_loop_go p e msg N fuel cs all a buf HE Hl F L1 L2 F) as (b & H & L). exists b. split; [|exact L].
  unfold enc_loop. change (64 + d)%nat with (S (63 + d)). rewrite ev_while, H. reflexivity.
Qed.
End Encoding.

Section Decoding.
Variable mk : list N -> list N -> list N -> env.
Hypothesis get_tmp : forall t a b, lookup "tmp" (mk t a b) = Some (VBytes t).
Hypothesis get_acc : forall t a b, lookup acc (mk t a b) = Some (VStr a).
Hypothesis get_buf : forall t a b, lookup "buf" (mk t a b) = Some (VBytes b).
Hypothesis set_tmp : forall t a b t', assign "tmp" (VBytes t') (mk t a b) = Ret (mk t' a b).
Hypothesis set_acc : forall t a b a', assign acc (VStr a') (mk t a b) = Ret (mk t a' b).
Hypothesis set_buf : forall t a b b', assign "buf" (VBytes b') (mk t a b) = Ret (mk t a b').
Hypothesis acc_d : String.eqb acc "decoded" = false.
Hypothesis mk_size : forall t a b t' a' b', List.length (mk t a b) = List.length (mk t' a' b').

Lemma mk_left t a b t' a' b' : leave (mk t a b) (mk t' a' b') = mk t' a' b'.
Proof. apply leave_same, mk_size. Qed.
Lemma mk_left2 t a b x y t' a' b' : leave (mk t a b) (x :: y :: mk t' a' b') = mk t' a' b'.
Proof. rewrite !leave_more; [apply mk_left| |]; cbn [List.length]; rewrite (mk_size t a b t' a' b'); lia. Qed.
Lemma mk_left_in t a b x y t' a' b' : leave (x :: y :: mk t a b) (x :: y :: mk t' a' b') = x :: y :: mk t' a' b'.
Proof. apply leave_same. cbn [List.length]. do 2 f_equal. apply mk_size. Qed.

Lemma dec_condition t a b d' : eval max prog fuel (3 + d') [] condition (mk t a b) = Ret (mk t a b, SVal (VBool (match t with [] => false | _ => true end))).
Proof.
  unfold condition. change (3 + d')%nat with (S (S (S d'))).
  erewrite ev_not; [|rewrite ev_method by reflexivity; rewrite (ev_var _ _ _ _ _ _ _ _ (get_tmp t a b)); reflexivity]. destruct t; reflexivity.
Qed.
Lemma dec_step p e msg pre post a buf cs buf' :
  find_fn prog [] p = Some ("text_encoding" :: module_of e, decode_fn e) ->
  bytes (pre ++ post) -> N.of_nat (List.length (pre ++ post)) + 4 <= max -> N.of_nat (List.length buf) + 4 <= max ->
  (List.length (pre ++ post) < fuel)%nat -> text cs ->
  decode_to_str e (pre ++ post) buf true = Ret (Ok (utf8 cs, List.length pre), buf') ->
  eval max prog fuel (63 + d) [] (dec_block p e acc msg) (mk (pre ++ post) a buf) = Ret (mk post (a ++ utf8 cs) buf', SVal unit_value).
Proof.
  intros N T L1 L2 F Tc E. unfold dec_block, loop_block. change (63 + d)%nat with (S (S (61 + d))). rewrite ev_block.
  eapply (scoped_then _ _ _ _ _ (mk_left _ _ _ _ _ _)). cbn [statements]. unfold else_. rewrite ev_if_let.
  rewrite (dec_ev max prog fuel d M U e p (EPath ["tmp"]) true (pre ++ post) buf _ _ _ _ N
    (ev_var _ _ _ _ _ _ _ _ (get_tmp _ _ _)) (get_buf _ _ _) T L1 L2 F E (set_buf _ _ _ _)).
  cbn [then_ bind fst snd decode_value]. unfold branch. cbn [match_pat bind is String.eqb Ascii.eqb Bool.eqb last].
  eapply (scoped_then _ _ _ _ _ (mk_left2 _ _ _ _ _ _ _ _)).
  change (61 + d)%nat with (S (S (S (S (S (S (S (54 + d)))))))). rewrite ev_block.
  eapply (scoped_then _ _ _ _ _ (mk_left_in _ _ _ _ _ _ _ _)).
  eapply expr_go.
  { unfold rest_of. rewrite ev_assign, ev_ref, ev_index.
    rewrite (ev_var _ _ _ _ _ "tmp" _ (VBytes (pre ++ post))) by (cbn; apply get_tmp).
    cbn [then_ bind fst snd]. rewrite ev_range. unfold eval_opt. rewrite (ev_var _ _ _ _ _ "n" _ (usize (List.length pre))) by reflexivity.
    cbn [then_ bind fst snd]. rewrite bytes_rest. unfold value_of. cbn [bind then_ fst snd]. unfold set_var.
    cbn [lookup String.eqb Ascii.eqb Bool.eqb eqb]. rewrite get_tmp. cbn [retype bind assign String.eqb Ascii.eqb Bool.eqb eqb]. rewrite set_tmp. reflexivity. }
  apply after_val. eapply expr_go.
  { destruct (chars_ok cs Tc) as (its & C1 & C2 & C3).
    rewrite ev_extend, ev_method by reflexivity. rewrite (ev_var _ _ _ _ _ "decoded" _ (VStr (utf8 cs))) by reflexivity.
    cbn [then_ bind fst snd eval_list]. rewrite C1. unfold value_of. cbn [then_ bind fst snd]. unfold extend_string.
    cbn [lookup]. rewrite acc_n, acc_d, get_acc, C2. cbn [assign bind]. rewrite acc_n, acc_d, set_acc, C3. reflexivity. }
  apply after_val. reflexivity.
Qed.
Lemma dec_loop_go p e msg : find_fn prog [] p = Some ("text_encoding" :: module_of e, decode_fn e) ->
  forall n bs all a buf, Decoded e bs all -> (4 <= List.length buf)%nat -> (List.length bs < n)%nat ->
  N.of_nat (List.length bs) + 4 <= max -> N.of_nat (List.length buf) + 4 <= max -> (List.length bs < fuel)%nat ->
  exists buf', loop n (while_body (eval max prog fuel (63 + d) []) condition (dec_block p e acc msg)) (mk bs a buf) = Ret (inl (mk [] (a ++ utf8 all) buf')) /\
    List.length buf' = List.length buf.
Proof.
  intros N. induction n as [|n IH]; intros bs all a buf HD Hl Hn L1 L2 F; [lia|].
  destruct bs as [|b bs].
  - assert (all = []) as ->.
    { destruct (PropRound.Decoded_inv _ _ _ HD) as [[_ ->]|(w & u & x & y & E & _ & Hu & _)]; [reflexivity|].
      exfalso. symmetry in E. apply app_eq_nil in E. destruct E as [-> _]. destruct (dec_unit_shape _ _ _ Hu) as (_ & L & _). cbn in L. lia. }
    exists buf. cbn [utf8 flat_map]. rewrite app_nil_r. split; [|reflexivity]. cbn [loop]. unfold while_body. rewrite (dec_condition _ _ _ (60 + d)). reflexivity.
  - destruct (ProofTests.decode_call e (b :: bs) all buf HD Hl) as (pre & post & cs & cs' & buf' & E & -> & Tc & HD' & Hp & Lb & H); [discriminate|].
    destruct (Decoded_text _ _ _ HD) as [_ T]. rewrite E in *. rewrite app_length in *.
    destruct (IH post cs' (a ++ utf8 cs) buf' HD') as (b2 & Hb2 & L3); [lia..|].
    exists b2. split; [|lia]. cbn [loop]. unfold while_body at 1. rewrite (dec_condition _ _ _ (60 + d)). cbn [then_ bind fst snd].
    destruct (pre ++ post) as [|x y] eqn:Ex; [apply app_eq_nil in Ex; destruct Ex as [Ex _]; rewrite Ex in Hp; cbn in Hp; lia|]. rewrite <- Ex in *.
    rewrite (dec_step p e msg pre post a buf cs buf' N T); [|rewrite app_length; lia|lia|rewrite app_length; lia|exact Tc|exact H].
    cbn [bind loop_ctl snd fst]. rewrite Hb2, utf8_app, app_assoc. reflexivity.
Qed.
Lemma dec_loop_ev p e msg bs all a buf : find_fn prog [] p = Some ("text_encoding" :: module_of e, decode_fn e) ->
  Decoded e bs all -> (4 <= List.length buf)%nat ->
  N.of_nat (List.length bs) + 4 <= max -> N.of_nat (List.length buf) + 4 <= max -> (List.length bs < fuel)%nat ->
  exists buf', eval max prog fuel (64 + d) [] (dec_loop p e acc msg) (mk bs a buf) = Ret (mk [] (a ++ utf8 all) buf', SVal unit_value) /\
    List.length buf' = List.length buf.
Proof.
  intros N HD Hl L1 L2 F. destruct (dec_loop_go p e msg N fuel bs all a buf HD Hl F L1 L2 F) as (b & H & L). exists b. split; [|exact L].
  unfold dec_loop. change (64 + d)%nat with (S (63 + d)). rewrite ev_while, H. reflexivity.
Qed.
End Decoding.
End Loops.

(** ** The text of the tests *)

Definition property_items : list RustSyntax.item := Eval vm_compute in read tests_property_tests_rs.
Lemma property_items_ok : read tests_property_tests_rs = property_items.
Proof. vm_cast_no_check (eq_refl property_items). Qed.
(* the path by which the functions of a module are called *)
Definition short (e : encoding) : path := [last (module_of e) ""].
Definition enc_name (e : encoding) : path := short e ++ ["encode_from_str"].
Definition dec_name (e : encoding) : path := short e ++ ["decode_to_str"].

Section Names.
Variables d1 : list N.
Variables e1 : list (N * (N * N)).
Variables d2 : list N.
Variables e2 : list (N * (N * N)).
Variable max : N.
Let prog := link "text_encoding" (program_of max (crate_with (whatwg_items d1 e1) (whatwg_items d2 e2))) property_items.
Lemma test_encode_names e : find_fn prog [] (enc_name e) = Some ("text_encoding" :: module_of e, encode_fn e).
Proof. destruct e as [| | | | | | | []]; vm_compute; reflexivity. Qed.
Lemma test_decode_names e : find_fn prog [] (dec_name e) = Some ("text_encoding" :: module_of e, decode_fn e).
Proof. destruct e as [| | | | | | | []]; vm_compute; reflexivity. Qed.
Lemma test_no_names : find_fn prog [] ["Vec"; "new"] = None /\ find_fn prog [] ["String"; "new"] = None.
Proof. split; vm_compute; reflexivity. Qed.
End Names.

Definition zeros (n : N) : expr := ERepeat (ELit (LInt 0 "u8")) (ELit (LInt n "")).
Definition let_buf : stmt := SLet (PVar "buf") None (zeros 32).
Definition let_vec (x : string) : stmt := SLet (PVar x) (Some (TyPath ["Vec"] [TyPath ["u8"] []])) (ECall ["Vec"; "new"] []).
Definition let_utf8 : stmt := SLet (PVar "utf8") None (ECall ["String"; "new"] []).
Definition let_tmp (x : string) : stmt := SLet (PVar "tmp") None (all_of x).
Definition enc_msg : list N := [69; 114; 114; 111; 114; 32; 119; 104; 101; 110; 32; 101; 110; 99; 111; 100; 105; 110; 103; 46].
Definition dec_msg : list N := [69; 114; 114; 111; 114; 32; 119; 104; 101; 110; 32; 100; 101; 99; 111; 100; 105; 110; 103; 46].
Definition same_all (x y : string) : stmt := SExpr (EMacro "assert_eq" [all_of x; all_of y]).
Definition same_bytes (x y : string) : stmt := SExpr (EMacro "assert_eq" [EMethod (EPath [x]) "as_bytes" []; all_of y]).

Definition unicode_body (e : encoding) (x : string) (asserts : list stmt) : expr :=
  EBlock ([let_buf; let_vec x; let_utf8; let_tmp "text"; SExpr (enc_loop (enc_name e) e x enc_msg);
           let_tmp x; SExpr (dec_loop (dec_name e) e "utf8" dec_msg); same_all "text" "utf8"] ++ asserts) None.
Definition single_body (m : sb_module) (x : string) (first : list stmt) : expr :=
  EBlock ([let_buf; let_utf8; let_vec x] ++ first ++
          [let_tmp "data"; SExpr (dec_loop (dec_name (Single m)) (Single m) "utf8" dec_msg);
           let_tmp "utf8"; SExpr (enc_loop (enc_name (Single m)) (Single m) x enc_msg); same_all "data" x]) None.
Definition let_vec_buf : stmt := SLet (PVar "buf") None (EMacro "vec" [zeros 4096]).
Definition random_enc (e : encoding) (ends : list bool) : expr :=
  EBlock (let_vec_buf :: map (fun b => SLet PWild None (enc_call (enc_name e) e (EPath ["text"]) b)) ends) None.
Definition random_dec (e : encoding) (ends : list bool) : expr :=
  EBlock (let_vec_buf :: map (fun b => SLet PWild None (dec_call (dec_name e) e (EPath ["data"]) b)) ends) None.
Definition replaced (b : N) : bool := (b =? 0xAE) || (b =? 0xD2) || (b =? 0xFF).
Definition replace_loop : stmt :=
  SExpr (EFor (PVar "b") (EMethod (EPath ["data"]) "iter_mut" [])
    (EBlock [] (Some (EIf
      (EOr (EOr (EBin Eq (EDeref (EPath ["b"])) (ELit (LInt 0xAE ""))) (EBin Eq (EDeref (EPath ["b"])) (ELit (LInt 0xD2 ""))))
           (EBin Eq (EDeref (EPath ["b"])) (ELit (LInt 0xFF ""))))
      (EBlock [SExpr (EAssign (EDeref (EPath ["b"])) (ELit (LInt 0 "")))] None) None)))).

Inductive test :=
| UnicodeTest (name : string) (e : encoding) (x : string) (asserts : list stmt)
| SingleTest (name : string) (hi : N) (m : sb_module) (x : string) (first : list stmt)
| EncodeTest (name : string) (e : encoding) (ends : list bool)
| DecodeTest (name : string) (e : encoding) (ends : list bool).
Definition regex : expr := ELit (LStr [92; 80; 67; 42; 92; 80; 67; 42; 92; 80; 67; 42]).
Definition gen_bytes (hi n : N) : expr :=
  ECall ["vec"] [ERange (Some (ELit (LInt 0 "u8"))) (Some (ELit (LInt hi ""))) true;
                 ERange (Some (ELit (LInt 0 ""))) (Some (ELit (LInt n ""))) false].
Definition item_of (t : test) : RustSyntax.item :=
  match t with
  | UnicodeTest s e x asserts => IProp s "text" regex (unicode_body e x asserts)
  | SingleTest s hi m x first => IProp s "data" (gen_bytes hi 1000) (single_body m x first)
  | EncodeTest s e ends => IProp s "text" regex (random_enc e ends)
  | DecodeTest s e ends => IProp s "data" (gen_bytes 255 512) (random_dec e ends)
  end.
Definition tests : list test := [
  UnicodeTest "pt_utf8_roundtrip" Utf8 "utf8_encoded" [same_bytes "text" "utf8_encoded"; same_bytes "utf8" "utf8_encoded"];
  DecodeTest "pt_utf8_decode_random_bytes" Utf8 [false; true];
  EncodeTest "pt_utf8_encode_random_text" Utf8 [true];
  UnicodeTest "pt_utf16be_roundtrip" Utf16BE "utf16" [];
  DecodeTest "pt_utf16be_decode_random_bytes" Utf16BE [false; true];
  EncodeTest "pt_utf16be_encode_random_text" Utf16BE [true];
  UnicodeTest "pt_utf16le_roundtrip" Utf16LE "utf16" [];
  DecodeTest "pt_utf16le_decode_random_bytes" Utf16LE [false; true];
  EncodeTest "pt_utf16le_encode_random_text" Utf16LE [true];
  UnicodeTest "pt_utf32be_roundtrip" Utf32BE "utf32" [];
  DecodeTest "pt_utf32be_decode_random_bytes" Utf32BE [false; true];
  EncodeTest "pt_utf32be_encode_random_text" Utf32BE [true];
  UnicodeTest "pt_utf32le_roundtrip" Utf32LE "utf32" [];
  DecodeTest "pt_utf32le_decode_random_bytes" Utf32LE [false; true];
  EncodeTest "pt_utf32le_encode_random_text" Utf32LE [true];
  SingleTest "pt_ascii_roundtrip" 127 ascii "ascii" [];
  DecodeTest "pt_ascii_decode_random_bytes" (Single ascii) [true];
  EncodeTest "pt_ascii_encode_random_text" (Single ascii) [true];
  SingleTest "pt_latin1_roundtrip" 255 iso_8859_1 "latin1" [];
  DecodeTest "pt_latin1_decode_random_bytes" (Single iso_8859_1) [true];
  EncodeTest "pt_latin1_encode_random_text" (Single iso_8859_1) [true];
  SingleTest "pt_iso_8859_7_roundtrip" 255 iso_8859_7 "iso8859_7" [replace_loop];
  DecodeTest "pt_iso_8859_7_decode_random_bytes" (Single iso_8859_7) [true];
  EncodeTest "pt_iso_8859_7_encode_random_text" (Single iso_8859_7) [true];
  DecodeTest "pt_big5_whatwg_decode_random_bytes" Big5WHATWG [false; true];
  EncodeTest "pt_big5_whatwg_encode_random_text" Big5WHATWG [false; true];
  DecodeTest "pt_shiftjis_whatwg_decode_random_bytes" ShiftJISWHATWG [false; true];
  EncodeTest "pt_shiftjis_whatwg_encode_random_text" ShiftJISWHATWG [true]].
Lemma tests_ok : skipn 5 property_items = map item_of tests.
Proof. reflexivity. Qed.
Lemma other_items : Forall (fun i => match i with IProp _ _ _ _ => False | _ => True end) (firstn 5 property_items).
Proof. repeat constructor. Qed.
