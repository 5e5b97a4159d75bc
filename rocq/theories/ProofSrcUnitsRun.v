(* The unit tests of the crate pass. *)
From Coq Require Import List NArith Arith Bool String Lia.
From Verif Require Import Prelude Encodings TabBig5 TabSjis.
From Verif Require Import RustSyntax RustEval RustProgram SourceCrate SourceWhatwg SourceAst SourceApi SourceTests ProofSrc ProofSrcAll ProofSrcUnits.
Import ListNotations.
Local Open Scope string_scope.
Local Open Scope N_scope.
Local Open Scope list_scope.

(** ** All tests *)

Definition tests_among (l : list RustSyntax.item) : list (string * fn) := flat_map (fun i => match i with IFn true x f => [(x, f)] | _ => [] end) l.
Definition all_tests (mods : modules) : list (path * (string * fn)) := flat_map (fun e => map (pair (fst e)) (tests_among (snd e))) mods.
Lemma path_eqb_eq p q : path_eqb p q = true -> p = q.
Proof.
  revert q. induction p as [|x p IH]; intros [|y q]; cbn [path_eqb]; try discriminate; [reflexivity|].
  intros H. apply andb_prop in H. destruct H as [H1 H2]. apply String.eqb_eq in H1. f_equal; [exact H1|apply IH, H2].
Qed.
Lemma tests_in_all mods m x f : In (x, f) (tests_in mods m) -> In (m, (x, f)) (all_tests mods).
Proof.
  unfold tests_in, items_in. destruct (find (fun e => path_eqb (fst e) m) mods) as [[m' l]|] eqn:E; [|intros []]. intros H.
  apply find_some in E. destruct E as [E P]. apply path_eqb_eq in P. cbn [fst snd] in *. subst m'.
  apply in_flat_map. exists (m, l). split; [exact E|]. apply in_map. exact H.
Qed.

(** ** What the names in them stand for *)

Definition helper (m : path) (x : string) : list (path * target) :=
  match items_in (crate_with [] []) m with
  | Some l =>
      match first (fun i => match i with IFn false y f => if String.eqb x y then Some f else None | _ => None end) l with
      | Some f => [([x], ToFn f)]
      | None => []
      end
  | None => []
  end.
Definition names_of (e : encoding) (m : path) : list (path * target) :=
  [(["encode_from_str"], ToEncode e); (["decode_to_str"], ToDecode e); (["Ok"], ToCon); (["Err"], ToCon)] ++
  helper m "correct_decode" ++ helper m "error_decode" ++ helper m "correct_encode".
Definition test_modules : list (path * encoding) :=
  [(["utf8"; "tests"], Utf8); (["utf16_be"; "tests"], Utf16BE); (["utf16_le"; "tests"], Utf16LE); (["utf32_be"; "tests"], Utf32BE); (["utf32_le"; "tests"], Utf32LE);
   (["single_byte"; "tests"], Single iso_8859_7); (["big5_whatwg"; "tests"], Big5WHATWG); (["shiftjis_whatwg"; "tests"], ShiftJISWHATWG)].
Definition more_names (e : encoding) : list (path * target) :=
  match e with
  | Single _ =>
      [(["ascii"; "encode_from_str"], ToEncode (Single ascii)); (["ascii"; "decode_to_str"], ToDecode (Single ascii));
       (["iso_8859_1"; "encode_from_str"], ToEncode (Single iso_8859_1)); (["iso_8859_1"; "decode_to_str"], ToDecode (Single iso_8859_1))]
  | _ => []
  end.
Definition names_in : list (path * list (path * target)) := Eval vm_compute in
  map (fun me => (fst me, names_of (snd me) (fst me) ++ more_names (snd me))) test_modules.
Definition find_path {A} (l : list (path * A)) (p : path) : option A :=
  match find (fun e => path_eqb (fst e) p) l with Some e => Some (snd e) | None => None end.
Definition known_in (m p : path) : option target := match find_path names_in m with Some l => find_path l p | None => None end.
Definition unit_path (p : path) : bool := path_eqb p ["DecodeErrorCause"; "InvalidData"].
Lemma find_path_in {A} (l : list (path * A)) p t : find_path l p = Some t -> In (p, t) l.
Proof.
  unfold find_path. destruct (find (fun e => path_eqb (fst e) p) l) as [[q u]|] eqn:E; [|discriminate]. intros [= <-].
  apply find_some in E. destruct E as [E P]. apply path_eqb_eq in P. cbn in P. subst q. exact E.
Qed.

Section Names.
Variables d1 : list N.
Variables e1 : list (N * (N * N)).
Variables d2 : list N.
Variables e2 : list (N * (N * N)).
Variable max : N.
Let mods := crate_with (whatwg_items d1 e1) (whatwg_items d2 e2).
Let prog := program_of max mods.
Definition stands_for (prog : program) (m p : path) (t : target) : Prop :=
  match t with
  | ToEncode e => find_fn prog m p = Some (module_of e, encode_fn e)
  | ToDecode e => find_fn prog m p = Some (module_of e, decode_fn e)
  | ToFn f => find_fn prog m p = Some (m, f)
  | ToCon => find_fn prog m p = None
  end.
Lemma names_ok : Forall (fun ml => Forall (fun pt => stands_for prog (fst ml) (fst pt) (snd pt)) (snd ml) /\ find_const prog (fst ml) ["DecodeErrorCause"; "InvalidData"] = None) names_in.
Proof.
  unfold names_in.
  repeat (apply Forall_cons; [split; [cbn [fst snd]; repeat (apply Forall_cons; [vm_compute; reflexivity|]); apply Forall_nil|vm_compute; reflexivity]|]); apply Forall_nil.
Qed.
Definition tests_list : list (path * (string * fn)) := Eval vm_compute in all_tests (crate_with [] []).
Lemma tests_list_ok : all_tests mods = tests_list.
Proof. vm_compute. reflexivity. Qed.
End Names.

(** ** They pass *)

Definition passes_at (t : path * (string * fn)) : bool :=
  let '(m, (x, f)) := t in
  match fn_params f, fn_ret f, find_path names_in m, run (known_in m) unit_path 39 (fn_body f) [] with
  | [], None, Some _, Some (_, VTuple []) => true
  | _, _, _, _ => false
  end.
Lemma all_pass : forallb passes_at tests_list = true.
Proof. vm_cast_no_check (eq_refl true). Qed.

Theorem unit_tests_ok max fuel d m x f : 65535 <= max -> (600 <= fuel)%nat -> In (x, f) (tests_in crate m) ->
  passes max (text_encoding max) fuel (100 + d) m f.
Proof.
  intros M F H. apply tests_in_all in H. rewrite crate_ast_ok in H. unfold crate_ast in H. rewrite tests_list_ok in H.
  pose proof all_pass as A. rewrite forallb_forall in A. specialize (A _ H). unfold passes_at in A. cbv beta iota in A.
  destruct (fn_params f) eqn:P; [|discriminate]. destruct (fn_ret f) eqn:R; [discriminate|]. destruct (find_path names_in m) as [l|] eqn:K; [|discriminate].
  destruct (run (known_in m) unit_path 39 (fn_body f) []) as [[r v]|] eqn:E; [|discriminate]. destruct v; try discriminate. destruct vs; [|discriminate].
  pose proof (names_ok big5_decode_table big5_encode_table sjis_decode_table sjis_encode_table max) as N. rewrite Forall_forall in N.
  specialize (N _ (find_path_in _ _ _ K)). cbn [fst snd] in N. destruct N as [N1 N2]. rewrite Forall_forall in N1.
  rewrite source_ok. exists r. unfold call, apply_fn. rewrite P. cbn [bind_params bind].
  rewrite (run_ok (known_in m) unit_path max fuel m M F) with (n := 39%nat) (r' := r) (v := VTuple []); [rewrite R; reflexivity| | |exact E|lia].
  - intros p t Hp. unfold known_in in Hp. rewrite K in Hp. exact (N1 _ (find_path_in _ _ _ Hp)).
  - intros p Hp. apply path_eqb_eq in Hp. subst p. exact N2.
Qed.
