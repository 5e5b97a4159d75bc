(* C72: what the crate exports, and what it does not use. *)
From Coq Require Import List NArith Arith Bool String Ascii Lia.
From Verif Require Import Encodings Tables FileText TabBig5 TabSjis FileSource.
From Verif Require Import RustSyntax RustLex RustParse RustExports SourceCrate SourceWhatwg SourceApi SourceExports ProofExports.
Import ListNotations.
Local Open Scope string_scope.
Local Open Scope list_scope.

(** ** The interface *)

(* kind, path and declaration of each item that a program using the crate can name *)
Inductive Interface : string -> path -> line -> Prop :=
| I_single_byte : Interface "mod" ["single_byte"] ""%line
| I_encoding e : Interface "mod" (module_of e) ""%line
| I_encode e : e <> Big5WHATWG ->
    Interface "fn" (module_of e ++ ["encode_from_str"]) "<'a>(input: &str, out_buffer: &'a mut [u8]) -> EncodeResult<'a>"%line
| I_encode_big5 :
    Interface "fn" ["big5_whatwg"; "encode_from_str"] "<'a>(input: &str, out_buffer: &'a mut [u8], is_end: bool) -> EncodeResult<'a>"%line
| I_decode e : (forall m, e <> Single m) ->
    Interface "fn" (module_of e ++ ["decode_to_str"]) "<'a>(input: &[u8], out_buffer: &'a mut [u8], is_end: bool) -> DecodeResult<'a>"%line
| I_decode_single m :
    Interface "fn" (module_of (Single m) ++ ["decode_to_str"]) "<'a>(input: &[u8], out_buffer: &'a mut [u8]) -> DecodeResult<'a>"%line
| I_encode_result : Interface "type" ["EncodeResult"] "<'a> = Result<(&'a [u8], usize), EncodeError>"%line
| I_decode_result : Interface "type" ["DecodeResult"] "<'a> = Result<(&'a str, usize), DecodeError>"%line
| I_encode_error : Interface "struct" ["EncodeError"] "#[derive(Debug, Copy, Clone, PartialEq)]"%line
| I_decode_error : Interface "struct" ["DecodeError"] "#[derive(Debug, Copy, Clone, PartialEq)]"%line
| I_character : Interface "field" ["EncodeError"; "character"] "char"%line
| I_cause : Interface "field" ["DecodeError"; "cause"] "DecodeErrorCause"%line
| I_range x : x = "EncodeError" \/ x = "DecodeError" -> Interface "field" [x; "error_range"] "(usize, usize)"%line
| I_written x : x = "EncodeError" \/ x = "DecodeError" -> Interface "field" [x; "output_bytes_written"] "usize"%line
| I_decode_error_cause : Interface "enum" ["DecodeErrorCause"] "#[derive(Debug, Copy, Clone, PartialEq)]"%line
| I_invalid_data : Interface "variant" ["DecodeErrorCause"; "InvalidData"] ""%line
| I_unknown_conversion : Interface "variant" ["DecodeErrorCause"; "UnknownConversion"] ""%line.

(* the same, as a list *)
Definition multi : list encoding := [Utf8; Utf16BE; Utf16LE; Utf32BE; Utf32LE; Big5WHATWG; ShiftJISWHATWG].
Definition interface : list (string * path * line) :=
  [("mod", ["single_byte"], ""%line)]
  ++ map (fun e => ("mod", module_of e, ""%line)) (multi ++ map Single all_modules)
  ++ map (fun e => ("fn", module_of e ++ ["encode_from_str"], "<'a>(input: &str, out_buffer: &'a mut [u8]) -> EncodeResult<'a>"%line))
       (filter (fun e => match e with Big5WHATWG => false | _ => true end) multi ++ map Single all_modules)
  ++ [("fn", ["big5_whatwg"; "encode_from_str"], "<'a>(input: &str, out_buffer: &'a mut [u8], is_end: bool) -> EncodeResult<'a>"%line)]
  ++ map (fun e => ("fn", module_of e ++ ["decode_to_str"], "<'a>(input: &[u8], out_buffer: &'a mut [u8], is_end: bool) -> DecodeResult<'a>"%line)) multi
  ++ map (fun m => ("fn", module_of (Single m) ++ ["decode_to_str"], "<'a>(input: &[u8], out_buffer: &'a mut [u8]) -> DecodeResult<'a>"%line)) all_modules
  ++ [("type", ["EncodeResult"], "<'a> = Result<(&'a [u8], usize), EncodeError>"%line);
      ("type", ["DecodeResult"], "<'a> = Result<(&'a str, usize), DecodeError>"%line);
      ("struct", ["EncodeError"], "#[derive(Debug, Copy, Clone, PartialEq)]"%line);
      ("struct", ["DecodeError"], "#[derive(Debug, Copy, Clone, PartialEq)]"%line);
      ("field", ["EncodeError"; "character"], "char"%line);
      ("field", ["DecodeError"; "cause"], "DecodeErrorCause"%line);
      ("field", ["EncodeError"; "error_range"], "(usize, usize)"%line);
      ("field", ["DecodeError"; "error_range"], "(usize, usize)"%line);
      ("field", ["EncodeError"; "output_bytes_written"], "usize"%line);
      ("field", ["DecodeError"; "output_bytes_written"], "usize"%line);
      ("enum", ["DecodeErrorCause"], "#[derive(Debug, Copy, Clone, PartialEq)]"%line);
      ("variant", ["DecodeErrorCause"; "InvalidData"], ""%line);
      ("variant", ["DecodeErrorCause"; "UnknownConversion"], ""%line)].
Lemma all_encodings e : In e (multi ++ map Single all_modules).
Proof. apply in_or_app. destruct e; try (left; cbn; tauto). right. apply in_map, all_modules_In. Qed.
Lemma interface_ok k p d : Interface k p d <-> In (k, p, d) interface.
Proof.
  unfold interface. rewrite !in_app_iff, !in_map_iff. split.
  - intros I. destruct I as [|e|e N| |e N|m| | | | | | |x [->| ->]|x [->| ->]| | |].
    1: left; left; reflexivity.
    1: right; left; exists e; split; [reflexivity|apply all_encodings].
    1: right; right; left; exists e; split; [reflexivity|];
       apply in_or_app; destruct e; first [left; cbn; tauto | exfalso; apply N; reflexivity | right; apply in_map, all_modules_In].
    1: right; right; right; left; left; reflexivity.
    1: right; right; right; right; left; exists e; split; [reflexivity|];
       destruct e; first [cbn; tauto | exfalso; eapply N; reflexivity].
    1: right; right; right; right; right; left; exists m; split; [reflexivity|apply all_modules_In].
    all: right; right; right; right; right; right; cbn [In]; tauto.
  - intros [I|[I|[I|[I|[I|[I|I]]]]]].
    + destruct I as [I|[]]. injection I as <- <- <-. constructor.
    + destruct I as (e & I & _). injection I as <- <- <-. constructor.
    + destruct I as (e & I & Ie). injection I as <- <- <-. constructor. intros ->. apply in_app_or in Ie. destruct Ie as [Ie|Ie].
      * cbn in Ie. repeat (destruct Ie as [Ie|Ie]; [discriminate Ie|]). exact Ie.
      * apply in_map_iff in Ie. destruct Ie as (m & Ie & _). discriminate Ie.
    + destruct I as [I|[]]. injection I as <- <- <-. constructor.
    + destruct I as (e & I & Ie). injection I as <- <- <-. constructor. intros m ->.
      cbn in Ie. repeat (destruct Ie as [Ie|Ie]; [discriminate Ie|]). exact Ie.
    + destruct I as (m & I & _). injection I as <- <- <-. constructor.
    + cbn [In] in I. repeat (destruct I as [I|I]; [injection I as <- <- <-; constructor; tauto|]). destruct I.
Qed.

Definition token_dec (a b : token) : {a = b} + {a <> b}.
Proof. decide equality; try apply string_dec; try apply N.eq_dec; apply list_eq_dec, N.eq_dec. Defined.
Definition export_dec (a b : string * path * option (list token)) : {a = b} + {a <> b}.
Proof.
  repeat decide equality.
Defined.
Definition with_tokens (x : string * path * line) : string * path * option (list token) :=
  match x with (k, p, d) => (k, p, tokens (str d)) end.
Definition read (x : string * path * list token) : string * path * option (list token) := match x with (k, p, ts) => (k, p, Some ts) end.
Definition within (a b : list (string * path * option (list token))) : bool := forallb (fun x => if in_dec export_dec x b then true else false) a.
Lemma within_ok a b : within a b = true -> incl a b.
Proof. unfold within. rewrite forallb_forall. intros H x I. apply H in I. destruct (in_dec export_dec x b); [assumption|discriminate]. Qed.
Fixpoint distinct (a : list (string * path * option (list token))) : bool :=
  match a with [] => true | x :: r => (if in_dec export_dec x r then false else true) && distinct r end.
Lemma distinct_ok a : distinct a = true -> NoDup a.
Proof.
  induction a as [|x r IH]; cbn [distinct]; intros H; [constructor|]. apply andb_prop in H. destruct H as [H R].
  constructor; [|exact (IH R)]. destruct (in_dec export_dec x r); [discriminate|assumption].
Qed.
Lemma same_exports :
  within (map read exports) (map with_tokens interface) && within (map with_tokens interface) (map read exports) && distinct (map read exports) = true.
Proof. vm_cast_no_check (eq_refl true). Qed.

(* the crate exports this, each item once, and nothing else *)
Theorem C72_interface : exists l, source_exports = Some l /\ NoDup l /\
  forall kind p ts, In (kind, p, ts) l <-> exists d, Interface kind p d /\ tokens (str d) = Some ts.
Proof.
  pose proof same_exports as S. apply andb_prop in S. destruct S as [S D]. apply andb_prop in S. destruct S as [A B].
  apply within_ok in A, B. apply distinct_ok in D. exists exports. split; [exact exports_ok|]. split; [exact (NoDup_map_inv _ _ D)|].
  intros k p ts. split.
  - intros I. apply (in_map read) in I. apply A in I. apply in_map_iff in I. destruct I as ([[k' p'] d] & E & I).
    injection E as -> -> E. exists d. split; [apply interface_ok, I|exact E].
  - intros (d & I & E). apply interface_ok in I. apply (in_map with_tokens) in I. apply B in I. apply in_map_iff in I.
    destruct I as ([[k' p'] ts'] & E' & I). cbn [with_tokens read] in E'. rewrite E in E'. injection E' as -> -> ->. exact I.
Qed.
Example C72_ex1 : tokens (str "<'a> = Result<(&'a str, usize), DecodeError>") =
  Some [TP "<"; TLife "a"; TP ">"; TP "="; TId "Result"; TP "<"; TP "("; TP "&"; TLife "a"; TId "str"; TP ","; TId "usize"; TP ")"; TP ",";
        TId "DecodeError"; TP ">"].
Proof. reflexivity. Qed.
Example C72_ex2 : Interface "fn" ["single_byte"; "koi8_u"; "decode_to_str"] "<'a>(input: &[u8], out_buffer: &'a mut [u8]) -> DecodeResult<'a>"%line.
Proof. exact (I_decode_single koi8_u). Qed.
(* in particular, the functions are those that the other theorems are about *)
Corollary C72_functions : forall l p ts, source_exports = Some l -> In ("fn", p, ts) l ->
  exists e, p = module_of e ++ ["encode_from_str"] \/ p = module_of e ++ ["decode_to_str"].
Proof.
  intros l p ts L I. destruct C72_interface as (l' & L' & _ & H). rewrite L in L'. injection L' as <-.
  apply H in I. destruct I as (d & I & _). inversion I; subst; eauto. exists Big5WHATWG. left. reflexivity.
Qed.

(** ** Unsafe code *)

(* the depth of brackets after the tokens; None if more are closed than opened *)
Fixpoint level (d : nat) (ts : list token) : option nat :=
  match ts with
  | [] => Some d
  | TP "(" :: r | TP "[" :: r | TP "{" :: r => level (S d) r
  | TP ")" :: r | TP "]" :: r | TP "}" :: r => match d with O => None | S d => level d r end
  | _ :: r => level d r
  end.
(* the tokens start with a block that consists of a call of a function *)
Definition CallBlock (f : line) (ts : list token) : Prop :=
  exists name args rest, tokens (str f) = Some name /\ level 0 args = Some 0%nat /\
    ts = TP "{" :: name ++ TP "(" :: args ++ TP ")" :: TP "}" :: rest.

Definition call_block (name ts : list token) : bool :=
  let n := List.length name in
  if list_eq_dec token_dec (firstn (n + 2) ts) (TP "{" :: name ++ [TP "("]) then
    let p := until [")"] 0 (skipn (n + 2) ts) in
    match level 0 (fst p), snd p with
    | Some O, TP ")" :: TP "}" :: _ => true
    | _, _ => false
    end
  else false.
Lemma call_block_ok f name ts : tokens (str f) = Some name -> call_block name ts = true -> CallBlock f ts.
Proof.
  intros F H. unfold call_block in H. destruct (list_eq_dec token_dec _ _) as [E|]; [|discriminate H].
  pose proof (until_app [")"] (skipn (List.length name + 2) ts) 0) as U.
  set (p := until [")"] 0 (skipn (List.length name + 2) ts)) in *.
  destruct (level 0 (fst p)) as [[|n]|] eqn:L; [|discriminate H..].
  exists name, (fst p).
  assert (R : exists rest, snd p = TP ")" :: TP "}" :: rest).
  { clear - H. repeat match type of H with
    | match ?x with _ => _ end = true => destruct x; try discriminate H
    end. eexists. reflexivity. }
  destruct R as [rest R]. exists rest. split; [exact F|]. split; [exact L|].
  rewrite <- (firstn_skipn (List.length name + 2) ts), E, <- U, R. cbn [app]. rewrite <- app_assoc. reflexivity.
Qed.

Definition utf8_unchecked : line := "core::str::from_utf8_unchecked"%line.
Definition char_unchecked : line := "core::char::from_u32_unchecked"%line.
Definition toks (f : line) : list token := match tokens (str f) with Some l => l | None => [] end.
Fixpoint unsafe_ok (ts : list token) : bool :=
  match ts with
  | [] => true
  | t :: r => (if token_dec t (TId "unsafe") then call_block (toks utf8_unchecked) r || call_block (toks char_unchecked) r else true) && unsafe_ok r
  end.
Lemma unsafe_ok_app pre post : unsafe_ok (pre ++ TId "unsafe" :: post) = true -> CallBlock utf8_unchecked post \/ CallBlock char_unchecked post.
Proof.
  induction pre as [|t pre IH]; cbn [app]; intros H.
  - cbn [unsafe_ok] in H. destruct (token_dec _ _) as [_|N]; [|congruence]. apply andb_prop in H. destruct H as [H _].
    apply orb_prop in H. destruct H as [H|H]; [left|right]; (eapply call_block_ok; [|exact H]); vm_compute; reflexivity.
  - cbn [unsafe_ok] in H. apply andb_prop in H. destruct H as [_ H]. exact (IH H).
Qed.

(* the only unsafe code in the crate, its tests included, is calls of two functions of the core library *)
Theorem C72_unsafe : forall name file, In (name, file) source_files ->
  exists ts, tokens (contents file) = Some ts /\
  forall pre post, ts = pre ++ TId "unsafe" :: post ->
  CallBlock "core::str::from_utf8_unchecked"%line post \/ CallBlock "core::char::from_u32_unchecked"%line post.
Proof.
  intros name file I. destruct (all_tokens unsafe_ok) with (name := name) (t := file) as (ts & T & C).
  - vm_cast_no_check (eq_refl true).
  - vm_cast_no_check (eq_refl true).
  - vm_cast_no_check (eq_refl true).
  - exact I.
  - exists ts. split; [exact T|]. intros pre post ->. exact (unsafe_ok_app pre post C).
Qed.
Example C72_ex3 : CallBlock "core::char::from_u32_unchecked"%line
  [TP "{"; TId "core"; TP "::"; TId "char"; TP "::"; TId "from_u32_unchecked"; TP "("; TId "code_1"; TId "as"; TId "u32"; TP ")"; TP "}"; TP ";"].
Proof. exists (toks char_unchecked), [TId "code_1"; TId "as"; TId "u32"], [TP ";"]. repeat split. Qed.

(** ** Libraries and state *)

(* the crate does without the standard library, other crates, an allocator and global variables *)
Theorem C72_core_only :
  (exists rest lib, In ("lib.rs", lib) source_files /\ tokens (contents lib) = Some ([TP "#"; TP "!"; TP "["; TId "no_std"; TP "]"] ++ rest)) /\
  forall name file, In (name, file) source_files ->
    exists ts, tokens (contents file) = Some ts /\
    forall x, In x ["std"; "alloc"; "extern"; "static"; "thread_local"; "asm"] -> ~ In (TId x) ts.
Proof.
  set (bad := ["std"; "alloc"; "extern"; "static"; "thread_local"; "asm"]). split.
  - eexists _, lib_rs. split; [cbn; tauto|]. vm_compute. reflexivity.
  - intros name file I.
    destruct (all_tokens (fun ts => forallb (fun t => match t with TId x => negb (existsb (String.eqb x) bad) | _ => true end) ts)) with (name := name) (t := file) as (ts & T & C).
    + vm_cast_no_check (eq_refl true).
    + vm_cast_no_check (eq_refl true).
    + vm_cast_no_check (eq_refl true).
    + exact I.
    + exists ts. split; [exact T|]. intros x B X. rewrite forallb_forall in C. apply C in X. apply negb_true_iff in X.
      assert (E : existsb (String.eqb x) bad = true) by (apply existsb_exists; exists x; split; [exact B|apply String.eqb_refl]).
      rewrite E in X. discriminate X.
Qed.

Definition interface_theorems := (C72_interface, C72_functions, C72_unsafe, C72_core_only).
Print Assumptions interface_theorems.
