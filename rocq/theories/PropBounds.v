(* C70: the bounds of the interpreters have no influence on results. *)
From Coq Require Import List NArith Arith String Lia.
From Verif Require Import Prelude Encodings Types ModelFiles FileText FileTests FileScripts.
From Verif Require Import RustSyntax RustEval RustProgram RustLink SourceCrate SourceApi SourceWrapper SourceTests.
From Verif Require Import PyEval SourceScripts ProofSrcBounds ProofPyBounds.
From Verif Require Import PropSource PropWrapper PropPython PropOwnTests.
From Verif Require Import Spec SpecCalls.
Import ListNotations.
Local Open Scope string_scope.
Local Open Scope N_scope.
Local Open Scope list_scope.

(** * Rust *)

(* a call, in any program, that has ended within some bounds ends in the same way within larger ones *)
Theorem C70_rust_bounds : forall max prog m f args fuel depth fuel' depth', (fuel <= fuel')%nat -> (depth <= depth')%nat ->
  RustEval.call max prog fuel depth m f args <> Diverge ->
  RustEval.call max prog fuel' depth' m f args = RustEval.call max prog fuel depth m f args.
Proof.
  intros max prog m f args fuel depth fuel' depth' F D H. destruct (call_below max prog fuel fuel' depth depth' m f args F D) as [E|E]; [contradiction|].
  symmetry. exact E.
Qed.
(* so that two calls within any two bounds do not end differently *)
Theorem C70_rust_one_end : forall max prog m f args fuel depth fuel' depth',
  RustEval.call max prog fuel depth m f args <> Diverge -> RustEval.call max prog fuel' depth' m f args <> Diverge ->
  RustEval.call max prog fuel depth m f args = RustEval.call max prog fuel' depth' m f args.
Proof.
  intros max prog m f args fuel depth fuel' depth' H H'.
  rewrite <- (C70_rust_bounds max prog m f args fuel depth (Nat.max fuel fuel') (Nat.max depth depth')); [|lia|lia|exact H].
  apply C70_rust_bounds; [lia|lia|exact H'].
Qed.

Lemma observe_below {A} max prog fuel fuel' depth depth' (read : RustEval.value -> option A) k p args : (fuel <= fuel')%nat -> (depth <= depth')%nat ->
  below (observe max prog fuel depth read k p args) (observe max prog fuel' depth' read k p args).
Proof.
  intros F D. unfold observe. destruct (find_fn prog [] p) as [[m f]|]; [|apply below_refl].
  apply bind_below; [apply call_below; assumption|]. intros. apply below_refl.
Qed.

(* whatever the bounds: a call to the crate that ends is as specified; in particular it never panics *)
Theorem C70_source_encode : forall max e is_end cs out fuel depth, 65535 <= max -> text cs ->
  N.of_nat (List.length (utf8 cs)) <= max / 2 -> N.of_nat (List.length out) <= max / 2 ->
  let o := source_encode max (text_encoding max) fuel depth e (utf8 cs) out is_end in
  o = Diverge \/ exists r buf, o = Ret (r, buf) /\ EncodeCall e cs out is_end r buf.
Proof.
  intros max e is_end cs out fuel depth M T Li Lo o.
  set (fuel' := Nat.max fuel (S (List.length (utf8 cs)))). set (depth' := Nat.max depth 60).
  assert (B : below o (source_encode max (text_encoding max) fuel' depth' e (utf8 cs) out is_end)) by (apply observe_below; subst fuel' depth'; lia).
  destruct (C66_source_encoders_total max e is_end cs out fuel' depth' M T Li Lo ltac:(subst fuel'; lia) ltac:(subst depth'; lia)) as (r & buf & E).
  destruct B as [B|B]; [left; exact B|right]. exists r, buf. split; [congruence|].
  apply (C66_source_encode_complete max e is_end cs out fuel' depth'); [exact M|exact T|exact Li|exact Lo|subst fuel'; lia|subst depth'; lia|exact E].
Qed.
Theorem C70_source_decode : forall max e is_end bs out fuel depth, 65535 <= max -> bytes bs ->
  N.of_nat (List.length bs) <= max / 2 -> N.of_nat (List.length out) <= max / 2 ->
  let o := source_decode max (text_encoding max) fuel depth e bs out is_end in
  o = Diverge \/ exists r buf, o = Ret (r, buf) /\ DecodeCall e bs out is_end r buf.
Proof.
  intros max e is_end bs out fuel depth M T Li Lo o.
  set (fuel' := Nat.max fuel (S (List.length bs))). set (depth' := Nat.max depth 60).
  assert (B : below o (source_decode max (text_encoding max) fuel' depth' e bs out is_end)) by (apply observe_below; subst fuel' depth'; lia).
  destruct (C66_source_decoders_total max e is_end bs out fuel' depth' M T Li Lo ltac:(subst fuel'; lia) ltac:(subst depth'; lia)) as (r & buf & E).
  destruct B as [B|B]; [left; exact B|right]. exists r, buf. split; [congruence|].
  apply (C66_source_decode_complete max e is_end bs out fuel' depth'); [exact M|exact T|exact Li|exact Lo|subst fuel'; lia|subst depth'; lia|exact E].
Qed.

(* the functions of the example program *)
Theorem C70_wrapper_encode : forall max e is_end cs out fuel depth, 65535 <= max -> text cs ->
  N.of_nat (List.length (utf8 cs)) <= max / 2 -> N.of_nat (List.length out) <= max / 2 ->
  let o := wrapper_encode max (wrapper max) fuel depth e (utf8 cs) out is_end in
  o = Diverge \/ exists r buf, o = Ret (r, buf) /\ EncodeCall e cs out is_end r buf.
Proof.
  intros max e is_end cs out fuel depth M T Li Lo o.
  set (fuel' := Nat.max fuel (S (List.length (utf8 cs)))). set (depth' := Nat.max depth 63).
  assert (B : below o (wrapper_encode max (wrapper max) fuel' depth' e (utf8 cs) out is_end)) by (apply observe_below; subst fuel' depth'; lia).
  pose proof (C67_wrapper_encode max e is_end cs out fuel' depth' M T Li Lo ltac:(subst fuel'; lia) ltac:(subst depth'; lia)) as E.
  destruct (ProofApi.encode_total e is_end cs out T) as (r & buf & E'). rewrite E' in E.
  destruct B as [B|B]; [left; exact B|right]. exists r, buf. split; [congruence|].
  refine (proj1 (C67_wrapper_encode_complete max e is_end cs out fuel' depth' r buf M T Li Lo ltac:(subst fuel'; clear; lia) ltac:(subst depth'; clear; lia)) E).
Qed.
Theorem C70_wrapper_decode : forall max e is_end bs out fuel depth, 65535 <= max -> bytes bs ->
  N.of_nat (List.length bs) <= max / 2 -> N.of_nat (List.length out) <= max / 2 ->
  let o := wrapper_decode max (wrapper max) fuel depth e bs out is_end in
  o = Diverge \/ exists r buf, o = Ret (r, buf) /\ DecodeCall e bs out is_end r buf.
Proof.
  intros max e is_end bs out fuel depth M T Li Lo o.
  set (fuel' := Nat.max fuel (S (List.length bs))). set (depth' := Nat.max depth 63).
  assert (B : below o (wrapper_decode max (wrapper max) fuel' depth' e bs out is_end)) by (apply observe_below; subst fuel' depth'; lia).
  pose proof (C67_wrapper_decode max e is_end bs out fuel' depth' M T Li Lo ltac:(subst fuel'; lia) ltac:(subst depth'; lia)) as E.
  destruct (ProofApi.decode_total e is_end bs out T) as (r & buf & E'). rewrite E' in E.
  destruct B as [B|B]; [left; exact B|right]. exists r, buf. split; [congruence|].
  refine (proj1 (C67_wrapper_decode_complete max e is_end bs out fuel' depth' r buf M T Li Lo ltac:(subst fuel'; clear; lia) ltac:(subst depth'; clear; lia)) E).
Qed.

(* the unit tests and the property tests: no bounds make an assertion fail *)
Theorem C70_unit_tests : forall max fuel depth m name f, 65535 <= max -> In (name, f) (tests_in crate m) ->
  RustEval.call max (text_encoding max) fuel depth m f [] = Diverge \/ passes max (text_encoding max) fuel depth m f.
Proof.
  intros max fuel depth m name f M H.
  destruct (C69_unit_tests_pass max (Nat.max fuel 600) (Nat.max depth 100) m name f M ltac:(lia) ltac:(lia) H) as [r E].
  destruct (call_below max (text_encoding max) fuel (Nat.max fuel 600) depth (Nat.max depth 100) m f [] ltac:(lia) ltac:(lia)) as [B|B]; [left; exact B|right].
  exists r. congruence.
Qed.
Theorem C70_property_tests : forall max file fuel depth name x strategy body v, 65535 <= max ->
  In (IProp name x strategy body) (SourceCrate.read tests_property_tests_rs) -> Generates strategy v -> 4 * size v + 4 <= max ->
  RustEval.eval max (test_program max file (SourceCrate.read tests_property_tests_rs)) fuel depth [] body [(x, v)] = Diverge \/
  returns_on max (test_program max file (SourceCrate.read tests_property_tests_rs)) fuel depth x body v.
Proof.
  intros max file fuel depth name x strategy body v M H G L. set (fuel' := Nat.max fuel (S (4 * N.to_nat (size v)))). set (depth' := Nat.max depth 100).
  destruct (C69_property_tests_hold max file fuel' depth' name x strategy body v M H G L ltac:(subst fuel'; lia) ltac:(subst depth'; lia)) as [r E].
  destruct (eval_below max (test_program max file (SourceCrate.read tests_property_tests_rs)) fuel fuel' ltac:(subst fuel'; lia) depth depth' ltac:(subst depth'; lia) [] body [(x, v)]) as [B|B];
    [left; exact B|right]. exists r. congruence.
Qed.

(** * Python *)

(* a script that has ended within some bound ends in the same way within a larger one *)
Theorem C70_python_bounds : forall dir program n n' f, (n <= n')%nat -> run_script dir program n f <> Out -> run_script dir program n' f = run_script dir program n f.
Proof. intros dir program n n' f L H. destruct (script_under dir program n n' f L) as [E|E]; [contradiction|]. symmetry. exact E. Qed.

(* whatever the bound: a run of a script of the repository that ends, ends as C68 says *)
Definition ends_within (script : nat -> files -> res unit) (fuel : nat) (f : files) (r : run) : Prop :=
  script fuel f = Out \/
  match r with
  | Done f' => exists w, script fuel f = Val tt w /\ forall p, disk w p = f' p
  | Raised f' => exists w, script fuel f = Raise w /\ forall p, disk w p = f' p
  end.
Lemma ends_any dir file f r : ends_as (run_file dir file) f r -> forall fuel, ends_within (run_file dir file) fuel f r.
Proof.
  intros [n H] fuel. specialize (H (Nat.max n fuel) ltac:(lia)). destruct (file_under dir file fuel (Nat.max n fuel) f ltac:(lia)) as [E|E]; [left; exact E|right].
  destruct r; destruct H as (w & H & D); exists w; (split; [congruence|exact D]).
Qed.
Theorem C70_scripts : forall fuel f,
  ends_within run_ascii_ext fuel f (single_byte_main f) /\ ends_within run_big5 fuel f (big5_main f) /\ ends_within run_shiftjis fuel f (shiftjis_main f).
Proof.
  intros fuel f. split; [|split]; apply ends_any; [exact (C68_single_byte f)|exact (C68_big5 f)|exact (C68_shift_jis f)].
Qed.

(** * Examples *)

(* two iterations are not enough for three characters, three are not enough for the end of the loop, four are *)
Example C70_example_bounds :
  map (fun fuel => source_encode 0xFFFF (text_encoding 0xFFFF) fuel 60 Utf16LE (utf8 [0x41; 0x42; 0x43]) (repeat 7 8) true) [2; 3; 4; 5]%nat =
  [Diverge; Diverge; Ret (Ok ([0x41; 0; 0x42; 0; 0x43; 0], 3%nat), [0x41; 0; 0x42; 0; 0x43; 0; 7; 7]); Ret (Ok ([0x41; 0; 0x42; 0; 0x43; 0], 3%nat), [0x41; 0; 0x42; 0; 0x43; 0; 7; 7])].
Proof. rewrite SourceAst.source_ok. vm_compute. reflexivity. Qed.
Example C70_example_depth : source_encode 0xFFFF (text_encoding 0xFFFF) 10 3 Utf16LE (utf8 [0x41]) (repeat 7 8) true = Diverge.
Proof. rewrite SourceAst.source_ok. vm_compute. reflexivity. Qed.

Definition bounds_theorems := (C70_rust_bounds, C70_rust_one_end, C70_source_encode, C70_source_decode, C70_wrapper_encode, C70_wrapper_decode,
  C70_unit_tests, C70_property_tests, C70_python_bounds, C70_scripts).
Print Assumptions bounds_theorems.
