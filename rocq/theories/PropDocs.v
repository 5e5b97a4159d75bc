(* C69: the examples in the documentation of the crate run to their end. *)
From Coq Require Import List NArith String Lia.
From Verif Require Import Prelude FileText FileSource RustSyntax RustEval SourceCrate SourceAst SourceDocs ProofSrcDocs.
Import ListNotations.
Local Open Scope string_scope.
Local Open Scope N_scope.
Local Open Scope list_scope.

(* on a machine with any usize of at least 16 bits *)
Theorem C69_doc_examples_pass : forall max fuel depth example, 65535 <= max -> (25 <= fuel)%nat -> (63 <= depth)%nat ->
  In example (doc_programs lib_rs) -> doc_passes max fuel depth example.
Proof.
  intros max fuel depth example M F D H. replace depth with (63 + (depth - 63))%nat by lia. exact (docs_ok max fuel (depth - 63) example M F H).
Qed.
(* the examples that this is about: two programs, each of a function main() and what it imports *)
Theorem C69_doc_examples_listed :
  map (map (fun i => match i with IUse [Import p] => p | IFn _ name _ => [name] | _ => [] end)) (doc_programs lib_rs) =
  [[["text_encoding"; "single_byte"; "ascii"; "encode_from_str"]; ["main"]];
   [["text_encoding"; "single_byte"; "ascii"; "decode_to_str"]; ["main"]]].
Proof. rewrite doc_list_ok. reflexivity. Qed.

(* an example that does not pass: unwrap() panics, since é is not in ASCII *)
Definition bad_example : list line :=
  ["//! ```"; "//! # use text_encoding::single_byte::ascii::encode_from_str;"; "//! let mut out_buffer = [0u8; 100];";
   "//! let (encoded_text, _) = encode_from_str(""caf\u{e9}"", &mut out_buffer).unwrap();"; "//! ```"]%line.
Definition bad_items : list RustSyntax.item := Eval vm_compute in nth 0 (doc_programs bad_example) [].
Example bad_example_read : doc_programs bad_example = [bad_items].
Proof. vm_compute. reflexivity. Qed.
Example bad_example_fails : ~ doc_passes 65535 100 100 bad_items.
Proof.
  intros (f & r & N & C). rewrite source_ok in N, C.
  vm_compute in N. injection N as <-. vm_compute in C. discriminate.
Qed.

Definition doc_theorems := (C69_doc_examples_pass, C69_doc_examples_listed).
Print Assumptions doc_theorems.
