(* The encoder of Shift JIS in the source does what ModelWord.v says. *)
From Coq Require Import List NArith Arith Bool String Lia.
From Verif Require Import Prelude RustCore Types RustSyntax RustEval RustProgram SourceCrate SourceAst RustRules ModelWord Tac ProofSrc ProofSrcUtf.
Import ListNotations.
Local Open Scope string_scope.
Local Open Scope N_scope.
Local Open Scope list_scope.

Ltac field_tac ::= lazy beta iota delta [is String.eqb Ascii.eqb Bool.eqb eqb encode_entry]; reflexivity.
Ltac bounds_tac ::= repeat match goal with H : context [if ?b then _ else _] |- _ => let E := fresh "E" in destruct b eqn:E end; try (exfalso; lia).

Lemma sjis_encode_loop max table : 65535 <= max -> const_is (source max) m_sjis ["ENCODE_TABLE"] (VArr (map encode_entry table)) ->
  for_sim max m_sjis sjis_encode (w_sjis_encode_body max table).
Proof.
  intros M T fuel d input st s c [F ->] H; destruct st as [itr i o buf]; unfold w_sjis_encode_body, w_sjis_eudc_bytes in H.
  read_loop.
  body_paths H.
Qed.

Lemma sjis_encode_ok max table fuel d input out res :
  65535 <= max -> const_is (source max) m_sjis ["ENCODE_TABLE"] (VArr (map encode_entry table)) ->
  enc_within max fuel (w_sjis_encode_body max table) input out -> (forall itr, char_indices input = Ret itr -> scalar_items itr) ->
  w_run_encoder max (w_sjis_encode_body max table) input out = Ret res ->
  returns (encode_value (fst res)) "out_buffer" (snd res) (call max (source max) fuel (40 + d) m_sjis sjis_encode [VStr input; VBytes out]).
Proof.
  intros M T. apply encoder_ok; [exact M | reflexivity | no_name | apply sjis_encode_loop; assumption].
Qed.
