(* The decoder of Big5 in the source does what ModelWord.v says. *)
From Coq Require Import List NArith Arith Bool String Lia.
From Verif Require Import Prelude RustCore Types RustSyntax RustEval RustProgram SourceCrate SourceAst RustRules ModelBig5 ModelWord Tac ProofSrc ProofSrcDec.
Import ListNotations.
Local Open Scope string_scope.
Local Open Scope N_scope.
Local Open Scope list_scope.

Ltac field_tac ::= lazy beta iota delta [is String.eqb Ascii.eqb Bool.eqb eqb encode_entry]; reflexivity.
Ltac bounds_tac ::= repeat match goal with H : context [if ?b then _ else _] |- _ => let E := fresh "E" in destruct b eqn:E end; try (exfalso; lia).

Lemma big5_decode_loop max table : 65535 <= max -> const_is (source max) m_big5 ["DECODE_TABLE"] (VArr (map VChar table)) ->
  while_sim max m_big5 big5_decode (w_big5_decode_body max table).
Proof.
  intros M T fuel d input is_end st s c (F & b & -> & B) H; destruct st as [itr i o buf].
  unfold w_big5_decode_body, big5_grapheme_literal, w_copy_string in H.
  read_loop.
  body_paths H.
Qed.

Lemma big5_decode_ok max table fuel d input is_end out res :
  65535 <= max -> const_is (source max) m_big5 ["DECODE_TABLE"] (VArr (map VChar table)) ->
  dec_within fuel (S (List.length input)) (w_big5_decode_body max table is_end) input out -> byte_items input ->
  run_decoder (w_big5_decode_body max table is_end) (S (List.length input)) input out = Ret res ->
  returns (decode_value (fst res)) "out_buffer" (snd res)
    (call max (source max) fuel (40 + d) m_big5 big5_decode [VBytes input; VBytes out; VBool is_end]).
Proof.
  intros M T. apply (decoder_ok max m_big5 big5_decode (w_big5_decode_body max table)); [exact M | reflexivity | no_name | no_name | apply big5_decode_loop; assumption].
Qed.
