(* C52, C53: the crate's own tests, on all inputs. *)
From Coq Require Import List NArith Arith Bool Lia Init.Byte.
From Verif Require Import Encodings Spec RefBig5 RefSjis TestData Prelude RustCore Types ModelSingleByte ModelGen ModelTests.
From Verif Require Import FileText.
From Verif Require Import Tac Search Tables ProofGen PropGen PropRound ProofTests.
Import ListNotations.

(** * C52: the property tests pass for every input, of any length *)

Theorem C52_unicode_roundtrip_tests : forall cs, text cs ->
  pt_utf8_roundtrip (utf8 cs) = Ret tt /\
  pt_utf16be_roundtrip (utf8 cs) = Ret tt /\ pt_utf16le_roundtrip (utf8 cs) = Ret tt /\
  pt_utf32be_roundtrip (utf8 cs) = Ret tt /\ pt_utf32le_roundtrip (utf8 cs) = Ret tt.
Proof.
  intros cs Ht. split; [apply utf8_roundtrip_ok, Ht|].
  split; [|split; [|split]];
    [apply (unicode_roundtrip_ok Utf16BE)|apply (unicode_roundtrip_ok Utf16LE)|apply (unicode_roundtrip_ok Utf32BE)|apply (unicode_roundtrip_ok Utf32LE)];
    solve [exact I|exact Ht|reflexivity].
Qed.

(* the test of one encoding "is representative of all single-byte encodings": it is, on bytes that have a meaning *)
Theorem C52_single_byte_roundtrip_test : forall m data,
  Forall (fun b => exists c, In (b, c) (charset m)) data -> single_byte_roundtrip m data = Ret tt.
Proof. exact single_byte_roundtrip_ok. Qed.

Theorem C52_single_byte_roundtrip_tests :
  (forall data, Forall (fun b => b < 128)%N data -> pt_ascii_roundtrip data = Ret tt) /\
  (forall data, bytes data -> pt_latin1_roundtrip data = Ret tt) /\
  (forall data, bytes data -> pt_iso_8859_7_roundtrip data = Ret tt).
Proof.
  assert (U1 : undefined_bytes ascii = map N.of_nat (seq 128 128)) by (vm_compute; reflexivity).
  assert (U2 : undefined_bytes iso_8859_1 = []) by (vm_compute; reflexivity).
  assert (U3 : undefined_bytes iso_8859_7 = [0xAE; 0xD2; 0xFF]%N) by (vm_compute; reflexivity).
  split; [|split]; intros data H; apply single_byte_roundtrip_ok.
  - eapply Forall_impl; [|exact H]. intros b Hb. cbv beta in Hb. apply undefined_bytes_ok; [lia|]. rewrite U1. intros Hin.
    apply in_map_iff in Hin. destruct Hin as (k & <- & Hk). apply in_seq in Hk. lia.
  - eapply Forall_impl; [|exact H]. intros b Hb. cbv beta in Hb. apply undefined_bytes_ok; [lia|]. rewrite U2. intros [].
  - apply Forall_map. eapply Forall_impl; [|exact H]. intros b Hb. cbv beta in Hb |- *. apply undefined_bytes_ok; rewrite ?U3.
    + destruct ((b =? 0xAE) || (b =? 0xD2) || (b =? 0xFF))%N; lia.
    + cbn [In]. destruct ((b =? 0xAE) || (b =? 0xD2) || (b =? 0xFF))%N eqn:E; lia.
Qed.

(* on a byte without a meaning the round-trip test would fail, so the replacement in the test of iso-8859-7 is needed *)
Example undefined_byte_fails : single_byte_roundtrip iso_8859_7 [0x41; 0xAE]%N = Panic.
Proof. vm_compute. reflexivity. Qed.

Theorem C52_decode_random_bytes_tests : forall data, bytes data ->
  pt_utf8_decode_random_bytes data = Ret tt /\
  pt_utf16be_decode_random_bytes data = Ret tt /\ pt_utf16le_decode_random_bytes data = Ret tt /\
  pt_utf32be_decode_random_bytes data = Ret tt /\ pt_utf32le_decode_random_bytes data = Ret tt /\
  pt_big5_whatwg_decode_random_bytes data = Ret tt /\ pt_shiftjis_whatwg_decode_random_bytes data = Ret tt /\
  pt_ascii_decode_random_bytes data = Ret tt /\ pt_latin1_decode_random_bytes data = Ret tt /\
  pt_iso_8859_7_decode_random_bytes data = Ret tt.
Proof.
  intros data H.
  split; [apply (decode_random_ok Utf8); [reflexivity|exact H]|].
  split; [apply (decode_random_ok Utf16BE); [reflexivity|exact H]|].
  split; [apply (decode_random_ok Utf16LE); [reflexivity|exact H]|].
  split; [apply (decode_random_ok Utf32BE); [reflexivity|exact H]|].
  split; [apply (decode_random_ok Utf32LE); [reflexivity|exact H]|].
  split; [apply (decode_random_ok Big5WHATWG); [reflexivity|exact H]|].
  split; [apply (decode_random_ok ShiftJISWHATWG); [reflexivity|exact H]|].
  split; [|split]; apply sb_decode_random_ok, H.
Qed.

Theorem C52_encode_random_text_tests : forall cs, text cs ->
  pt_utf8_encode_random_text (utf8 cs) = Ret tt /\
  pt_utf16be_encode_random_text (utf8 cs) = Ret tt /\ pt_utf16le_encode_random_text (utf8 cs) = Ret tt /\
  pt_utf32be_encode_random_text (utf8 cs) = Ret tt /\ pt_utf32le_encode_random_text (utf8 cs) = Ret tt /\
  pt_big5_whatwg_encode_random_text (utf8 cs) = Ret tt /\ pt_shiftjis_whatwg_encode_random_text (utf8 cs) = Ret tt /\
  pt_ascii_encode_random_text (utf8 cs) = Ret tt /\ pt_latin1_encode_random_text (utf8 cs) = Ret tt /\
  pt_iso_8859_7_encode_random_text (utf8 cs) = Ret tt.
Proof.
  intros cs H.
  split; [apply (encode_random_ok Utf8); [reflexivity|exact H]|].
  split; [apply (encode_random_ok Utf16BE); [reflexivity|exact H]|].
  split; [apply (encode_random_ok Utf16LE); [reflexivity|exact H]|].
  split; [apply (encode_random_ok Utf32BE); [reflexivity|exact H]|].
  split; [apply (encode_random_ok Utf32LE); [reflexivity|exact H]|].
  split; [apply big5_encode_random_ok, H|].
  split; [apply (encode_random_ok ShiftJISWHATWG); [reflexivity|exact H]|].
  split; [|split]; [apply (encode_random_ok (Single ascii))|apply (encode_random_ok (Single iso_8859_1))|apply (encode_random_ok (Single iso_8859_7))];
    solve [reflexivity|exact H].
Qed.

(* inputs that take several calls: 40 characters of two to four bytes, and all 256 bytes *)
Example roundtrip_example : pt_utf16le_roundtrip (utf8 (repeat 0x1F600 20 ++ repeat 0xE9 20)%N) = Ret tt.
Proof. vm_compute. reflexivity. Qed.
Example latin1_example : pt_latin1_roundtrip (map N.of_nat (seq 0 256)) = Ret tt.
Proof. vm_compute. reflexivity. Qed.
(* the test notices a decoder that loses data *)
Example test_can_fail :
  unicode_roundtrip ModelUtf16Be.utf16_be_encode_from_str ModelUtf16Le.utf16_le_decode_to_str (utf8 [0x41; 0x100]%N) = Panic.
Proof. vm_compute. reflexivity. Qed.

(* /repo/examples/wrapper.rs runs to its end *)
Theorem C52_wrapper_example : wrapper_main = Ret tt.
Proof. vm_compute. reflexivity. Qed.

(* the examples in the documentation: all of an ASCII text of up to 100 bytes, unchanged *)
Theorem C52_doc_examples : forall cs, Forall (fun c => (c < 0x80)%N) cs -> length cs <= 100 ->
  doc_encode cs = Ret cs /\ doc_decode cs = Ret cs.
Proof.
  intros cs H Hl. assert (Hz : length cs <= length (zeros 100)) by (unfold zeros; rewrite repeat_length; exact Hl).
  destruct (C27_ascii_transparent (Single ascii) true cs (zeros 100) I H Hz) as [[b E] [b' E']].
  cbn [ModelApi.encode_from_str ModelApi.decode_to_str] in E, E'. unfold doc_encode, doc_decode. rewrite E, E'. split; reflexivity.
Qed.

Example doc_texts :
  doc_encode (str "Hi, I'm some string.") = Ret (str "Hi, I'm some string.") /\
  doc_decode (str "Some bytes of text data.") = Ret (str "Some bytes of text data.").
Proof. vm_compute. split; reflexivity. Qed.

(** * C53: the tests against test data *)

Definition octets (l : list byte) : list N := map Byte.to_N l.

(* the checked-in files are what the scripts write *)
Theorem C53_test_data_generated :
  generate_big5_test_data big5_index = (octets big5_decode_in, octets big5_decode_out, (octets big5_encode_in, octets big5_encode_out)) /\
  generate_shiftjis_test_data jis0208_index =
    (octets shiftjis_decode_in, octets shiftjis_decode_out, (octets shiftjis_encode_in, octets shiftjis_encode_out)).
Proof.
  assert (E1 : (let '(a, b, (c, d)) := generate_big5_test_data big5_index in
    list_eqb a (octets big5_decode_in) && list_eqb b (octets big5_decode_out) &&
    list_eqb c (octets big5_encode_in) && list_eqb d (octets big5_encode_out)) = true) by (vm_compute; reflexivity).
  assert (E2 : (let '(a, b, (c, d)) := generate_shiftjis_test_data jis0208_index in
    list_eqb a (octets shiftjis_decode_in) && list_eqb b (octets shiftjis_decode_out) &&
    list_eqb c (octets shiftjis_encode_in) && list_eqb d (octets shiftjis_encode_out)) = true) by (vm_compute; reflexivity).
  split.
  - destruct (generate_big5_test_data big5_index) as [[a b] [c d]]. apply andb_prop in E1. destruct E1 as [E1 Hd].
    apply andb_prop in E1. destruct E1 as [E1 Hc]. apply andb_prop in E1. destruct E1 as [Ha Hb].
    apply list_eqb_ok in Ha, Hb, Hc, Hd. rewrite Ha, Hb, Hc, Hd. reflexivity.
  - destruct (generate_shiftjis_test_data jis0208_index) as [[a b] [c d]]. apply andb_prop in E2. destruct E2 as [E2 Hd].
    apply andb_prop in E2. destruct E2 as [E2 Hc]. apply andb_prop in E2. destruct E2 as [Ha Hb].
    apply list_eqb_ok in Ha, Hb, Hc, Hd. rewrite Ha, Hb, Hc, Hd. reflexivity.
Qed.

Lemma big5_proper : proper big5_index.
Proof. apply increasing_NoDup. apply increasingb_ok. vm_compute. reflexivity. Qed.
Lemma jis0208_proper : proper jis0208_index.
Proof. apply increasing_NoDup. apply increasingb_ok. vm_compute. reflexivity. Qed.

(* on what the scripts write, the tests pass ... *)
Theorem C53_tests_pass_on_generated_data :
  (let '(dec_in, dec_out, (enc_in, enc_out)) := generate_big5_test_data big5_index in
   big5_whatwg_decode dec_in dec_out = Ret tt /\ big5_whatwg_encode enc_in enc_out = Ret tt) /\
  (let '(dec_in, dec_out, (enc_in, enc_out)) := generate_shiftjis_test_data jis0208_index in
   shiftjis_whatwg_decode dec_in dec_out = Ret tt /\ shiftjis_whatwg_encode enc_in enc_out = Ret tt).
Proof.
  unfold generate_big5_test_data, generate_shiftjis_test_data. cbv zeta.
  destruct (sort_index big5_index big5_proper) as [Hi Hin]. destruct (sort_index jis0208_index jis0208_proper) as [Hi' Hin'].
  set (t := sort pair_leb big5_index) in *. set (t' := sort pair_leb jis0208_index) in *. clearbody t t'.
  split; split.
  - apply (decode_file_test_ok Big5WHATWG); [reflexivity|auto|]. apply big5_decode_lines. intros p c Hp. apply Hin, Hp.
  - apply (encode_file_test_ok Big5WHATWG); [reflexivity|auto|]. apply big5_encode_lines. intros p c Hp.
    apply (big5_deduped_ok t Hi) in Hp. destruct Hp as [Hp Hq]. split; [apply Hin, Hp|]. intros q Hq'. apply Hin in Hq'.
    change keep_last with big5_last in Hq. destruct (in_dec N.eq_dec c big5_last); apply Hq, Hq'.
  - apply (decode_file_test_ok ShiftJISWHATWG); [reflexivity|auto|]. apply sjis_decode_lines. intros p c Hp. apply Hin', Hp.
  - apply (encode_file_test_ok ShiftJISWHATWG); [reflexivity|auto|]. apply sjis_encode_lines. intros p c Hp.
    apply (sjis_deduped_ok t' Hi') in Hp. destruct Hp as (Hp & He & Hq). split; [apply Hin', Hp|]. split; [exact He|].
    intros q Hq' He'. apply Hq; [apply Hin', Hq'|exact He'].
Qed.

(* ... and so they pass on the checked-in files *)
Theorem C53_tests_pass_on_checked_in_data :
  big5_whatwg_decode (octets big5_decode_in) (octets big5_decode_out) = Ret tt /\
  big5_whatwg_encode (octets big5_encode_in) (octets big5_encode_out) = Ret tt /\
  shiftjis_whatwg_decode (octets shiftjis_decode_in) (octets shiftjis_decode_out) = Ret tt /\
  shiftjis_whatwg_encode (octets shiftjis_encode_in) (octets shiftjis_encode_out) = Ret tt.
Proof.
  destruct C53_tests_pass_on_generated_data as [B J]. destruct C53_test_data_generated as [EB EJ]. rewrite EB in B. rewrite EJ in J.
  destruct B as [B1 B2], J as [J1 J2]. auto.
Qed.

Definition test_theorems := (C52_unicode_roundtrip_tests, C52_single_byte_roundtrip_test, C52_single_byte_roundtrip_tests,
  C52_decode_random_bytes_tests, C52_encode_random_text_tests, C52_wrapper_example, C52_doc_examples,
  C53_test_data_generated, C53_tests_pass_on_generated_data, C53_tests_pass_on_checked_in_data).
Print Assumptions test_theorems.
