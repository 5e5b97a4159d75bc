(* The tests in /repo/tests/property_tests.rs return on every value that they may be run on. *)
From Coq Require Import List NArith Arith Bool String Lia.
From Verif Require Import Prelude RustCore Encodings Types TabBig5 TabSjis ModelApi ModelWord FileTests.
From Verif Require Import RustSyntax RustEval RustProgram RustLink SourceCrate SourceWhatwg SourceAst SourceApi SourceTests RustRules Tac.
From Verif Require Import ProofUtf8 SpecErrors Units Decide Greedy NextDec ProofSession ProofMore ProofApi ProofWord ProofSrc ProofSrcAll ProofSrcLink ProofSrcTests ProofSrcTestsRun.
From Verif Require ProofTests ProofRound PropRound.
From Verif Require Import Spec.
Import ListNotations.
Local Open Scope string_scope.
Local Open Scope N_scope.
Local Open Scope list_scope.

Lemma property_names max file e : find_fn (test_program max file property_items) [] (enc_name e) = Some ("text_encoding" :: module_of e, encode_fn e) /\
  find_fn (test_program max file property_items) [] (dec_name e) = Some ("text_encoding" :: module_of e, decode_fn e) /\
  find_fn (test_program max file property_items) [] ["Vec"; "new"] = None /\ find_fn (test_program max file property_items) [] ["String"; "new"] = None.
Proof.
  unfold test_program. cbn [find_fn]. rewrite source_ok.
  split; [exact (test_encode_names big5_decode_table big5_encode_table sjis_decode_table sjis_encode_table max e)|].
  split; [exact (test_decode_names big5_decode_table big5_encode_table sjis_decode_table sjis_encode_table max e)|].
  exact (test_no_names big5_decode_table big5_encode_table sjis_decode_table sjis_encode_table max).
Qed.

Section All.
Variables (max : N) (file : string -> list N) (fuel d : nat).
Hypothesis M : 65535 <= max.
Let prog := test_program max file property_items.
Let U : uses_crate max prog := test_uses_crate max file property_items.
Let enc_names e := proj1 (property_names max file e).
Let dec_names e := proj1 (proj2 (property_names max file e)).
Let no_vec := proj1 (proj2 (proj2 (property_names max file Utf8))).
Let no_string := proj2 (proj2 (proj2 (property_names max file Utf8))).

Lemma text_inv v : Generates regex v -> exists cs, v = VStr (utf8 cs) /\ text cs.
Proof. intros G. inversion G; subst. eauto. Qed.
Lemma unicode_test_ok e x asserts v : is_utf e -> good_name x ->
  (forall cs all, text cs -> Encoded e cs all -> Forall (assert_ok max prog fuel cs all x) asserts) ->
  Generates regex v -> 4 * size v + 4 <= max -> (4 * N.to_nat (size v) < fuel)%nat ->
  returns_on max prog fuel (65 + d) "text" (unicode_body e x asserts) v.
Proof.
  intros He X A G L F. destruct (text_inv _ G) as (cs & -> & T). cbn [size] in *. rewrite Nat2N.id in F.
  destruct (utf_encodes e cs He T) as [all HE].
  eapply (unicode_ok max prog fuel d M U enc_names dec_names no_vec no_string); eauto.
  apply ProofRound.Encoded_Decoded; [apply ProofRound.utf_not_sjis, He|exact HE].
Qed.
Lemma enc_test_ok e ends v : Generates regex v -> 4 * size v + 4 <= max -> (4 * N.to_nat (size v) < fuel)%nat ->
  returns_on max prog fuel (65 + d) "text" (random_enc e ends) v.
Proof.
  intros G L F. destruct (text_inv _ G) as (cs & -> & T). cbn [size] in *. rewrite Nat2N.id in F.
  eapply (random_enc_ok max prog fuel d M U enc_names); eauto.
Qed.
Lemma gen_inv hi n v : Generates (gen_bytes hi n) v -> exists bs, v = VBytes bs /\ hi < 256 /\ Forall (fun b => b <= hi) bs /\ bytes bs.
Proof.
  intros G. inversion G; subst. exists bs. split; [reflexivity|]. split; [assumption|].
  split; (eapply Forall_impl; [|eassumption]); cbv beta; lia.
Qed.
Lemma dec_test_ok e ends v : Generates (gen_bytes 255 512) v -> 4 * size v + 4 <= max -> (4 * N.to_nat (size v) < fuel)%nat ->
  returns_on max prog fuel (65 + d) "data" (random_dec e ends) v.
Proof.
  intros G L F. destruct (gen_inv _ _ _ G) as (bs & -> & _ & _ & B). cbn [size] in *. rewrite Nat2N.id in F.
  eapply (random_dec_ok max prog fuel d M U enc_names dec_names); eauto.
Qed.
Lemma single_test_ok m x first data data' : good_name x ->
  (forall buf ss y,
     statements max (eval max prog fuel (64 + d) []) None ss [(x, VBytes []); ("utf8", VStr []); ("buf", VBytes buf); ("data", VBytes data')] = y ->
     statements max (eval max prog fuel (64 + d) []) None (first ++ ss) [(x, VBytes []); ("utf8", VStr []); ("buf", VBytes buf); ("data", VBytes data)] = y) ->
  Forall (ProofTests.defined m) data' -> List.length data' = List.length data ->
  4 * size (VBytes data) + 4 <= max -> (4 * N.to_nat (size (VBytes data)) < fuel)%nat ->
  returns_on max prog fuel (65 + d) "data" (single_body m x first) (VBytes data).
Proof.
  intros X H Dd El L F. cbn [size] in *. rewrite Nat2N.id in F. rewrite <- El in *.
  eapply (single_ok max prog fuel d M U enc_names dec_names no_vec no_string); eauto.
Qed.

Lemma utf8_asserts cs all : text cs -> Encoded Utf8 cs all ->
  Forall (assert_ok max prog fuel cs all "utf8_encoded") [same_bytes "text" "utf8_encoded"; same_bytes "utf8" "utf8_encoded"].
Proof.
  intros T HE.
  assert (all = utf8 cs) as ->.
  { clear - HE. induction HE as [|u w cs all Hu _ _ IH]; [reflexivity|]. rewrite utf8_app, IH. f_equal. destruct Hu as (c & _ & -> & ->). cbn. rewrite app_nil_r. reflexivity. }
  repeat constructor; intros d' buf; eexists; (split; [reflexivity|]); intros r ->;
    (eapply (assert_ev max prog fuel (3 + d')); [eauto|apply as_bytes_ev; reflexivity|apply all_bytes_ev; reflexivity]).
Qed.

Definition test_holds (t : test) : Prop :=
  match item_of t with
  | IProp _ x g body => forall v, Generates g v -> 4 * size v + 4 <= max -> (4 * N.to_nat (size v) < fuel)%nat -> returns_on max prog fuel (65 + d) x body v
  | _ => False
  end.
Lemma enc_holds s e ends : test_holds (EncodeTest s e ends).
Proof. unfold test_holds. cbn [item_of]. intros v. apply enc_test_ok. Qed.
Lemma dec_holds s e ends : test_holds (DecodeTest s e ends).
Proof. unfold test_holds. cbn [item_of]. intros v. apply dec_test_ok. Qed.
Lemma unicode_holds s e x : is_utf e -> good_name x -> test_holds (UnicodeTest s e x []).
Proof. intros He X. unfold test_holds. cbn [item_of]. intros v. apply unicode_test_ok; [exact He|exact X|]. intros. constructor. Qed.
Lemma utf8_holds s : test_holds (UnicodeTest s Utf8 "utf8_encoded" [same_bytes "text" "utf8_encoded"; same_bytes "utf8" "utf8_encoded"]).
Proof. unfold test_holds. cbn [item_of]. intros v. apply unicode_test_ok; [exact I|left; reflexivity|exact utf8_asserts]. Qed.
Lemma single_holds s hi m x : good_name x -> (forall b, b <= hi -> b < 256 -> ProofTests.defined m b) -> test_holds (SingleTest s hi m x []).
Proof.
  intros X D. unfold test_holds. cbn [item_of]. intros v G L F. destruct (gen_inv _ _ _ G) as (bs & -> & _ & B1 & B).
  apply (single_test_ok m x [] bs bs X); [auto| |reflexivity|exact L|exact F].
  apply Forall_forall. intros b Hb. apply D; [exact (proj1 (Forall_forall _ _) B1 b Hb)|exact (proj1 (Forall_forall _ _) B b Hb)].
Qed.
Lemma greek_holds s : test_holds (SingleTest s 255 iso_8859_7 "iso8859_7" [replace_loop]).
Proof.
  assert (U3 : ProofTests.undefined_bytes iso_8859_7 = [0xAE; 0xD2; 0xFF]) by (vm_compute; reflexivity).
  unfold test_holds. cbn [item_of]. intros v G L F. destruct (gen_inv _ _ _ G) as (bs & -> & _ & B1 & B).
  apply (single_test_ok iso_8859_7 "iso8859_7" [replace_loop] bs (map (fun b => if replaced b then 0 else b) bs)).
  - cbn; auto 8.
  - intros buf ss y Hy. cbn [app]. apply (replace_ev max prog fuel (54 + d)); [cbn [size] in F; lia|exact B|cbn; auto 8|exact Hy].
  - apply Forall_map. eapply Forall_impl; [|exact B]. intros b Hb. cbv beta in Hb |- *. unfold replaced. apply ProofTests.undefined_bytes_ok; rewrite ?U3.
    + destruct ((b =? 0xAE) || (b =? 0xD2) || (b =? 0xFF)); lia.
    + cbn [In]. destruct ((b =? 0xAE) || (b =? 0xD2) || (b =? 0xFF)) eqn:E; lia.
  - apply map_length.
  - exact L.
  - exact F.
Qed.
Lemma tests_hold : Forall test_holds tests.
Proof.
  assert (U1 : ProofTests.undefined_bytes ascii = map N.of_nat (seq 128 128)) by (vm_compute; reflexivity).
  assert (U2 : ProofTests.undefined_bytes iso_8859_1 = []) by (vm_compute; reflexivity).
  unfold tests.
  repeat (apply Forall_cons;
    [lazymatch goal with
     | |- test_holds (EncodeTest ?s ?e ?l) => exact (enc_holds s e l)
     | |- test_holds (DecodeTest ?s ?e ?l) => exact (dec_holds s e l)
     | |- test_holds (UnicodeTest ?s ?e ?x []) => apply (unicode_holds s e x); [exact I|cbn; auto 8]
     | |- test_holds (UnicodeTest ?s _ _ _) => exact (utf8_holds s)
     | |- test_holds (SingleTest ?s _ _ _ (_ :: _)) => exact (greek_holds s)
     | _ => idtac
     end|]); [| |apply Forall_nil].
  - apply (single_holds _ _ ascii); [cbn; auto 8|]. intros b Hb _. apply ProofTests.undefined_bytes_ok; [lia|]. rewrite U1. intros Hin.
    apply in_map_iff in Hin. destruct Hin as (k & <- & Hk). apply in_seq in Hk. lia.
  - apply (single_holds _ _ iso_8859_1); [cbn; auto 8|]. intros b Hb _. apply ProofTests.undefined_bytes_ok; [lia|]. rewrite U2. intros [].
Qed.
End All.

Theorem property_tests_ok max file fuel d name x g body v : 65535 <= max ->
  In (IProp name x g body) (read tests_property_tests_rs) -> Generates g v -> 4 * size v + 4 <= max -> (4 * N.to_nat (size v) < fuel)%nat ->
  returns_on max (test_program max file (read tests_property_tests_rs)) fuel (65 + d) x body v.
Proof.
  rewrite property_items_ok. intros M H G L F. rewrite <- (firstn_skipn 5 property_items) in H. apply in_app_or in H. destruct H as [H|H].
  - pose proof other_items as O. rewrite Forall_forall in O. destruct (O _ H).
  - rewrite tests_ok in H. apply in_map_iff in H. destruct H as (t & E & H). pose proof (tests_hold max file fuel d M) as A. rewrite Forall_forall in A.
    specialize (A t H). unfold test_holds in A. rewrite E in A. auto.
Qed.
