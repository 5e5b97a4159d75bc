(* C69: the repository's own tests, run from their source text. *)
From Coq Require Import List NArith Arith Bool String Lia.
From Coq Require Strings.Byte.
From Verif Require Import Prelude Encodings Types ModelApi FileTests TestData.
From Verif Require Import RustSyntax RustEval RustProgram RustLink SourceCrate SourceApi SourceWhatwg SourceTests.
From Verif Require Import ProofUtf8 ProofSrcTests ProofSrcTestsAll ProofSrcFiles ProofSrcUnitsRun.
From Verif Require ModelTests PropTests.
From Verif Require Import Spec.
Import ListNotations.
Local Open Scope string_scope.
Local Open Scope N_scope.
Local Open Scope list_scope.

(** * The unit tests in /repo/src *)

(* every function marked #[test] in a module of the crate returns, on a machine with any usize of at least 16 bits *)
Theorem C69_unit_tests_pass max fuel depth m name f : 65535 <= max -> (600 <= fuel)%nat -> (100 <= depth)%nat ->
  In (name, f) (tests_in crate m) -> passes max (text_encoding max) fuel depth m f.
Proof.
  intros M F D H. replace depth with (100 + (depth - 100))%nat by lia. exact (unit_tests_ok max fuel (depth - 100) m name f M F H).
Qed.
(* the tests that this is about *)
Definition test_names (m : path) : list string := map fst (tests_in crate m).
Definition test_modules : list path := map (fun m => [m; "tests"]) ["utf8"; "utf16_be"; "utf16_le"; "utf32_be"; "utf32_le"; "single_byte"; "big5_whatwg"; "shiftjis_whatwg"].
Section Names.
Variables d1 d2 : list N.
Variables e1 e2 : list (N * (N * N)).
Lemma names_in_module : map (fun m => map fst (tests_in (SourceAst.crate_with (whatwg_items d1 e1) (whatwg_items d2 e2)) m)) test_modules =
  map (fun m => map fst (tests_in (SourceAst.crate_with [] []) m)) test_modules.
Proof. vm_compute. reflexivity. Qed.
End Names.
Theorem C69_unit_test_names :
  map (fun m => List.length (test_names m)) test_modules = [20; 24; 24; 24; 24; 25; 25; 20]%nat /\
  In "decode_error_01" (test_names ["shiftjis_whatwg"; "tests"]) /\ In "encode_latin1_01" (test_names ["single_byte"; "tests"]) /\
  (forall m, test_names m <> [] -> In m test_modules).
Proof.
  unfold test_names. rewrite SourceAst.crate_ast_ok. unfold SourceAst.crate_ast.
  pose proof (names_in_module TabBig5.big5_decode_table TabSjis.sjis_decode_table TabBig5.big5_encode_table TabSjis.sjis_encode_table) as H.
  pose proof (tests_in_all (SourceAst.crate_with (whatwg_items TabBig5.big5_decode_table TabBig5.big5_encode_table) (whatwg_items TabSjis.sjis_decode_table TabSjis.sjis_encode_table))) as A.
  rewrite tests_list_ok in A. remember (SourceAst.crate_with (whatwg_items _ _) (whatwg_items _ _)) as mods eqn:E. clear E.
  split; [|split; [|split]].
  - rewrite <- (map_map (fun m => map fst (tests_in mods m)) (@List.length string)), H. vm_compute. reflexivity.
  - apply (f_equal (fun l => nth 7 l [])) in H. change (map fst (tests_in mods ["shiftjis_whatwg"; "tests"]) = map fst (tests_in (SourceAst.crate_with [] []) ["shiftjis_whatwg"; "tests"])) in H. rewrite H. vm_compute. tauto.
  - apply (f_equal (fun l => nth 5 l [])) in H. change (map fst (tests_in mods ["single_byte"; "tests"]) = map fst (tests_in (SourceAst.crate_with [] []) ["single_byte"; "tests"])) in H. rewrite H. vm_compute. tauto.
  - intros m Q. destruct (tests_in mods m) as [|[x f] l] eqn:E; [contradiction|]. specialize (A m x f). rewrite E in A. specialize (A (or_introl eq_refl)).
    apply (in_map fst) in A. cbn [fst] in A. clear - A. assert (B : incl (map fst tests_list) test_modules); [|exact (B _ A)].
    assert (F : forallb (fun m => existsb (path_eqb m) test_modules) (map fst tests_list) = true) by (vm_compute; reflexivity).
    intros m' H. rewrite forallb_forall in F. specialize (F _ H). apply existsb_exists in F. destruct F as (m'' & I & P). apply path_eqb_eq in P. subst. exact I.
Qed.

(** * The tests in /repo/tests/property_tests.rs *)

(* every property returns on every value that may be generated for it, of any length *)
Theorem C69_property_tests_hold max file fuel depth name x strategy body v : 65535 <= max ->
  In (IProp name x strategy body) (read tests_property_tests_rs) -> Generates strategy v ->
  4 * size v + 4 <= max -> (4 * N.to_nat (size v) < fuel)%nat -> (100 <= depth)%nat ->
  returns_on max (test_program max file (read tests_property_tests_rs)) fuel depth x body v.
Proof.
  intros M H G L F D. replace depth with (65 + (depth - 65))%nat by lia. exact (property_tests_ok max file fuel (depth - 65) name x strategy body v M H G L F).
Qed.
Definition property_names (items : list item) : list string := flat_map (fun i => match i with IProp x _ _ _ => [x] | _ => [] end) items.
Theorem C69_property_test_names : property_names (read tests_property_tests_rs) =
  ["pt_utf8_roundtrip"; "pt_utf8_decode_random_bytes"; "pt_utf8_encode_random_text";
   "pt_utf16be_roundtrip"; "pt_utf16be_decode_random_bytes"; "pt_utf16be_encode_random_text";
   "pt_utf16le_roundtrip"; "pt_utf16le_decode_random_bytes"; "pt_utf16le_encode_random_text";
   "pt_utf32be_roundtrip"; "pt_utf32be_decode_random_bytes"; "pt_utf32be_encode_random_text";
   "pt_utf32le_roundtrip"; "pt_utf32le_decode_random_bytes"; "pt_utf32le_encode_random_text";
   "pt_ascii_roundtrip"; "pt_ascii_decode_random_bytes"; "pt_ascii_encode_random_text";
   "pt_latin1_roundtrip"; "pt_latin1_decode_random_bytes"; "pt_latin1_encode_random_text";
   "pt_iso_8859_7_roundtrip"; "pt_iso_8859_7_decode_random_bytes"; "pt_iso_8859_7_encode_random_text";
   "pt_big5_whatwg_decode_random_bytes"; "pt_big5_whatwg_encode_random_text";
   "pt_shiftjis_whatwg_decode_random_bytes"; "pt_shiftjis_whatwg_encode_random_text"].
Proof. rewrite property_items_ok. reflexivity. Qed.
(* the strategies in the file generate something, whatever the text and bytes *)
Theorem C69_strategies name x strategy body : In (IProp name x strategy body) (read tests_property_tests_rs) ->
  (forall cs, text cs -> Generates strategy (VStr (utf8 cs))) \/
  (exists hi, (hi = 127 \/ hi = 255) /\ forall bs, Forall (fun b => b <= hi) bs -> Generates strategy (VBytes bs)).
Proof.
  rewrite property_items_ok. intros H. rewrite <- (firstn_skipn 5 property_items) in H. apply in_app_or in H. destruct H as [H|H].
  - pose proof other_items as O. rewrite Forall_forall in O. destruct (O _ H).
  - rewrite tests_ok in H. apply in_map_iff in H. destruct H as (t & E & H).
    assert (B : forall hi n, hi < 256 -> forall bs, Forall (fun b => b <= hi) bs -> Generates (gen_bytes hi n) (VBytes bs)).
    { intros hi n Hh bs Hb. apply generates_bytes; [exact Hh|]. eapply Forall_impl; [|exact Hb]. cbv beta. lia. }
    destruct t as [s e y a|s hi m y fs|s e l|s e l]; cbn [item_of] in E; injection E as <- <- <- <-.
    + left. intros cs T. apply generates_text, T.
    + right. exists hi. assert (hi = 127 \/ hi = 255) as Hh.
      { cbn [tests In] in H. decompose [or] H; try discriminate; try contradiction;
          match goal with E : SingleTest _ _ _ _ _ = _ |- _ => injection E; intros; subst; auto end. }
      split; [exact Hh|]. intros bs Hb. apply B; [lia|exact Hb].
    + left. intros cs T. apply generates_text, T.
    + right. exists 255. split; [auto|]. intros bs Hb. apply B; [lia|exact Hb].
Qed.

(** * The tests in /repo/tests/big5.rs and /repo/tests/shiftjis.rs *)

(* what they check, for any contents of the two files *)
Definition decodes_file (e : encoding) (encoded utf8_text : list N) : Prop :=
  exists n buf, decode_to_str e encoded (repeat 0 (List.length utf8_text)) true = Ret (Ok (utf8_text, n), buf).
Definition encodes_file (e : encoding) (utf8_text encoded : list N) : Prop :=
  exists cs n buf, text cs /\ utf8_text = utf8 cs /\ encode_from_str e utf8_text (repeat 0 (List.length encoded)) true = Ret (Ok (encoded, n), buf).

Lemma decode_test_iff e a b : ModelTests.decode_file_test (fun i o => decode_to_str e i o true) a b = Ret tt <-> decodes_file e a b.
Proof.
  unfold ModelTests.decode_file_test, decodes_file. change (ModelTests.zeros (List.length b)) with (repeat 0 (List.length b)).
  destruct (decode_to_str e a (repeat 0 (List.length b)) true) as [[[[s n]|er] buf]| | |]; cbn [bind fst snd]; try (split; [discriminate|intros (? & ? & [=])]).
  unfold ModelTests.assert_eq. destruct (list_eq_dec N.eq_dec b s) as [->|Q].
  - split; [intros _; eauto|reflexivity].
  - split; [discriminate|]. intros (? & ? & [= <- _ _]). congruence.
Qed.
Lemma encode_test_iff e a b : bytes a -> ModelTests.encode_file_test (fun i o => encode_from_str e i o true) a b = Ret tt <-> encodes_file e a b.
Proof.
  intros B. unfold ModelTests.encode_file_test, encodes_file, ModelTests.from_utf8_unwrap. change (ModelTests.zeros (List.length b)) with (repeat 0 (List.length b)).
  destruct (Nat.eqb_spec (RustCore.utf8_valid_up_to a) (List.length a)) as [V|V]; cbn [bind].
  - destruct (utf8_of_valid a B V) as (cs & T & Ea).
    destruct (encode_from_str e a (repeat 0 (List.length b)) true) as [[[[s n]|er] buf]| | |]; cbn [bind fst snd]; try (split; [discriminate|intros (? & ? & ? & _ & _ & [=])]).
    unfold ModelTests.assert_eq. destruct (list_eq_dec N.eq_dec b s) as [->|Q].
    + split; [intros _; eauto 8|reflexivity].
    + split; [discriminate|]. intros (? & ? & ? & _ & _ & [= <- _ _]). congruence.
  - split; [discriminate|]. intros (cs & ? & ? & T & -> & _). apply valid_up_to_text in T. congruence.
Qed.

Lemma returns_unit (o : outcome unit) : (exists r : env, (let* u := o in Ret (unit_value, [] : env)) = Ret (unit_value, r)) <-> o = Ret tt.
Proof.
  destruct o as [[]| | |]; cbn [bind]; split; try discriminate; try (intros (r & H); discriminate H); [reflexivity|]. intros _. exists []. reflexivity.
Qed.

(* a test passes exactly if the call gives what is in the other file; where the call stops is not checked *)
Theorem C69_file_tests max file fuel depth : 65535 <= max -> (100 <= depth)%nat ->
  (forall p, bytes (file p) /\ N.of_nat (List.length (file p)) + 4 <= max /\ (List.length (file p) < fuel)%nat) ->
  let ok items f := passes max (test_program max file items) fuel depth [] f in
  let data e := file ("test_data/whatwg/" ++ e)%string in
  (exists encode decode, tests_of (read tests_big5_rs) = [("big5_whatwg_encode", encode); ("big5_whatwg_decode", decode)] /\
    (ok (read tests_big5_rs) encode <-> encodes_file Big5WHATWG (data "big5_whatwg_test_encode_in.txt") (data "big5_whatwg_test_encode_out.txt")) /\
    (ok (read tests_big5_rs) decode <-> decodes_file Big5WHATWG (data "big5_whatwg_test_decode_in.txt") (data "big5_whatwg_test_decode_out.txt"))) /\
  (exists encode decode, tests_of (read tests_shiftjis_rs) = [("shiftjis_whatwg_encode", encode); ("shiftjis_whatwg_decode", decode)] /\
    (ok (read tests_shiftjis_rs) encode <-> encodes_file ShiftJISWHATWG (data "shiftjis_whatwg_test_encode_in.txt") (data "shiftjis_whatwg_test_encode_out.txt")) /\
    (ok (read tests_shiftjis_rs) decode <-> decodes_file ShiftJISWHATWG (data "shiftjis_whatwg_test_decode_in.txt") (data "shiftjis_whatwg_test_decode_out.txt"))).
Proof.
  intros M D F. replace depth with (63 + (depth - 63))%nat by lia. cbv zeta. rewrite big5_items_ok, shiftjis_items_ok.
  destruct (big5_runs max file fuel (depth - 63) M F) as [B1 B2]. destruct (shiftjis_runs max file fuel (depth - 63) M F) as [S1 S2].
  split; do 2 eexists; (split; [exact big5_tests || exact shiftjis_tests|]); unfold passes; rewrite ?B1, ?B2, ?S1, ?S2, !returns_unit; cbn [String.append]; split.
  - apply (encode_test_iff Big5WHATWG), F.
  - apply (decode_test_iff Big5WHATWG).
  - apply (encode_test_iff ShiftJISWHATWG), F.
  - apply (decode_test_iff ShiftJISWHATWG).
Qed.

(* they pass with the data that is checked in *)
Lemma octets_bytes l : bytes (octets l).
Proof. apply Forall_forall. intros b H. apply in_map_iff in H. destruct H as (y & <- & _). pose proof (Strings.Byte.to_N_bounded y). lia. Qed.
Lemma checked_in_short p : bytes (checked_in p) /\ N.of_nat (List.length (checked_in p)) < 100000.
Proof.
  unfold checked_in. repeat (match goal with |- context [if ?c then _ else _] => destruct c end; [split; [apply octets_bytes|unfold octets; rewrite map_length; vm_compute; reflexivity]|]).
  split; [constructor|reflexivity].
Qed.
Lemma in1 : checked_in "test_data/whatwg/big5_whatwg_test_decode_in.txt" = octets big5_decode_in. Proof. unfold checked_in. cbn [is String.eqb Ascii.eqb Bool.eqb]. reflexivity. Qed.
Lemma in2 : checked_in "test_data/whatwg/big5_whatwg_test_decode_out.txt" = octets big5_decode_out. Proof. unfold checked_in. cbn [is String.eqb Ascii.eqb Bool.eqb]. reflexivity. Qed.
Lemma in3 : checked_in "test_data/whatwg/big5_whatwg_test_encode_in.txt" = octets big5_encode_in. Proof. unfold checked_in. cbn [is String.eqb Ascii.eqb Bool.eqb]. reflexivity. Qed.
Lemma in4 : checked_in "test_data/whatwg/big5_whatwg_test_encode_out.txt" = octets big5_encode_out. Proof. unfold checked_in. cbn [is String.eqb Ascii.eqb Bool.eqb]. reflexivity. Qed.
Lemma in5 : checked_in "test_data/whatwg/shiftjis_whatwg_test_decode_in.txt" = octets shiftjis_decode_in. Proof. unfold checked_in. cbn [is String.eqb Ascii.eqb Bool.eqb]. reflexivity. Qed.
Lemma in6 : checked_in "test_data/whatwg/shiftjis_whatwg_test_decode_out.txt" = octets shiftjis_decode_out. Proof. unfold checked_in. cbn [is String.eqb Ascii.eqb Bool.eqb]. reflexivity. Qed.
Lemma in7 : checked_in "test_data/whatwg/shiftjis_whatwg_test_encode_in.txt" = octets shiftjis_encode_in. Proof. unfold checked_in. cbn [is String.eqb Ascii.eqb Bool.eqb]. reflexivity. Qed.
Lemma in8 : checked_in "test_data/whatwg/shiftjis_whatwg_test_encode_out.txt" = octets shiftjis_encode_out. Proof. unfold checked_in. cbn [is String.eqb Ascii.eqb Bool.eqb]. reflexivity. Qed.
Lemma pass_with max file fuel depth name f : 65535 <= max -> (100 <= depth)%nat ->
  (forall p, bytes (file p) /\ N.of_nat (List.length (file p)) + 4 <= max /\ (List.length (file p) < fuel)%nat) ->
  ModelTests.big5_whatwg_decode (file "test_data/whatwg/big5_whatwg_test_decode_in.txt") (file "test_data/whatwg/big5_whatwg_test_decode_out.txt") = Ret tt ->
  ModelTests.big5_whatwg_encode (file "test_data/whatwg/big5_whatwg_test_encode_in.txt") (file "test_data/whatwg/big5_whatwg_test_encode_out.txt") = Ret tt ->
  ModelTests.shiftjis_whatwg_decode (file "test_data/whatwg/shiftjis_whatwg_test_decode_in.txt") (file "test_data/whatwg/shiftjis_whatwg_test_decode_out.txt") = Ret tt ->
  ModelTests.shiftjis_whatwg_encode (file "test_data/whatwg/shiftjis_whatwg_test_encode_in.txt") (file "test_data/whatwg/shiftjis_whatwg_test_encode_out.txt") = Ret tt ->
  (In (name, f) (tests_of (read tests_big5_rs)) -> passes max (test_program max file (read tests_big5_rs)) fuel depth [] f) /\
  (In (name, f) (tests_of (read tests_shiftjis_rs)) -> passes max (test_program max file (read tests_shiftjis_rs)) fuel depth [] f).
Proof.
  intros M D L P1 P2 P3 P4. destruct (C69_file_tests max file fuel depth M D L) as [(e1 & d1 & T1 & E1 & D1) (e2 & d2 & T2 & E2 & D2)].
  apply (encode_test_iff Big5WHATWG _ _ (proj1 (L _))) in P2. apply (encode_test_iff ShiftJISWHATWG _ _ (proj1 (L _))) in P4.
  apply (decode_test_iff Big5WHATWG) in P1. apply (decode_test_iff ShiftJISWHATWG) in P3.
  rewrite T1, T2. split; intros [[= _ <-]|[[= _ <-]|[]]]; [exact (proj2 E1 P2)|exact (proj2 D1 P1)|exact (proj2 E2 P4)|exact (proj2 D2 P3)].
Qed.
Theorem C69_file_tests_pass max fuel depth name f : 2 ^ 32 - 1 <= max -> (100 <= depth)%nat -> 100000 <= N.of_nat fuel ->
  (In (name, f) (tests_of (read tests_big5_rs)) -> passes max (test_program max checked_in (read tests_big5_rs)) fuel depth [] f) /\
  (In (name, f) (tests_of (read tests_shiftjis_rs)) -> passes max (test_program max checked_in (read tests_shiftjis_rs)) fuel depth [] f).
Proof.
  intros M D F. change (2 ^ 32 - 1) with 4294967295 in M.
  destruct PropTests.C53_tests_pass_on_checked_in_data as (P1 & P2 & P3 & P4).
  apply pass_with; [lia|exact D| | | | |].
  - intros p. destruct (checked_in_short p) as [B L]. repeat split; [exact B|lia|lia].
  - rewrite in1, in2. exact P1.
  - rewrite in3, in4. exact P2.
  - rewrite in5, in6. exact P3.
  - rewrite in7, in8. exact P4.
Qed.

(** * Examples *)

(* the tests fail on other data: here the expected text is too long *)
Example decode_test_fails : ~ decodes_file Big5WHATWG [65; 66] [65; 66; 67].
Proof. intros (n & buf & H). vm_compute in H. discriminate H. Qed.
Example decode_test_fails_on_other_text : ~ decodes_file ShiftJISWHATWG [65; 66] [65; 67].
Proof. intros (n & buf & H). vm_compute in H. discriminate H. Qed.
Example encode_test_fails_on_invalid_utf8 : ~ encodes_file Big5WHATWG [255] [65].
Proof. intros (cs & n & buf & T & E & H). vm_compute in H. discriminate H. Qed.
(* but the number of bytes that were consumed is not looked at: an expected text that stops early is accepted *)
Theorem C69_file_tests_accept_truncated_files :
  (exists encoded utf8_text, encoded <> [] /\ utf8_text = [] /\ decodes_file Big5WHATWG encoded utf8_text /\ decodes_file ShiftJISWHATWG encoded utf8_text) /\
  (exists utf8_text encoded, utf8_text <> [] /\ encoded = [] /\ encodes_file Big5WHATWG utf8_text encoded /\ encodes_file ShiftJISWHATWG utf8_text encoded).
Proof.
  split.
  - exists [65], []. repeat split; [discriminate| |]; do 2 eexists; vm_compute; reflexivity.
  - exists [65], []. repeat split; [discriminate| |]; exists [65]; do 2 eexists; (split; [constructor; [vm_compute; auto|constructor]|split; vm_compute; reflexivity]).
Qed.
(* a test as it stands in the file, with a text that it is run on *)
Example one_property : exists strategy body, In (IProp "pt_utf16be_roundtrip" "text" strategy body) (read tests_property_tests_rs) /\ Generates strategy (VStr (utf8 [65; 0x1F600])).
Proof.
  rewrite property_items_ok. eexists _, _. split.
  - rewrite <- (firstn_skipn 5 property_items). apply in_or_app. right. rewrite tests_ok. vm_compute. right. right. right. left. reflexivity.
  - apply generates_text. repeat constructor; unfold scalar; lia.
Qed.

Definition own_test_theorems := (C69_unit_tests_pass, C69_unit_test_names, C69_property_tests_hold, C69_property_test_names, C69_strategies, C69_file_tests, C69_file_tests_pass, C69_file_tests_accept_truncated_files).
Print Assumptions own_test_theorems.
