(* The scripts of /repo/encoding_tables, read and run as Python programs (SourceScripts.v). *)
From Verif Require Import FileScripts PySyntax PyParse PyEval SourceScripts ProofPyWhatwg ProofPySingle.
From Coq Require Import String List NArith Arith Bool Lia.
From Verif Require Import Encodings Spec SpecFiles SpecPaths FileText Prelude RustCore ModelSingleByte ModelGen ModelScripts ModelTests ModelFiles.
From Verif Require Import PropGen PropTests PropScripts PropPaths.
Import ListNotations.
Local Open Scope N_scope.

(** * C68 *)

(* every script, on every state of the files, ends as its model, normally or with an exception, and leaves the same files *)
Theorem C68_single_byte : forall f, ends_as run_ascii_ext f (single_byte_main f).
Proof. exact ascii_ext_ends. Qed.
Theorem C68_big5 : forall f, ends_as run_big5 f (big5_main f).
Proof. exact big5_ends. Qed.
Theorem C68_shift_jis : forall f, ends_as run_shiftjis f (shiftjis_main f).
Proof. exact shiftjis_ends. Qed.

(* a script has one end *)
Theorem C68_one_end : forall script f r r', ends_as script f r -> ends_as script f r' ->
  match r, r' with
  | Done f1, Done f2 | Raised f1, Raised f2 => forall p, f1 p = f2 p
  | _, _ => False
  end.
Proof.
  intros script f r r' [n H] [n' H']. specialize (H (Nat.max n n') ltac:(lia)). specialize (H' (Nat.max n n') ltac:(lia)).
  destruct r, r'; destruct H as (w & E & D), H' as (w' & E' & D'); rewrite E in E'; try discriminate; injection E' as <-; intros p; rewrite <- D, <- D'; reflexivity.
Qed.

Lemma ends_same script f g g' : ends_as script f (Done g) -> (forall p, g p = g' p) -> ends_as script f (Done g').
Proof.
  intros [n H] E. exists n. intros fuel F. destruct (H fuel F) as (w & R & D). exists w. split; [exact R|]. intros p. rewrite D. apply E.
Qed.

(* given proper data files, the scripts write what the crate needs *)
Theorem C68_single_byte_regenerate : forall f pairs,
  (forall m, m <> ascii -> exists cs, f (mapping_path m) = Some (utf8 cs) /\ text cs /\ FileLines MappingLine cs (pairs m) /\ proper (pairs m) /\
    (forall b c, In (b, c) (pairs m) -> b < 256 /\ scalar c) /\ (forall i, i < 128 -> In (i, i) (pairs m))) ->
  exists f', ends_as run_ascii_ext f (Done f') /\
    (forall m p, single_byte_included m = Some p ->
      exists src dec enc, f' p = Some (utf8 src) /\ text src /\ Lexes src (single_byte_tokens dec enc) /\ single_byte_tables_of (pairs m) dec enc) /\
    (forall p, (forall m, single_byte_included m <> Some p) -> f' p = f p).
Proof.
  intros f pairs H. destruct (C62_single_byte_regenerate f pairs H) as (f' & E & R). exists f'. split; [rewrite <- E; apply C68_single_byte|].
  split; [exact R|]. exact (proj2 (C62_single_byte_run f f' E)).
Qed.
Theorem C68_big5_regenerate : forall f cs index, f big5_index_path = Some (utf8 cs) ->
  text cs -> FileLines IndexLine cs index -> proper index -> (forall p c, In (p, c) index -> p < 126 * 157 /\ scalar c) ->
  exists f', ends_as run_big5 f (Done f') /\
    (exists src dec enc, f' big5_included = Some (utf8 src) /\ text src /\ Lexes src (whatwg_tokens dec enc) /\
      decode_table_of index dec /\ encode_table_of (big5_choice index) big5_code enc) /\
    (exists dec_in dec_out, f' (big5_test_path decoding input) = Some dec_in /\ f' (big5_test_path decoding output) = Some dec_out /\
      TestFiles dec_in dec_out (big5_test_line (fun c p => In (p, c) index))) /\
    (exists enc_in enc_out, f' (big5_test_path encoding_ input) = Some enc_in /\ f' (big5_test_path encoding_ output) = Some enc_out /\
      TestFiles enc_in enc_out (fun t w => big5_test_line (big5_choice index) w t)) /\
    (forall p, p <> big5_included -> (forall d s, p <> big5_test_path d s) -> f' p = f p).
Proof.
  intros f cs index H1 H2 H3 H4 H5. destruct (C62_big5_regenerate f cs index H1 H2 H3 H4 H5) as (f' & E & A & B & C).
  exists f'. split; [rewrite <- E; apply C68_big5|]. split; [exact A|]. split; [exact B|]. split; [exact C|]. exact (proj2 (C62_big5_run f f' E)).
Qed.
Theorem C68_shift_jis_regenerate : forall f cs index, f jis0208_index_path = Some (utf8 cs) ->
  text cs -> FileLines IndexLine cs index -> proper index -> (forall p c, In (p, c) index -> p < 63 * 188 /\ scalar c) ->
  exists f', ends_as run_shiftjis f (Done f') /\
    (exists src dec enc, f' shiftjis_included = Some (utf8 src) /\ text src /\ Lexes src (whatwg_tokens dec enc) /\
      decode_table_of index dec /\ encode_table_of (sjis_choice index) sjis_code enc) /\
    (exists dec_in dec_out, f' (shiftjis_test_path decoding input) = Some dec_in /\ f' (shiftjis_test_path decoding output) = Some dec_out /\
      TestFiles dec_in dec_out (shiftjis_test_line (fun c p => In (p, c) index))) /\
    (exists enc_in enc_out, f' (shiftjis_test_path encoding_ input) = Some enc_in /\ f' (shiftjis_test_path encoding_ output) = Some enc_out /\
      TestFiles enc_in enc_out (fun t w => shiftjis_test_line (sjis_choice index) w t)) /\
    (forall p, p <> shiftjis_included -> (forall d s, p <> shiftjis_test_path d s) -> f' p = f p).
Proof.
  intros f cs index H1 H2 H3 H4 H5. destruct (C62_shift_jis_regenerate f cs index H1 H2 H3 H4 H5) as (f' & E & A & B & C).
  exists f'. split; [rewrite <- E; apply C68_shift_jis|]. split; [exact A|]. split; [exact B|]. split; [exact C|]. exact (proj2 (C62_shift_jis_run f f' E)).
Qed.

(* a mapping that is not an extension of ASCII is refused *)
Theorem C68_single_byte_not_ascii : forall f m cs pairs, m <> ascii ->
  f (mapping_path m) = Some (utf8 cs) -> text cs -> FileLines MappingLine cs pairs -> proper pairs ->
  (forall b c, In (b, c) pairs -> b < 256 /\ scalar c) -> (exists i, i < 128 /\ ~ In (i, i) pairs) ->
  exists f', ends_as run_ascii_ext f (Raised f').
Proof.
  intros f m cs pairs H1 H2 H3 H4 H5 H6 H7. destruct (C62_single_byte_not_ascii f m cs pairs H1 H2 H3 H4 H5 H6 H7) as [f' E].
  exists f'. rewrite <- E. apply C68_single_byte.
Qed.

(* on the files of the repository the scripts end normally and change nothing *)
Theorem C68_repository : forall f, Repository f ->
  ends_as run_ascii_ext f (Done f) /\ ends_as run_big5 f (Done f) /\ ends_as run_shiftjis f (Done f).
Proof.
  intros f R. destruct (C62_repository_scripts f R) as ((f1 & E1 & S1) & (f2 & E2 & S2) & (f3 & E3 & S3)).
  split; [|split]; eapply ends_same; [rewrite <- E1; apply C68_single_byte|exact S1|rewrite <- E2; apply C68_big5|exact S2|rewrite <- E3; apply C68_shift_jis|exact S3].
Qed.

(** ** Concrete cases *)

Local Open Scope string_scope.
(* an index with a comment, an empty line, a character with two pointers and numbers without 0x *)
Definition small_index : files := fun p =>
  if list_eq_dec string_dec p big5_index_path then Some (contents ["# x"; ""; "  94	0x4E00 y"; "3 0x5341"; "3 0x4e00"; "12 5341"; "200 0x1"; "50 20"]%line) else None.
Definition big5_files : list path := [big5_included; big5_test_path decoding input; big5_test_path decoding output; big5_test_path encoding_ input; big5_test_path encoding_ output].
(* interpreter and model, both run, write the same five files *)
Example C68_small_run :
  match run_big5 2500 small_index, big5_main small_index with
  | Val tt w, Done f' => map (disk w) big5_files = map f' big5_files /\ forallb (fun p => match f' p with Some (_ :: _) => true | _ => false end) big5_files = true
  | _, _ => False
  end.
Proof. vm_compute. split; reflexivity. Qed.
(* no data file: an exception, nothing written *)
Example C68_no_data : match run_big5 10 (fun _ => None) with Raise w => map (disk w) big5_files = [None; None; None; None; None] | _ => False end.
Proof. vm_compute. reflexivity. Qed.
(* a line that is no entry: an exception *)
Example C68_bad_line :
  match run_big5 30 (fun p => if list_eq_dec string_dec p big5_index_path then Some (contents ["94 0x4E00"; "95 zz"]%line) else None) with Raise _ => True | _ => False end.
Proof. vm_compute. exact I. Qed.
(* the single-byte script: a mapping without 0x01 leaves its output empty *)
Example C68_mapping_refused :
  match run_ascii_ext 200 (fun p => if list_eq_dec string_dec p (at_ single_byte_dir (fst (hd ("", "") single_byte_calls))) then Some (contents ["0x00 0x0000"; "0x80 0x20AC"]%line) else None) with
  | Raise w => disk w (at_ single_byte_dir (snd (hd ("", "") single_byte_calls))) = Some []
  | _ => False
  end.
Proof. vm_compute. reflexivity. Qed.
Example C68_repository_case : ends_as run_big5 the_repository (Done the_repository).
Proof. exact (proj1 (proj2 (C68_repository the_repository the_repository_ok))). Qed.

Definition python_theorems := (C68_single_byte, C68_big5, C68_shift_jis, C68_one_end, C68_single_byte_regenerate, C68_big5_regenerate, C68_shift_jis_regenerate,
  C68_single_byte_not_ascii, C68_repository).
Print Assumptions python_theorems.
