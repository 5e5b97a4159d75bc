(* C62: the scripts run as a whole; the tables and the test data arrive where the crate and its tests look for them. *)
From Coq Require Import String List NArith Arith Bool Lia.
From Verif Require Import Encodings Spec SpecFiles SpecPaths RefSingle RefBig5 RefSjis TabSingle TabBig5 TabSjis FileText FileBig5 FileSjis FileSingle TestData.
From Verif Require Import Prelude RustCore ModelSingleByte ModelGen ModelScripts ModelTests ModelFiles PropEndian.
From Verif Require Import Tac Search Tables ProofUtf8 ProofGen ProofTests ProofScripts ProofFiles ProofPaths PropGen PropTests PropScripts.
Import ListNotations.
Local Open Scope N_scope.
Local Open Scope list_scope.

(** ** What the crate and its tests include *)

Theorem C62_included_files :
  (forall m p, single_byte_included m = Some p <-> m <> ascii /\ p = tables_path m) /\
  big5_included = big5_tables_path /\ shiftjis_included = shiftjis_tables_path /\
  big5_tests_include = ((big5_test_path decoding input, big5_test_path decoding output),
                        (big5_test_path encoding_ input, big5_test_path encoding_ output)) /\
  shiftjis_tests_include = ((shiftjis_test_path decoding input, shiftjis_test_path decoding output),
                            (shiftjis_test_path encoding_ input, shiftjis_test_path encoding_ output)).
Proof.
  split; [|vm_compute; auto].
  assert (A : forall m, single_byte_included m = match m with ascii => None | _ => Some (tables_path m) end) by (intros m; destruct m; vm_compute; reflexivity).
  intros m p. rewrite A. split.
  - intros H. split; [intros E; subst m; discriminate H|]. destruct m; [discriminate H|congruence..].
  - intros [Hm ->]. destruct m; [contradiction|reflexivity..].
Qed.

Lemma included m p : single_byte_included m = Some p <-> m <> ascii /\ p = tables_path m.
Proof. apply C62_included_files. Qed.
Lemma not_included p : (forall m, single_byte_included m <> Some p) -> forall m, m <> ascii -> p <> tables_path m.
Proof. intros H m Hm E. apply (H m). apply included. auto. Qed.

(** ** The script for the single-byte encodings *)

(* a run to the end: every module's file is now what the script makes of the mapping file of that encoding; no other file has changed *)
Theorem C62_single_byte_run : forall f f', single_byte_main f = Done f' ->
  (forall m p, single_byte_included m = Some p ->
    exists file text, f (mapping_path m) = Some file /\ ascii_ext_script file = Some text /\ f' p = Some text) /\
  (forall p, (forall m, single_byte_included m <> Some p) -> f' p = f p).
Proof.
  intros f f' H. pose proof (single_byte_main_ok f) as K. rewrite H in K. destruct K as [K1 K2]. split.
  - intros m p Hp. apply included in Hp. destruct Hp as [Hm ->]. exact (K1 m Hm).
  - intros p Hp. apply K2, not_included, Hp.
Qed.

(* a run that ends with an exception, at some module: that module's file is emptied, unless the mapping file did not exist;
   the other modules' files are new or as before; no other file has changed *)
Theorem C62_single_byte_failure : forall f f', single_byte_main f = Raised f' ->
  (exists m p, single_byte_included m = Some p /\
    ((f (mapping_path m) = None /\ f' p = f p) \/
     (exists file, f (mapping_path m) = Some file /\ ascii_ext_script file = None /\ f' p = Some [])) /\
    (forall m' p', single_byte_included m' = Some p' -> m' <> m ->
      f' p' = f p' \/ exists file text, f (mapping_path m') = Some file /\ ascii_ext_script file = Some text /\ f' p' = Some text)) /\
  (forall p, (forall m, single_byte_included m <> Some p) -> f' p = f p).
Proof.
  intros f f' H. pose proof (single_byte_main_ok f) as K. rewrite H in K. destruct K as (m & Hm & B & R & U). split.
  - exists m, (tables_path m). split; [apply included; auto|]. split; [exact B|]. intros m' p' Hp Hne. apply included in Hp. destruct Hp as [Hm' ->].
    destruct (R m' Hm' Hne) as [G|G]; [right; exact G|left; exact G].
  - intros p Hp. apply U, not_included, Hp.
Qed.

(* what the tables say for the mapping *)
Definition single_byte_tables_of (pairs : list (N * N)) (dec : list N) (enc : list (N * N)) : Prop :=
  length dec = 128%nat /\
  (forall b, 128 <= b -> b < 256 ->
    (forall c, In (b, c) pairs -> nth_error dec (N.to_nat (b - 128)) = Some c) /\
    ((forall c, ~ In (b, c) pairs) -> nth_error dec (N.to_nat (b - 128)) = Some 0xFFFD)) /\
  (forall c b, In (c, b) enc <-> In (b, c) pairs /\ 128 <= b).

(* mapping files in the documented format for extensions of ASCII: the script runs to its end and every module gets the tables for
   the encoding that carries its name *)
Theorem C62_single_byte_regenerate : forall f pairs,
  (forall m, m <> ascii -> exists cs, f (mapping_path m) = Some (utf8 cs) /\ text cs /\ FileLines MappingLine cs (pairs m) /\ proper (pairs m) /\
    (forall b c, In (b, c) (pairs m) -> b < 256 /\ scalar c) /\ (forall i, i < 128 -> In (i, i) (pairs m))) ->
  exists f', single_byte_main f = Done f' /\
    (forall m p, single_byte_included m = Some p ->
      exists src dec enc, f' p = Some (utf8 src) /\ text src /\ Lexes src (single_byte_tokens dec enc) /\ single_byte_tables_of (pairs m) dec enc).
Proof.
  intros f pairs H. pose proof (single_byte_main_ok f) as K.
  assert (S : forall m, m <> ascii -> exists file src dec enc, f (mapping_path m) = Some file /\ ascii_ext_script file = Some (utf8 src) /\
    text src /\ Lexes src (single_byte_tokens dec enc) /\ single_byte_tables_of (pairs m) dec enc).
  { intros m Hm. destruct (H m Hm) as (cs & E & T & F & P & B & A). exists (utf8 cs).
    destruct (proj2 (C55_single_byte_script cs (pairs m) T F P B) A) as (src & dec & enc & S1 & S2 & S3 & S4 & S5 & S6 & _).
    exists src, dec, enc. split; [exact E|]. split; [exact S1|]. split; [exact S2|]. split; [exact S3|]. split; [exact S4|]. split; [exact S5|exact S6]. }
  destruct (single_byte_main f) as [f'|f'].
  - exists f'. split; [reflexivity|]. intros m p Hp. apply included in Hp. destruct Hp as [Hm ->]. destruct K as [K _].
    destruct (K m Hm) as (file & text' & E1 & E2 & E3). destruct (S m Hm) as (file' & src & dec & enc & F1 & F2 & F3 & F4 & F5).
    exists src, dec, enc. rewrite E3. assert (file' = file) by congruence. subst file'.
    split; [congruence|]. split; [exact F3|]. split; [exact F4|exact F5].
  - exfalso. destruct K as (m & Hm & B & _). destruct (S m Hm) as (file' & src & dec & enc & F1 & F2 & _).
    destruct B as [[B _]|(file & B1 & B2 & _)]; congruence.
Qed.

(* a mapping file that is not an extension of ASCII stops the script *)
Theorem C62_single_byte_not_ascii : forall f m cs pairs, m <> ascii ->
  f (mapping_path m) = Some (utf8 cs) -> text cs -> FileLines MappingLine cs pairs -> proper pairs ->
  (forall b c, In (b, c) pairs -> b < 256 /\ scalar c) -> (exists i, i < 128 /\ ~ In (i, i) pairs) ->
  exists f', single_byte_main f = Raised f'.
Proof.
  intros f m cs pairs Hm E T F P B A. pose proof (proj1 (C55_single_byte_script cs pairs T F P B) A) as N.
  destruct (single_byte_main f) as [f'|f'] eqn:R; [|exists f'; reflexivity].
  exfalso. destruct (proj1 (C62_single_byte_run f f' R) m (tables_path m)) as (file & text' & F1 & F2 & _); [apply included; auto|]. congruence.
Qed.

(* running it again changes nothing *)
Theorem C62_single_byte_rerun : forall f f', single_byte_main f = Done f' ->
  exists f'', single_byte_main f' = Done f'' /\ forall p, f'' p = f' p.
Proof.
  intros f f' H. pose proof (single_byte_main_ok f) as K. rewrite H in K. destruct K as [K1 K2].
  assert (M : forall m, f' (mapping_path m) = f (mapping_path m)).
  { intros m. apply K2. intros m' _ E. symmetry in E. exact (mapping_not_tables _ _ E). }
  pose proof (single_byte_main_ok f') as K. destruct (single_byte_main f') as [f''|f''].
  - exists f''. split; [reflexivity|]. destruct K as [L1 L2]. intros p.
    destruct (in_dec (list_eq_dec string_dec) p (map tables_path single_modules)) as [I|I].
    + apply in_map_iff in I. destruct I as (m & <- & Hm). apply single_modules_In in Hm.
      destruct (K1 m Hm) as (a & b & A1 & A2 & A3). destruct (L1 m Hm) as (a' & b' & B1 & B2 & B3). rewrite M in B1. congruence.
    + apply L2. intros m Hm E. apply I. rewrite E. apply in_map, single_modules_In, Hm.
  - exfalso. destruct K as (m & Hm & B & _). destruct (K1 m Hm) as (a & b & A1 & A2 & _). unfold broken in B. rewrite M in B.
    destruct B as [[B _]|(x & B1 & B2 & _)]; congruence.
Qed.

(** ** The scripts for Big5 and Shift JIS *)

(* the files with test data belong together line by line *)
Definition TestFiles (a b : list N) (line : list N -> list N -> Prop) : Prop :=
  exists lines, a = flat_map (fun l => fst l ++ [10]) lines /\ b = flat_map (fun l => snd l ++ [10]) lines /\
    forall x y, In (x, y) lines <-> line x y.

(* the lines of the test data for an index: encoded bytes and UTF-8; chosen: the pairs of the index to use *)
Definition big5_test_line (chosen : N -> N -> Prop) (w t : list N) : Prop :=
  (exists b, 1 <= b <= 127 /\ w = [b] /\ t = utf8 [b]) \/
  (exists p c, chosen c p /\ w = big5_code p /\ t = utf8 [c]) \/
  (exists p cs, In (p, cs) big5_sequences /\ w = big5_code p /\ t = utf8 cs).
Definition shiftjis_test_line (chosen : N -> N -> Prop) (w t : list N) : Prop :=
  (exists b, 1 <= b <= 128 /\ w = [b] /\ t = utf8 [b]) \/
  (exists p c, chosen c p /\ w = sjis_code p /\ t = utf8 [c]).

Lemma big5_lines_spec table chosen : (forall p c, In (p, c) table <-> chosen c p) -> (forall p c, In (p, c) table -> scalar c) ->
  forall w t, In (w, t) (big5_test_lines table) <-> big5_test_line chosen w t.
Proof.
  intros H S w t. unfold big5_test_lines, big5_test_line. rewrite !in_app_iff, !in_map_iff.
  assert (R : forall b, In b (range1 128) <-> 1 <= b <= 127).
  { intros b. split; [intros Hb; apply range1_in in Hb; lia|]. intros Hb. unfold range1. apply in_map_iff. exists (N.to_nat b).
    split; [lia|]. apply in_seq. lia. }
  assert (A : forall b, 1 <= b <= 127 -> utf8 [b] = [b]).
  { intros b Hb. unfold utf8, flat_map, utf8_char. btrue (b <? 0x80). reflexivity. }
  split; (intros [X|[X|X]]; [left|right; left|right; right]).
  - destruct X as (b & E & Hb). apply R in Hb. exists b. split; [exact Hb|]. rewrite A by exact Hb. split; congruence.
  - destruct X as ([p c] & E & Hp). cbn [fst snd] in E. exists p, c. split; [apply H, Hp|].
    rewrite big5_bytes in E. rewrite (utf8_one c (S p c Hp)) in E. split; congruence.
  - destruct X as ([p [a b]] & E & Hp). cbn [fst snd] in E. pose proof big5_sequence_bytes as Q. rewrite Forall_forall in Q.
    destruct (Q _ Hp) as [Q1 Q2]. cbn [fst snd] in Q1, Q2. exists p, [a; b]. split; [exact Q2|]. rewrite big5_bytes in E. split; congruence.
  - destruct X as (b & Hb & -> & ->). exists b. rewrite (A b Hb). split; [reflexivity|apply R, Hb].
  - destruct X as (p & c & Hc & -> & ->). apply H in Hc. exists (p, c). cbn [fst snd]. rewrite big5_bytes, (utf8_one c (S p c Hc)). auto.
  - destruct X as (p & cs & Hc & -> & ->). unfold big5_sequences in Hc. unfold big5_test_sequences.
    repeat (destruct Hc as [Hc|Hc]; [exists (p, (nth 0 cs 0, nth 1 cs 0)); pose proof (f_equal fst Hc) as E1; apply (f_equal snd) in Hc;
      cbn [fst snd] in E1, Hc; subst p cs; split; [vm_compute; reflexivity|cbn [nth In]; auto 8]|]).
    destruct Hc.
Qed.
Lemma sjis_lines_spec table chosen : (forall p c, In (p, c) table <-> chosen c p) -> (forall p c, In (p, c) table -> scalar c) ->
  forall w t, In (w, t) (sjis_test_lines table) <-> shiftjis_test_line chosen w t.
Proof.
  intros H S w t. unfold sjis_test_lines, shiftjis_test_line. rewrite !in_app_iff, !in_map_iff.
  assert (R : forall b, In b (range1 129) <-> 1 <= b <= 128).
  { intros b. split; [intros Hb; apply range1_in in Hb; lia|]. intros Hb. unfold range1. apply in_map_iff. exists (N.to_nat b).
    split; [lia|]. apply in_seq. lia. }
  split; (intros [X|X]; [left|right]).
  - destruct X as (b & E & Hb). apply R in Hb. exists b. split; [exact Hb|]. rewrite (utf8_one b) in E by (left; lia). split; congruence.
  - destruct X as ([p c] & E & Hp). cbn [fst snd] in E. exists p, c. split; [apply H, Hp|].
    rewrite sjis_bytes in E. rewrite (utf8_one c (S p c Hp)) in E. split; congruence.
  - destruct X as (b & Hb & -> & ->). exists b. rewrite (utf8_one b) by (left; lia). split; [reflexivity|apply R, Hb].
  - destruct X as (p & c & Hc & -> & ->). apply H in Hc. exists (p, c). cbn [fst snd]. rewrite sjis_bytes, (utf8_one c (S p c Hc)). auto.
Qed.

Definition big5_test_paths : list path :=
  [big5_test_path decoding input; big5_test_path decoding output; big5_test_path encoding_ input; big5_test_path encoding_ output].
Definition shiftjis_test_paths : list path :=
  [shiftjis_test_path decoding input; shiftjis_test_path decoding output; shiftjis_test_path encoding_ input; shiftjis_test_path encoding_ output].

Lemma in_file_swap ls : in_file (map swap ls) = second_file ls.
Proof. unfold in_file, out_file, first_file, second_file. rewrite !flat_map_concat_map, map_map. reflexivity. Qed.
Lemma out_file_swap ls : out_file (map swap ls) = first_file ls.
Proof. unfold in_file, out_file, first_file, second_file. rewrite !flat_map_concat_map, map_map. reflexivity. Qed.

Lemma big5_chosen index t : increasing t -> (forall x, In x t <-> In x index) -> forall p c, In (p, c) (big5_deduped_table t) <-> big5_choice index c p.
Proof.
  intros Hi Hin p c. rewrite (big5_deduped_ok t Hi). unfold big5_choice. rewrite Hin. change keep_last with big5_last.
  destruct (in_dec N.eq_dec c big5_last); (split; intros [H1 H2]; (split; [exact H1|]); intros q Hq; apply H2, Hin, Hq).
Qed.
Lemma sjis_chosen index t : increasing t -> (forall x, In x t <-> In x index) -> forall p c, In (p, c) (sjis_deduped_table t) <-> sjis_choice index c p.
Proof.
  intros Hi Hin p c. rewrite (sjis_deduped_ok t Hi). unfold sjis_choice, sjis_eligible. rewrite Hin.
  split; intros (H1 & H2 & H3); (split; [exact H1|]); (split; [exact H2|]); intros q Hq; apply H3, Hin, Hq.
Qed.

Lemma big5_cases f : match big5_main f with
  | Done f' =>
      (exists file index text ls ls', f big5_index_path = Some file /\ load_file index_line file = Some index /\ big5_script file = Some text /\
        f' big5_tables_path = Some text /\
        big5_lines (sort pair_leb index) = map (fun l => (Some (fst l), Some (snd l))) ls /\
        big5_lines (big5_deduped_table (sort pair_leb index)) = map (fun l => (Some (fst l), Some (snd l))) ls' /\
        f' (big5_test_path decoding input) = Some (first_file ls) /\ f' (big5_test_path decoding output) = Some (second_file ls) /\
        f' (big5_test_path encoding_ input) = Some (second_file ls') /\ f' (big5_test_path encoding_ output) = Some (first_file ls')) /\
      (forall p, ~ In p (big5_tables_path :: big5_test_paths) -> f' p = f p)
  | Raised f' =>
      (forall file index text ls ls', f big5_index_path = Some file -> load_file index_line file = Some index -> big5_script file = Some text ->
        big5_lines (sort pair_leb index) = map (fun l => (Some (fst l), Some (snd l))) ls ->
        big5_lines (big5_deduped_table (sort pair_leb index)) = map (fun l => (Some (fst l), Some (snd l))) ls' -> False) /\
      (forall p, ~ In p (big5_tables_path :: big5_test_paths) -> f' p = f p)
  end.
Proof.
  apply (whatwg_main_cases big5_script big5_lines big5_deduped_table big5_index_path big5_tables_path
    (big5_test_path decoding input) (big5_test_path decoding output) (big5_test_path encoding_ input) (big5_test_path encoding_ output)).
  all: try (vm_compute; reflexivity).
  - intros H. cbn [In] in H. repeat (destruct H as [H|H]; [discriminate H|]). exact H.
  - repeat (apply NoDup_cons; [intros H; cbn [In] in H; repeat (destruct H as [H|H]; [vm_compute in H; discriminate H|]); exact H|]). constructor.
Qed.

Lemma shiftjis_cases f : match shiftjis_main f with
  | Done f' =>
      (exists file index text ls ls', f jis0208_index_path = Some file /\ load_file index_line file = Some index /\ shiftjis_script file = Some text /\
        f' shiftjis_tables_path = Some text /\
        sjis_lines (sort pair_leb index) = map (fun l => (Some (fst l), Some (snd l))) ls /\
        sjis_lines (sjis_deduped_table (sort pair_leb index)) = map (fun l => (Some (fst l), Some (snd l))) ls' /\
        f' (shiftjis_test_path decoding input) = Some (first_file ls) /\ f' (shiftjis_test_path decoding output) = Some (second_file ls) /\
        f' (shiftjis_test_path encoding_ input) = Some (second_file ls') /\ f' (shiftjis_test_path encoding_ output) = Some (first_file ls')) /\
      (forall p, ~ In p (shiftjis_tables_path :: shiftjis_test_paths) -> f' p = f p)
  | Raised f' =>
      (forall file index text ls ls', f jis0208_index_path = Some file -> load_file index_line file = Some index -> shiftjis_script file = Some text ->
        sjis_lines (sort pair_leb index) = map (fun l => (Some (fst l), Some (snd l))) ls ->
        sjis_lines (sjis_deduped_table (sort pair_leb index)) = map (fun l => (Some (fst l), Some (snd l))) ls' -> False) /\
      (forall p, ~ In p (shiftjis_tables_path :: shiftjis_test_paths) -> f' p = f p)
  end.
Proof.
  apply (whatwg_main_cases shiftjis_script sjis_lines sjis_deduped_table jis0208_index_path shiftjis_tables_path
    (shiftjis_test_path decoding input) (shiftjis_test_path decoding output) (shiftjis_test_path encoding_ input) (shiftjis_test_path encoding_ output)).
  all: try (vm_compute; reflexivity).
  - intros H. cbn [In] in H. repeat (destruct H as [H|H]; [discriminate H|]). exact H.
  - repeat (apply NoDup_cons; [intros H; cbn [In] in H; repeat (destruct H as [H|H]; [vm_compute in H; discriminate H|]); exact H|]). constructor.
Qed.

(* Big5: a run to the end: the tables and the test data are what the script makes of the index file; no other file has changed *)
Theorem C62_big5_run : forall f f', big5_main f = Done f' ->
  (exists file index text dec_in dec_out enc_in enc_out, f big5_index_path = Some file /\ load_file index_line file = Some index /\
    generate_big5_test_data index = (dec_in, dec_out, (enc_in, enc_out)) /\ big5_script file = Some text /\
    f' big5_included = Some text /\
    f' (big5_test_path decoding input) = Some dec_in /\ f' (big5_test_path decoding output) = Some dec_out /\
    f' (big5_test_path encoding_ input) = Some enc_in /\ f' (big5_test_path encoding_ output) = Some enc_out) /\
  (forall p, p <> big5_included -> (forall d s, p <> big5_test_path d s) -> f' p = f p).
Proof.
  intros f f' H. pose proof (big5_cases f) as K. rewrite H in K.
  destruct K as [(file & index & text' & ls & ls' & H1 & H2 & H3 & H4 & H5 & H6 & H7 & H8 & H9 & H10) U].
  apply big5_lines_success in H5, H6. split.
  - exists file, index, text', (first_file ls), (second_file ls), (second_file ls'), (first_file ls').
    split; [exact H1|]. split; [exact H2|]. split; [|split; [exact H3|split; [exact H4|auto]]].
    unfold generate_big5_test_data. cbv zeta. rewrite <- H5, <- H6. rewrite in_file_swap, out_file_swap. reflexivity.
  - intros p Hp Ht. apply U. intros [E|Hin]; [apply Hp; symmetry; exact E|]. cbn [In big5_test_paths] in Hin.
    destruct Hin as [E|[E|[E|[E|[]]]]]; symmetry in E; exact (Ht _ _ E).
Qed.

(* an exception: still no other file has changed *)
Theorem C62_big5_failure : forall f f', big5_main f = Raised f' ->
  forall p, p <> big5_included -> (forall d s, p <> big5_test_path d s) -> f' p = f p.
Proof.
  intros f f' H p Hp Ht. pose proof (big5_cases f) as K. rewrite H in K. apply K.
  intros [E|Hin]; [apply Hp; symmetry; exact E|]. cbn [In big5_test_paths] in Hin.
  destruct Hin as [E|[E|[E|[E|[]]]]]; symmetry in E; exact (Ht _ _ E).
Qed.

(* an index file in the documented format: the script runs to its end, the module gets the tables for that index and the tests get
   lines for every character of it *)
Theorem C62_big5_regenerate : forall f cs index, f big5_index_path = Some (utf8 cs) ->
  text cs -> FileLines IndexLine cs index -> proper index -> (forall p c, In (p, c) index -> p < 126 * 157 /\ scalar c) ->
  exists f', big5_main f = Done f' /\
    (exists src dec enc, f' big5_included = Some (utf8 src) /\ text src /\ Lexes src (whatwg_tokens dec enc) /\
      decode_table_of index dec /\ encode_table_of (big5_choice index) big5_code enc) /\
    (exists dec_in dec_out, f' (big5_test_path decoding input) = Some dec_in /\ f' (big5_test_path decoding output) = Some dec_out /\
      TestFiles dec_in dec_out (big5_test_line (fun c p => In (p, c) index))) /\
    (exists enc_in enc_out, f' (big5_test_path encoding_ input) = Some enc_in /\ f' (big5_test_path encoding_ output) = Some enc_out /\
      TestFiles enc_in enc_out (fun t w => big5_test_line (big5_choice index) w t)).
Proof.
  intros f cs index E T F P B. pose proof (big5_cases f) as K.
  destruct (C55_big5_script cs index T F P B) as (src & dec & enc & S1 & S2 & S3 & S4 & S5 & _).
  pose proof (C54_index_files cs index T F) as L. destruct (sort_index index P) as [Hi Hin].
  set (t := sort pair_leb index) in *. assert (D : forall p c, In (p, c) (big5_deduped_table t) <-> big5_choice index c p).
  { intros p c. exact (big5_chosen index t Hi Hin p c). }
  assert (B1 : forall p c, In (p, c) t -> p < 126 * 157 /\ scalar c) by (intros p c Hp; apply B, Hin, Hp).
  assert (B2 : forall p c, In (p, c) (big5_deduped_table t) -> p < 126 * 157 /\ scalar c) by (intros p c Hp; apply D in Hp; apply B, Hp).
  destruct (big5_main f) as [f'|f'].
  - exists f'. split; [reflexivity|]. destruct K as [(file & index' & text' & ls & ls' & H1 & H2 & H3 & H4 & H5 & H6 & H7 & H8 & H9 & H10) _].
    assert (file = utf8 cs) by congruence. subst file. assert (index' = index) by congruence. subst index'. fold t in H5, H6.
    apply big5_lines_success in H5, H6. split; [|split].
    + exists src, dec, enc. change big5_included with big5_tables_path. rewrite H4. split; [congruence|]. split; [exact S2|]. split; [exact S3|]. split; [exact S4|exact S5].
    + exists (first_file ls), (second_file ls). split; [exact H7|]. split; [exact H8|]. exists ls. split; [reflexivity|]. split; [reflexivity|].
      subst ls. apply big5_lines_spec; [intros p c; apply Hin|intros p c Hp; apply (B1 p c Hp)].
    + exists (second_file ls'), (first_file ls'). split; [exact H9|]. split; [exact H10|]. exists (map swap ls').
      split; [symmetry; apply in_file_swap|]. split; [symmetry; apply out_file_swap|]. intros x y. subst ls'.
      rewrite <- (big5_lines_spec (big5_deduped_table t) (big5_choice index) D (fun p c Hp => proj2 (B2 p c Hp)) y x).
      rewrite in_map_iff. split.
      * intros ([a b] & Eab & Hab). unfold swap in Eab. cbn [fst snd] in Eab. assert (b = x) by congruence. assert (a = y) by congruence. subst. exact Hab.
      * intros Hab. exists (y, x). split; [reflexivity|exact Hab].
  - exfalso. destruct K as [K _]. eapply K; [exact E|exact L|exact S1|apply big5_lines_works, B1|apply big5_lines_works, B2].
Qed.

Theorem C62_big5_rerun : forall f f', big5_main f = Done f' -> exists f'', big5_main f' = Done f'' /\ forall p, f'' p = f' p.
Proof.
  intros f f' H. pose proof (big5_cases f) as K. rewrite H in K.
  destruct K as [(file & index & text' & ls & ls' & H1 & H2 & H3 & H4 & H5 & H6 & H7 & H8 & H9 & H10) U].
  assert (M : f' big5_index_path = Some file).
  { rewrite <- H1. apply U. intros Hx. cbn [In big5_test_paths] in Hx. repeat (destruct Hx as [Hx|Hx]; [discriminate Hx|]). exact Hx. }
  pose proof (big5_cases f') as K. destruct (big5_main f') as [f''|f''].
  - exists f''. split; [reflexivity|].
    destruct K as [(file2 & index2 & text2 & ls2 & ls2' & G1 & G2 & G3 & G4 & G5 & G6 & G7 & G8 & G9 & G10) V].
    assert (file2 = file) by congruence. subst file2. assert (index2 = index) by congruence. subst index2.
    apply big5_lines_success in H5, H6, G5, G6. subst ls ls' ls2 ls2'. intros p.
    destruct (in_dec (list_eq_dec string_dec) p (big5_tables_path :: big5_test_paths)) as [I|I]; [|apply V, I].
    cbn [In big5_test_paths] in I. destruct I as [<-|[<-|[<-|[<-|[<-|[]]]]]]; congruence.
  - exfalso. destruct K as [K _]. eapply K; [exact M|exact H2|exact H3|exact H5|exact H6].
Qed.

(* Shift JIS: a run to the end: the tables and the test data are what the script makes of the index file; no other file has changed *)
Theorem C62_shift_jis_run : forall f f', shiftjis_main f = Done f' ->
  (exists file index text dec_in dec_out enc_in enc_out, f jis0208_index_path = Some file /\ load_file index_line file = Some index /\
    generate_shiftjis_test_data index = (dec_in, dec_out, (enc_in, enc_out)) /\ shiftjis_script file = Some text /\
    f' shiftjis_included = Some text /\
    f' (shiftjis_test_path decoding input) = Some dec_in /\ f' (shiftjis_test_path decoding output) = Some dec_out /\
    f' (shiftjis_test_path encoding_ input) = Some enc_in /\ f' (shiftjis_test_path encoding_ output) = Some enc_out) /\
  (forall p, p <> shiftjis_included -> (forall d s, p <> shiftjis_test_path d s) -> f' p = f p).
Proof.
  intros f f' H. pose proof (shiftjis_cases f) as K. rewrite H in K.
  destruct K as [(file & index & text' & ls & ls' & H1 & H2 & H3 & H4 & H5 & H6 & H7 & H8 & H9 & H10) U].
  apply sjis_lines_success in H5, H6. split.
  - exists file, index, text', (first_file ls), (second_file ls), (second_file ls'), (first_file ls').
    split; [exact H1|]. split; [exact H2|]. split; [|split; [exact H3|split; [exact H4|auto]]].
    unfold generate_shiftjis_test_data. cbv zeta. rewrite <- H5, <- H6. rewrite in_file_swap, out_file_swap. reflexivity.
  - intros p Hp Ht. apply U. intros [E|Hin]; [apply Hp; symmetry; exact E|]. cbn [In shiftjis_test_paths] in Hin.
    destruct Hin as [E|[E|[E|[E|[]]]]]; symmetry in E; exact (Ht _ _ E).
Qed.

(* an exception: still no other file has changed *)
Theorem C62_shift_jis_failure : forall f f', shiftjis_main f = Raised f' ->
  forall p, p <> shiftjis_included -> (forall d s, p <> shiftjis_test_path d s) -> f' p = f p.
Proof.
  intros f f' H p Hp Ht. pose proof (shiftjis_cases f) as K. rewrite H in K. apply K.
  intros [E|Hin]; [apply Hp; symmetry; exact E|]. cbn [In shiftjis_test_paths] in Hin.
  destruct Hin as [E|[E|[E|[E|[]]]]]; symmetry in E; exact (Ht _ _ E).
Qed.

(* an index file in the documented format: the script runs to its end, the module gets the tables for that index and the tests get
   lines for every character of it *)
Theorem C62_shift_jis_regenerate : forall f cs index, f jis0208_index_path = Some (utf8 cs) ->
  text cs -> FileLines IndexLine cs index -> proper index -> (forall p c, In (p, c) index -> p < 63 * 188 /\ scalar c) ->
  exists f', shiftjis_main f = Done f' /\
    (exists src dec enc, f' shiftjis_included = Some (utf8 src) /\ text src /\ Lexes src (whatwg_tokens dec enc) /\
      decode_table_of index dec /\ encode_table_of (sjis_choice index) sjis_code enc) /\
    (exists dec_in dec_out, f' (shiftjis_test_path decoding input) = Some dec_in /\ f' (shiftjis_test_path decoding output) = Some dec_out /\
      TestFiles dec_in dec_out (shiftjis_test_line (fun c p => In (p, c) index))) /\
    (exists enc_in enc_out, f' (shiftjis_test_path encoding_ input) = Some enc_in /\ f' (shiftjis_test_path encoding_ output) = Some enc_out /\
      TestFiles enc_in enc_out (fun t w => shiftjis_test_line (sjis_choice index) w t)).
Proof.
  intros f cs index E T F P B. pose proof (shiftjis_cases f) as K.
  destruct (C55_shift_jis_script cs index T F P B) as (src & dec & enc & S1 & S2 & S3 & S4 & S5 & _).
  pose proof (C54_index_files cs index T F) as L. destruct (sort_index index P) as [Hi Hin].
  set (t := sort pair_leb index) in *. assert (D : forall p c, In (p, c) (sjis_deduped_table t) <-> sjis_choice index c p).
  { intros p c. exact (sjis_chosen index t Hi Hin p c). }
  assert (B1 : forall p c, In (p, c) t -> p < 63 * 188 /\ scalar c) by (intros p c Hp; apply B, Hin, Hp).
  assert (B2 : forall p c, In (p, c) (sjis_deduped_table t) -> p < 63 * 188 /\ scalar c) by (intros p c Hp; apply D in Hp; apply B, Hp).
  destruct (shiftjis_main f) as [f'|f'].
  - exists f'. split; [reflexivity|]. destruct K as [(file & index' & text' & ls & ls' & H1 & H2 & H3 & H4 & H5 & H6 & H7 & H8 & H9 & H10) _].
    assert (file = utf8 cs) by congruence. subst file. assert (index' = index) by congruence. subst index'. fold t in H5, H6.
    apply sjis_lines_success in H5, H6. split; [|split].
    + exists src, dec, enc. change shiftjis_included with shiftjis_tables_path. rewrite H4. split; [congruence|]. split; [exact S2|]. split; [exact S3|]. split; [exact S4|exact S5].
    + exists (first_file ls), (second_file ls). split; [exact H7|]. split; [exact H8|]. exists ls. split; [reflexivity|]. split; [reflexivity|].
      subst ls. apply sjis_lines_spec; [intros p c; apply Hin|intros p c Hp; apply (B1 p c Hp)].
    + exists (second_file ls'), (first_file ls'). split; [exact H9|]. split; [exact H10|]. exists (map swap ls').
      split; [symmetry; apply in_file_swap|]. split; [symmetry; apply out_file_swap|]. intros x y. subst ls'.
      rewrite <- (sjis_lines_spec (sjis_deduped_table t) (sjis_choice index) D (fun p c Hp => proj2 (B2 p c Hp)) y x).
      rewrite in_map_iff. split.
      * intros ([a b] & Eab & Hab). unfold swap in Eab. cbn [fst snd] in Eab. assert (b = x) by congruence. assert (a = y) by congruence. subst. exact Hab.
      * intros Hab. exists (y, x). split; [reflexivity|exact Hab].
  - exfalso. destruct K as [K _]. eapply K; [exact E|exact L|exact S1|apply sjis_lines_works, B1|apply sjis_lines_works, B2].
Qed.

Theorem C62_shift_jis_rerun : forall f f', shiftjis_main f = Done f' -> exists f'', shiftjis_main f' = Done f'' /\ forall p, f'' p = f' p.
Proof.
  intros f f' H. pose proof (shiftjis_cases f) as K. rewrite H in K.
  destruct K as [(file & index & text' & ls & ls' & H1 & H2 & H3 & H4 & H5 & H6 & H7 & H8 & H9 & H10) U].
  assert (M : f' jis0208_index_path = Some file).
  { rewrite <- H1. apply U. intros Hx. cbn [In shiftjis_test_paths] in Hx. repeat (destruct Hx as [Hx|Hx]; [discriminate Hx|]). exact Hx. }
  pose proof (shiftjis_cases f') as K. destruct (shiftjis_main f') as [f''|f''].
  - exists f''. split; [reflexivity|].
    destruct K as [(file2 & index2 & text2 & ls2 & ls2' & G1 & G2 & G3 & G4 & G5 & G6 & G7 & G8 & G9 & G10) V].
    assert (file2 = file) by congruence. subst file2. assert (index2 = index) by congruence. subst index2.
    apply sjis_lines_success in H5, H6, G5, G6. subst ls ls' ls2 ls2'. intros p.
    destruct (in_dec (list_eq_dec string_dec) p (shiftjis_tables_path :: shiftjis_test_paths)) as [I|I]; [|apply V, I].
    cbn [In shiftjis_test_paths] in I. destruct I as [<-|[<-|[<-|[<-|[<-|[]]]]]]; congruence.
  - exfalso. destruct K as [K _]. eapply K; [exact M|exact H2|exact H3|exact H5|exact H6].
Qed.

(** ** The repository as it is *)

(* the files of the repository that the scripts read or write *)
Definition Repository (f : files) : Prop :=
  (forall m, m <> ascii -> f (mapping_path m) = Some (contents (mapping_txt m)) /\ f (tables_path m) = Some (contents (tables_inc m))) /\
  f big5_index_path = Some (contents index_big5_txt) /\ f big5_tables_path = Some (contents big5_inc) /\
  f jis0208_index_path = Some (contents index_jis0208_txt) /\ f shiftjis_tables_path = Some (contents shiftjis_inc) /\
  (f (big5_test_path decoding input) = Some (octets big5_decode_in) /\ f (big5_test_path decoding output) = Some (octets big5_decode_out) /\
   f (big5_test_path encoding_ input) = Some (octets big5_encode_in) /\ f (big5_test_path encoding_ output) = Some (octets big5_encode_out)) /\
  (f (shiftjis_test_path decoding input) = Some (octets shiftjis_decode_in) /\ f (shiftjis_test_path decoding output) = Some (octets shiftjis_decode_out) /\
   f (shiftjis_test_path encoding_ input) = Some (octets shiftjis_encode_in) /\ f (shiftjis_test_path encoding_ output) = Some (octets shiftjis_encode_out)).

Lemma big5_index_range : forall p c, In (p, c) big5_index -> p < 126 * 157 /\ scalar c.
Proof.
  assert (H : forallb (fun e => (fst e <? 126 * 157) && ((snd e <? 0xD800) || ((0xDFFF <? snd e) && (snd e <=? 0x10FFFF)))) big5_index = true) by (vm_compute; reflexivity).
  intros p c Hp. rewrite forallb_forall in H. apply H in Hp. cbn [fst snd] in Hp. unfold scalar. clear H. lia.
Qed.
Lemma jis0208_index_range : forall p c, In (p, c) jis0208_index -> p < 63 * 188 /\ scalar c.
Proof.
  assert (H : forallb (fun e => (fst e <? 63 * 188) && ((snd e <? 0xD800) || ((0xDFFF <? snd e) && (snd e <=? 0x10FFFF)))) jis0208_index = true) by (vm_compute; reflexivity).
  intros p c Hp. rewrite forallb_forall in H. apply H in Hp. cbn [fst snd] in Hp. unfold scalar. clear H. lia.
Qed.

(* the files the crate includes define the tables of the modules that include them *)
Theorem C62_repository_tables : forall f, Repository f ->
  (forall m p, single_byte_included m = Some p ->
    exists src, f p = Some (utf8 src) /\ text src /\ Lexes src (single_byte_tokens (sb_decode_table m) (sb_encode_table m))) /\
  (exists src, f big5_included = Some (utf8 src) /\ text src /\ Lexes src (whatwg_tokens big5_decode_table big5_encode_table)) /\
  (exists src, f shiftjis_included = Some (utf8 src) /\ text src /\ Lexes src (whatwg_tokens sjis_decode_table sjis_encode_table)).
Proof.
  intros f (R1 & R2 & R3 & R4 & R5 & _). split; [|split].
  - intros m p Hp. apply included in Hp. destruct Hp as [Hm ->]. destruct (C56_single_byte_files m Hm) as (_ & _ & src & E & T & L).
    exists src. rewrite <- E. split; [apply R1, Hm|]. split; [exact T|exact L].
  - destruct C56_big5_files as (_ & _ & src & E & T & L). exists src. rewrite <- E. split; [exact R3|]. split; [exact T|exact L].
  - destruct C56_shift_jis_files as (_ & _ & src & E & T & L). exists src. rewrite <- E. split; [exact R5|]. split; [exact T|exact L].
Qed.

(* running the scripts in the repository changes nothing *)
Theorem C62_repository_scripts : forall f, Repository f ->
  (exists f', single_byte_main f = Done f' /\ forall p, f' p = f p) /\
  (exists f', big5_main f = Done f' /\ forall p, f' p = f p) /\
  (exists f', shiftjis_main f = Done f' /\ forall p, f' p = f p).
Proof.
  intros f (R1 & R2 & R3 & R4 & R5 & RB & RJ). destruct C53_test_data_generated as [GB GJ].
  split; [|split].
  - pose proof (single_byte_main_ok f) as K. destruct (single_byte_main f) as [f'|f'].
    + exists f'. split; [reflexivity|]. destruct K as [K1 K2]. intros p.
      destruct (in_dec (list_eq_dec string_dec) p (map tables_path single_modules)) as [I|I].
      * apply in_map_iff in I. destruct I as (m & <- & Hm). apply single_modules_In in Hm. destruct (K1 m Hm) as (file & t & A1 & A2 & A3).
        destruct (R1 m Hm) as [Q1 Q2]. destruct (C56_single_byte_files m Hm) as (_ & S & _). clear -A1 A2 A3 Q1 Q2 S. congruence.
      * apply K2. intros m Hm E. apply I. rewrite E. apply in_map, single_modules_In, Hm.
    + exfalso. destruct K as (m & Hm & B & _). destruct (R1 m Hm) as [Q1 _]. destruct (C56_single_byte_files m Hm) as (_ & S & _).
      clear -B Q1 S. destruct B as [[B _]|(x & B1 & B2 & _)]; congruence.
  - destruct C56_big5_files as ((cs & E & T & F) & S & _). destruct RB as (B1 & B2 & B3 & B4).
    assert (Hr : forall p c, In (p, c) big5_index -> p < 126 * 157 /\ scalar c) by exact big5_index_range.
    rewrite E in R2. destruct (C62_big5_regenerate f cs big5_index R2 T F big5_proper Hr) as (f' & D & _).
    exists f'. split; [exact D|]. destruct (C62_big5_run f f' D) as [(file & index & t & a & b & c & d & H1 & H2 & H3 & H4 & H5 & H6 & H7 & H8 & H9) U].
    assert (file = utf8 cs) by congruence. subst file. rewrite (C54_index_files cs big5_index T F) in H2. assert (index = big5_index) by congruence. subst index.
    rewrite GB in H3. rewrite E in S. intros p.
    destruct (in_dec (list_eq_dec string_dec) p (big5_tables_path :: big5_test_paths)) as [I|I].
    + change big5_included with big5_tables_path in H5. clear -I H3 H4 H5 H6 H7 H8 H9 B1 B2 B3 B4 R3 S.
      cbn [In big5_test_paths] in I. destruct I as [<-|[<-|[<-|[<-|[<-|[]]]]]]; congruence.
    + apply U; [intros ->; apply I; left; reflexivity|]. intros d0 s ->. apply I. right. destruct d0, s; cbn [In big5_test_paths]; auto.
  - destruct C56_shift_jis_files as ((cs & E & T & F) & S & _). destruct RJ as (B1 & B2 & B3 & B4).
    assert (Hr : forall p c, In (p, c) jis0208_index -> p < 63 * 188 /\ scalar c) by exact jis0208_index_range.
    rewrite E in R4. destruct (C62_shift_jis_regenerate f cs jis0208_index R4 T F jis0208_proper Hr) as (f' & D & _).
    exists f'. split; [exact D|]. destruct (C62_shift_jis_run f f' D) as [(file & index & t & a & b & c & d & H1 & H2 & H3 & H4 & H5 & H6 & H7 & H8 & H9) U].
    assert (file = utf8 cs) by congruence. subst file. rewrite (C54_index_files cs jis0208_index T F) in H2. assert (index = jis0208_index) by congruence. subst index.
    rewrite GJ in H3. rewrite E in S. intros p.
    destruct (in_dec (list_eq_dec string_dec) p (shiftjis_tables_path :: shiftjis_test_paths)) as [I|I].
    + change shiftjis_included with shiftjis_tables_path in H5. clear -I H3 H4 H5 H6 H7 H8 H9 B1 B2 B3 B4 R5 S.
      cbn [In shiftjis_test_paths] in I. destruct I as [<-|[<-|[<-|[<-|[<-|[]]]]]]; congruence.
    + apply U; [intros ->; apply I; left; reflexivity|]. intros d0 s ->. apply I. right. destruct d0, s; cbn [In shiftjis_test_paths]; auto.
Qed.

(* the tests of the crate, on the files they include *)
Theorem C62_repository_tests : forall f, Repository f ->
  exists bdi bdo bei beo sdi sdo sei seo,
    (let '((di, do), (ei, eo)) := big5_tests_include in f di = Some bdi /\ f do = Some bdo /\ f ei = Some bei /\ f eo = Some beo) /\
    (let '((di, do), (ei, eo)) := shiftjis_tests_include in f di = Some sdi /\ f do = Some sdo /\ f ei = Some sei /\ f eo = Some seo) /\
    big5_whatwg_decode bdi bdo = Ret tt /\ big5_whatwg_encode bei beo = Ret tt /\
    shiftjis_whatwg_decode sdi sdo = Ret tt /\ shiftjis_whatwg_encode sei seo = Ret tt.
Proof.
  intros f (_ & _ & _ & _ & _ & B & S).
  exists (octets big5_decode_in), (octets big5_decode_out), (octets big5_encode_in), (octets big5_encode_out),
    (octets shiftjis_decode_in), (octets shiftjis_decode_out), (octets shiftjis_encode_in), (octets shiftjis_encode_out).
  split; [exact B|]. split; [exact S|]. exact C53_tests_pass_on_checked_in_data.
Qed.

(** ** Cases *)

(* there are such files *)
Definition lookup (l : list (path * list N)) : files :=
  fun p => match find (fun e => if list_eq_dec string_dec (fst e) p then true else false) l with Some e => Some (snd e) | None => None end.
Lemma lookup_In l p c : NoDup (map fst l) -> In (p, c) l -> lookup l p = Some c.
Proof.
  induction l as [|[q d] l IH]; intros ND Hin; [destruct Hin|]. cbn [map fst] in ND. inversion ND as [|? ? Hq ND']; subst.
  unfold lookup. cbn [find fst]. destruct (list_eq_dec string_dec q p) as [->|Hne].
  - cbn [snd]. destruct Hin as [E|Hin]; [congruence|]. exfalso. apply Hq. apply in_map_iff. exists (p, c). auto.
  - apply IH; [exact ND'|]. destruct Hin as [E|Hin]; [congruence|exact Hin].
Qed.
Fixpoint distinct (l : list path) : bool :=
  match l with [] => true | p :: r => negb (if in_dec (list_eq_dec string_dec) p r then true else false) && distinct r end.
Lemma distinct_NoDup l : distinct l = true -> NoDup l.
Proof.
  induction l as [|p l IH]; intros H; [constructor|]. cbn [distinct] in H. apply andb_prop in H. destruct H as [H1 H2]. constructor; [|apply IH, H2].
  intros Hin. destruct (in_dec (list_eq_dec string_dec) p l); [discriminate H1|contradiction].
Qed.
Definition module_entries (m : sb_module) : list (path * list N) :=
  [(mapping_path m, contents (mapping_txt m)); (tables_path m, contents (tables_inc m))].
Definition other_entries : list (path * list N) :=
  [(big5_index_path, contents index_big5_txt); (big5_tables_path, contents big5_inc);
   (jis0208_index_path, contents index_jis0208_txt); (shiftjis_tables_path, contents shiftjis_inc);
   (big5_test_path decoding input, octets big5_decode_in); (big5_test_path decoding output, octets big5_decode_out);
   (big5_test_path encoding_ input, octets big5_encode_in); (big5_test_path encoding_ output, octets big5_encode_out);
   (shiftjis_test_path decoding input, octets shiftjis_decode_in); (shiftjis_test_path decoding output, octets shiftjis_decode_out);
   (shiftjis_test_path encoding_ input, octets shiftjis_encode_in); (shiftjis_test_path encoding_ output, octets shiftjis_encode_out)].
Lemma entries_fst ms : map fst (flat_map module_entries ms) = flat_map (fun m => [mapping_path m; tables_path m]) ms.
Proof. induction ms as [|m ms IH]; [reflexivity|]. cbn [flat_map map module_entries app fst]. rewrite IH. reflexivity. Qed.
Definition the_repository : files := lookup (flat_map module_entries single_modules ++ other_entries).
Lemma the_repository_ok : Repository the_repository.
Proof.
  assert (ND : NoDup (map fst (flat_map module_entries single_modules ++ other_entries))).
  { rewrite map_app, entries_fst. unfold other_entries. cbn [map fst]. apply distinct_NoDup. vm_compute. reflexivity. }
  assert (O : forall p c, In (p, c) other_entries -> the_repository p = Some c).
  { intros p c H. apply lookup_In; [exact ND|]. apply in_or_app. right. exact H. }
  assert (K : forall k p c, nth_error other_entries k = Some (p, c) -> the_repository p = Some c) by (intros k p c H; exact (O p c (nth_error_In _ k H))).
  split; [|split; [exact (K 0%nat _ _ eq_refl)|split; [exact (K 1%nat _ _ eq_refl)|split; [exact (K 2%nat _ _ eq_refl)|split; [exact (K 3%nat _ _ eq_refl)|split]]]]].
  - intros m Hm. assert (G : forall p c, In (p, c) (module_entries m) -> the_repository p = Some c).
    { intros p c H. apply lookup_In; [exact ND|]. apply in_or_app. left. apply in_flat_map. exists m. split; [apply single_modules_In, Hm|exact H]. }
    unfold module_entries in G. split; apply G; [left|right; left]; reflexivity.
  - split; [exact (K 4%nat _ _ eq_refl)|split; [exact (K 5%nat _ _ eq_refl)|split; [exact (K 6%nat _ _ eq_refl)|exact (K 7%nat _ _ eq_refl)]]].
  - split; [exact (K 8%nat _ _ eq_refl)|split; [exact (K 9%nat _ _ eq_refl)|split; [exact (K 10%nat _ _ eq_refl)|exact (K 11%nat _ _ eq_refl)]]].
Qed.

(* losing the contents of one mapping file there loses the tables made from it *)
Example emptied : forall m, m <> ascii -> exists f', single_byte_main (write the_repository (mapping_path m) []) = Raised f' /\ f' (tables_path m) = Some [].
Proof.
  intros m Hm. pose proof (single_byte_main_ok (write the_repository (mapping_path m) [])) as K.
  assert (N : ascii_ext_script [] = None) by (vm_compute; reflexivity).
  destruct (single_byte_main (write the_repository (mapping_path m) [])) as [f'|f'].
  - exfalso. destruct K as [K _]. destruct (K m Hm) as (file & t & A1 & A2 & _). rewrite write_same in A1. clear -A1 A2 N. congruence.
  - exists f'. split; [reflexivity|]. destruct K as (x & Hx & B & _ & _).
    destruct (list_eq_dec string_dec (mapping_path m) (mapping_path x)) as [E|E].
    + assert (x = m) by (clear -E; destruct x, m; try reflexivity; vm_compute in E; discriminate E). subst x. unfold broken in B. rewrite write_same in B.
      clear -B N. destruct B as [[B _]|(file & B1 & B2 & B3)]; [discriminate B|exact B3].
    + exfalso. unfold broken in B. rewrite write_other in B by exact E. destruct (proj1 the_repository_ok x Hx) as [Q _].
      destruct (C56_single_byte_files x Hx) as (_ & S & _). clear -B Q S. destruct B as [[B _]|(file & B1 & B2 & _)]; congruence.
Qed.

Definition path_theorems := (C62_included_files, C62_single_byte_run, C62_single_byte_failure, C62_single_byte_regenerate, C62_single_byte_not_ascii,
  C62_single_byte_rerun, C62_big5_run, C62_big5_failure, C62_big5_regenerate, C62_big5_rerun,
  C62_shift_jis_run, C62_shift_jis_failure, C62_shift_jis_regenerate, C62_shift_jis_rerun,
  C62_repository_tables, C62_repository_scripts, C62_repository_tests).
Print Assumptions path_theorems.
