(* C54, C55, C56: the table scripts from file to file. *)
From Coq Require Import List NArith Arith Bool Lia Permutation.
From Verif Require Import Encodings Spec SpecFiles RefSingle RefBig5 RefSjis TabSingle TabBig5 TabSjis FileText FileBig5 FileSjis FileSingle.
From Verif Require Import Prelude RustCore ModelSingleByte ModelGen ModelScripts PropEndian.
From Verif Require Import Tac Search Tables ProofUtf8 ProofGen ProofScripts ProofFiles PropGen PropTests.
Import ListNotations.
Local Open Scope N_scope.

(** ** C54: reading *)

(* every file in the documented format is read as it is meant *)
Theorem C54_index_files : forall cs index, text cs -> FileLines IndexLine cs index -> load_file index_line (utf8 cs) = Some index.
Proof. exact (load_file_lines IndexLine index_line index_line_ok). Qed.
Theorem C54_mapping_files : forall cs pairs, text cs -> FileLines MappingLine cs pairs -> load_file mapping_line (utf8 cs) = Some pairs.
Proof. exact (load_file_lines MappingLine mapping_line mapping_line_ok). Qed.

(* two lines: "# x" and "  7<tab>0x4e00 ..." with different line ends *)
Example index_example : FileLines IndexLine (str "# x" ++ [10] ++ (str "  7" ++ [9] ++ str "0x4e00" ++ 32 :: [0x4E00]) ++ [13; 10] ++ []) [(7, 0x4E00)].
Proof.
  apply (File_line _ (str "# x") None [10] _ [(7, 0x4E00)]).
  - apply (Index_comment [] (str " x")). constructor.
  - vm_compute. intuition discriminate.
  - vm_compute. intuition discriminate.
  - left. reflexivity.
  - apply (File_line _ _ (Some (7, 0x4E00)) [13; 10] [] []); [| | |right; left; reflexivity|constructor].
    + apply (Index_entry (str "  ") (str "7") 7 [9] (str "0x4e00") 0x4E00 (32 :: [0x4E00])).
      * unfold blanks, white. repeat constructor; cbn [In]; tauto.
      * apply (Numeral_one 10 55 7). unfold Digit. lia.
      * unfold blanks, white. repeat constructor; cbn [In]; tauto.
      * discriminate.
      * exists (str "4e00"). split; [reflexivity|].
        assert (D : forall c d, d < 10 /\ c = 48 + d \/ 10 <= d < 16 /\ c = 87 + d -> Digit 16 c d) by (unfold Digit; lia).
        change 0x4E00 with (((4 * 16 + 14) * 16 + 0) * 16 + 0). change (str "4e00") with ((([52] ++ [101]) ++ [48]) ++ [48]).
        repeat apply Numeral_more; [apply Numeral_one|..]; apply D; lia.
      * right. exists 32, [0x4E00]. split; [reflexivity|unfold white; cbn [In]; tauto].
    + vm_compute. intuition discriminate.
    + vm_compute. intuition discriminate.
Qed.
(* an ideographic space and an em space are white space, a zero width space is not: the second line has one field only, and is skipped.
   The first line ends with \r, the second with the file *)
Example index_example_white : FileLines IndexLine (([0x3000] ++ str "7" ++ [0x2003] ++ str "0x4" ++ []) ++ [13] ++ str "8" ++ [0x200B] ++ str "0x5") [(7, 4)].
Proof.
  assert (D : Digit 16 52 4) by (unfold Digit; lia).
  apply (File_line _ _ (Some (7, 4)) [13] _ []).
  - apply Index_entry.
    + unfold blanks, white. repeat constructor; cbn [In]; tauto.
    + apply (Numeral_one 10 55 7). unfold Digit. lia.
    + unfold blanks, white. repeat constructor; cbn [In]; tauto.
    + discriminate.
    + exists [52]. split; [reflexivity|]. apply Numeral_one, D.
    + left. reflexivity.
  - vm_compute. intuition discriminate.
  - vm_compute. intuition discriminate.
  - right. right. split; [reflexivity|]. discriminate.
  - apply (File_last _ _ None); [|vm_compute; intuition discriminate|vm_compute; intuition discriminate|discriminate].
    apply (Index_word [] (str "8" ++ [0x200B] ++ str "0x5") []); [constructor| |constructor].
    repeat constructor; vm_compute; intuition discriminate.
Qed.
Example index_example_read : load_file index_line (utf8 (str "# x" ++ [10] ++ (str "  7" ++ [9] ++ str "0x4e00" ++ 32 :: [0x4E00]) ++ [13; 10] ++ [])) = Some [(7, 0x4E00)].
Proof. vm_compute. reflexivity. Qed.
Example mapping_example_read : load_file mapping_line (str "0x41 0x0041 # A
0x42  #UNDEFINED
") = Some [(0x41, 0x41)].
Proof. vm_compute. reflexivity. Qed.

(** ** C55: writing *)

(* generate_big5.py: for every index file with unique pointers in range, the output file is Rust source that defines the right tables,
   with the right lengths and all values in the range of their types *)
Theorem C55_big5_script : forall cs index, text cs -> FileLines IndexLine cs index -> proper index ->
  (forall p c, In (p, c) index -> p < 126 * 157 /\ scalar c) ->
  exists src dec enc,
    big5_script (utf8 cs) = Some (utf8 src) /\ text src /\ Lexes src (whatwg_tokens dec enc) /\
    decode_table_of index dec /\ encode_table_of (big5_choice index) big5_code enc /\
    text dec /\ Forall (fun e => scalar (fst e) /\ fst (snd e) < 256 /\ snd (snd e) < 256) enc.
Proof.
  intros cs index Ht HF HP HR. destruct (C47_big5_script index HP) as [HD HE]. unfold big5_script.
  rewrite (C54_index_files cs index Ht HF). unfold generate_big5_tables in HD, HE. cbv zeta in HD, HE |- *. cbn [fst snd] in HD, HE.
  destruct (sort_index index HP) as [Hi Hin]. set (t := sort pair_leb index) in *. clearbody t. set (dec := dec_fill 0 t) in *.
  set (enc := sort entry_leb (map (fun ic => (snd ic, big5_index_to_bytes (fst ic))) (big5_deduped_table t))) in *.
  assert (Sd : Forall (fun o => match o with Some c => scalar c | None => True end) dec).
  { apply Forall_forall. intros [c|] Hc; [|exact I]. apply dec_fill_values in Hc. destruct Hc as [p Hp]. apply Hin in Hp. apply HR in Hp. apply Hp. }
  assert (Se : Forall (fun e => scalar (fst e) /\ fst (snd e) < 256 /\ snd (snd e) < 256) enc).
  { apply Forall_forall. intros [c [b1 b2]] He. apply HE in He. destruct He as (p & [Hp _] & W). apply HR in Hp. destruct Hp as [Lp Hc].
    cbn [fst snd]. split; [exact Hc|]. unfold big5_code in W. cbv zeta in W. apply cons_inj in W. destruct W as [W1 W]. apply cons_inj in W. destruct W as [W2 _].
    pose proof (N.mod_lt p 157 ltac:(lia)) as M. pose proof (N.div_lt_upper_bound p 157 126 ltac:(lia) ltac:(lia)) as D.
    clear -W1 W2 M D. set (q := p / 157) in *. set (r := p mod 157) in *. clearbody q r. destruct (r <? 63) eqn:E; lia. }
  exists (tables_text dec enc), (map written dec), enc. rewrite py_encode_text by apply text_tables.
  split; [reflexivity|]. split; [apply text_tables|]. split.
  { apply tables_text_tokens; [exact Sd|]. eapply Forall_impl; [|exact Se]. cbv beta. intros e H. split; [apply H|]. destruct H as [_ H]. lia. }
  split; [exact HD|]. split; [exact HE|]. split; [|exact Se].
  apply Forall_map. eapply Forall_impl; [|exact Sd]. intros [c|] H; [exact H|]. cbn. unfold scalar. lia.
Qed.

Theorem C55_shift_jis_script : forall cs index, text cs -> FileLines IndexLine cs index -> proper index ->
  (forall p c, In (p, c) index -> p < 63 * 188 /\ scalar c) ->
  exists src dec enc,
    shiftjis_script (utf8 cs) = Some (utf8 src) /\ text src /\ Lexes src (whatwg_tokens dec enc) /\
    decode_table_of index dec /\ encode_table_of (sjis_choice index) sjis_code enc /\
    text dec /\ Forall (fun e => scalar (fst e) /\ fst (snd e) < 256 /\ snd (snd e) < 256) enc.
Proof.
  intros cs index Ht HF HP HR. destruct (C47_shift_jis_script index HP) as [HD HE]. unfold shiftjis_script.
  rewrite (C54_index_files cs index Ht HF). unfold generate_shiftjis_tables in HD, HE. cbv zeta in HD, HE |- *. cbn [fst snd] in HD, HE.
  destruct (sort_index index HP) as [Hi Hin]. set (t := sort pair_leb index) in *. clearbody t. set (dec := dec_fill 0 t) in *.
  set (enc := sort entry_leb (map (fun ic => (snd ic, sjis_index_to_bytes (fst ic))) (sjis_deduped_table t))) in *.
  assert (Sd : Forall (fun o => match o with Some c => scalar c | None => True end) dec).
  { apply Forall_forall. intros [c|] Hc; [|exact I]. apply dec_fill_values in Hc. destruct Hc as [p Hp]. apply Hin in Hp. apply HR in Hp. apply Hp. }
  assert (Se : Forall (fun e => scalar (fst e) /\ fst (snd e) < 256 /\ snd (snd e) < 256) enc).
  { apply Forall_forall. intros [c [b1 b2]] He. apply HE in He. destruct He as (p & [Hp _] & W). apply HR in Hp. destruct Hp as [Lp Hc].
    cbn [fst snd]. split; [exact Hc|]. unfold sjis_code in W. cbv zeta in W. apply cons_inj in W. destruct W as [W1 W]. apply cons_inj in W. destruct W as [W2 _].
    pose proof (N.mod_lt p 188 ltac:(lia)) as M. pose proof (N.div_lt_upper_bound p 188 63 ltac:(lia) ltac:(lia)) as D.
    clear -W1 W2 M D. set (q := p / 188) in *. set (r := p mod 188) in *. clearbody q r. destruct (r <? 63) eqn:E; destruct (q <? 31) eqn:E2; lia. }
  exists (tables_text dec enc), (map written dec), enc. rewrite py_encode_text by apply text_tables.
  split; [reflexivity|]. split; [apply text_tables|]. split.
  { apply tables_text_tokens; [exact Sd|]. eapply Forall_impl; [|exact Se]. cbv beta. intros e H. split; [apply H|]. destruct H as [_ H]. lia. }
  split; [exact HD|]. split; [exact HE|]. split; [|exact Se].
  apply Forall_map. eapply Forall_impl; [|exact Sd]. intros [c|] H; [exact H|]. cbn. unfold scalar. lia.
Qed.

(* generate_ascii_ext_tables.py: the output file defines the two functions and the two tables, or the script raises its exception *)
Theorem C55_single_byte_script : forall cs pairs, text cs -> FileLines MappingLine cs pairs -> proper pairs ->
  (forall b c, In (b, c) pairs -> b < 256 /\ scalar c) ->
  ((exists i, i < 128 /\ ~ In (i, i) pairs) -> ascii_ext_script (utf8 cs) = None) /\
  ((forall i, i < 128 -> In (i, i) pairs) ->
   exists src dec enc,
    ascii_ext_script (utf8 cs) = Some (utf8 src) /\ text src /\ Lexes src (single_byte_tokens dec enc) /\
    length dec = 128%nat /\
    (forall b, 128 <= b -> b < 256 ->
      (forall c, In (b, c) pairs -> nth_error dec (N.to_nat (b - 128)) = Some c) /\
      ((forall c, ~ In (b, c) pairs) -> nth_error dec (N.to_nat (b - 128)) = Some 0xFFFD)) /\
    (forall c b, In (c, b) enc <-> In (b, c) pairs /\ 128 <= b) /\
    ((forall b b' c, In (b, c) pairs -> In (b', c) pairs -> 128 <= b -> 128 <= b' -> b = b') -> strictly_increasing enc) /\
    text dec /\ Forall (fun e => scalar (fst e) /\ snd e < 256) enc).
Proof.
  intros cs pairs Ht HF HP HR. unfold ascii_ext_script. rewrite (C54_mapping_files cs pairs Ht HF).
  pose proof (C48_rejects_exactly pairs HP) as HX. pose proof (fun dec enc => C48_decode_table pairs dec enc HP (fun b c H => proj1 (HR b c H))) as HD.
  pose proof (fun dec enc => C48_encode_entries pairs dec enc HP) as HE. pose proof (fun dec enc => C48_encode_table_sorted_partial pairs dec enc HP) as HS.
  unfold generate_ascii_ext_encoding in HX, HD, HE, HS.
  destruct (sort_index pairs HP) as [Hi Hin].
  assert (Hge : Forall (fun e => 0 <= fst e) (sort pair_leb pairs)) by (apply Forall_forall; intros; lia).
  pose proof (check_ascii_ok 128 0 _ Hi Hge) as HC.
  set (t := sort pair_leb pairs) in *. clearbody t. destruct (check_ascii 128 0 t) as [table|].
  2:{ split; [reflexivity|]. intros H. exfalso. destruct (proj1 HX eq_refl) as (i & L & Hno). exact (Hno (H i L)). }
  split; [intros H; apply HX in H; discriminate|]. intros _. cbv zeta in *.
  destruct HC as (_ & _ & Hsub).
  set (d0 := dec_fill 0 (map (fun bc => (fst bc - 128, snd bc)) table)) in *.
  set (dec := d0 ++ repeat None (128 - length d0)) in *.
  set (enc := sort pair_leb (single_byte_enc empty table)) in *.
  destruct (HD _ _ eq_refl) as [D1 D2]. specialize (HE _ _ eq_refl).
  assert (Sd : Forall (fun o => match o with Some c => scalar c | None => True end) dec).
  { apply Forall_forall. intros [c|] Hc; [|exact I]. apply in_app_or in Hc. destruct Hc as [Hc|Hc]; [|apply repeat_spec in Hc; discriminate].
    apply dec_fill_values in Hc. destruct Hc as [p Hp]. apply in_map_iff in Hp. destruct Hp as ([b c'] & E & Hb). cbn [fst snd] in E.
    assert (c' = c) by congruence. subst c'. apply Hsub in Hb. rewrite Hin in Hb. destruct Hb as [Hb _]. apply HR in Hb. apply Hb. }
  assert (Se : Forall (fun e => scalar (fst e) /\ snd e < 256) enc).
  { apply Forall_forall. intros [c b] He. apply HE in He. destruct He as [Hb _]. apply HR in Hb. cbn [fst snd]. split; apply Hb. }
  exists (ascii_ext_text dec enc), (map written dec), enc. rewrite py_encode_text by apply text_ascii_ext.
  split; [reflexivity|]. split; [apply text_ascii_ext|]. split.
  { apply ascii_ext_text_tokens; [rewrite map_length in D1; exact D1|exact Sd|]. eapply Forall_impl; [|exact Se]. cbv beta. intros e H. split; [apply H|]. destruct H as [_ H]. lia. }
  split; [exact D1|]. split; [exact D2|]. split; [exact HE|].
  split; [intros Hd; exact (HS _ _ Hd eq_refl)|]. split; [|exact Se].
  apply Forall_map. eapply Forall_impl; [|exact Sd]. intros [c|] H; [exact H|]. cbn. unfold scalar. lia.
Qed.

(* for example *)
Example script_example : big5_script (contents ["# Identifier: example"; ""; "1 0x4E8C"; "0 0x4E00"; "3 0x4E8C"]%line) = Some (contents [
  "// This file is auto-generated.  Please see `encoding_tables/whatwg/`";
  "// from the root directory for the files that generate this.";
  "";
  "const DECODE_TABLE: [char; 4] = [";
  "    '\u{4E00}','\u{4E8C}','�','\u{4E8C}',";
  "];";
  "";
  "const ENCODE_TABLE: [(char, [u8; 2]); 2] = [";
  "    ('\u{4E00}', [0x81, 0x40]), ('\u{4E8C}', [0x81, 0x41]), ";
  "];"]%line).
Proof. vm_compute. reflexivity. Qed.

(* the text determines the tokens, so the tables in a source text are unique *)
Theorem C55_tokens_unique : forall src ts ts', Lexes src ts -> Lexes src ts' -> ts = ts'.
Proof. intros src ts ts' H H'. exact (Lexes_fun src ts H ts' H'). Qed.

(* the hypotheses of C54 and C55 can be met for every table: write one line per pair *)
Theorem C54_every_table_has_a_file : forall pairs,
  (exists cs, text cs /\ FileLines IndexLine cs pairs) /\ (exists cs, text cs /\ FileLines MappingLine cs pairs).
Proof.
  intros pairs. assert (N10 : forall n, exists s, Numeral 10 s n /\ Forall (fun c => 48 <= c <= 122) s).
  { intros n. exists (py_format 10 n). destruct (py_format_ok 10 n ltac:(lia)) as [(D1 & D2 & D3) _]. split.
    - rewrite <- D3 at 2. apply digits_Numeral; [lia|exact D1|exact D2].
    - eapply Forall_impl; [|exact D2]. intros c Hc. apply is_digit_Digit, Digit_char in Hc; lia. }
  assert (N16 : forall n, exists s, Hex s n /\ Forall (fun c => 48 <= c <= 122) s).
  { intros n. exists (48 :: 120 :: py_format 16 n). destruct (py_format_ok 16 n ltac:(lia)) as [(D1 & D2 & D3) _]. split.
    - exists (py_format 16 n). split; [reflexivity|]. rewrite <- D3 at 2. apply digits_Numeral; [lia|exact D1|exact D2].
    - constructor; [lia|]. constructor; [lia|]. eapply Forall_impl; [|exact D2]. intros c Hc. apply is_digit_Digit, Digit_char in Hc; lia. }
  assert (B : blanks [32]) by (unfold blanks, white; repeat constructor; cbn [In]; tauto).
  assert (G : forall M : list N -> option (N * N) -> Prop,
    (forall p c, exists l, M l (Some (p, c)) /\ Forall (fun c => 32 <= c <= 122) l) ->
    exists cs, text cs /\ FileLines M cs pairs).
  { intros M HM. induction pairs as [|[p c] pairs (cs & T & F)]; [exists []; split; constructor|].
    destruct (HM p c) as (l & Hl & Hc). exists (l ++ [10] ++ cs). rewrite Forall_forall in Hc. split.
    - apply Forall_app. split; [|constructor; [left; lia|exact T]]. apply Forall_forall. intros x Hx. apply Hc in Hx. left. lia.
    - apply (File_line M l (Some (p, c)) [10] cs pairs); auto; [intros Hx; apply Hc in Hx; lia..|left; reflexivity]. }
  assert (W : forall f, Forall (fun c => 48 <= c <= 122) f -> Forall (fun c => 32 <= c <= 122) f).
  { intros f. apply Forall_impl. intros c Hc. lia. }
  split; apply G; intros p c; destruct (N16 c) as (f2 & H2 & C2).
  - destruct (N10 p) as (f1 & H1 & C1). exists ([] ++ f1 ++ [32] ++ f2 ++ []). split.
    + apply Index_entry; auto; [constructor|discriminate|left; reflexivity].
    + rewrite app_nil_r. cbn [app]. apply Forall_app. split; [auto|]. constructor; [lia|auto].
  - destruct (N16 p) as (f1 & H1 & C1). exists ([] ++ f1 ++ [32] ++ f2 ++ []). split.
    + apply Mapping_entry; auto; [constructor|discriminate|left; reflexivity].
    + rewrite app_nil_r. cbn [app]. apply Forall_app. split; [auto|]. constructor; [lia|auto].
Qed.

(** ** C56: the files in the repository *)

Lemma big5_index_file : match read_lines parse_index index_big5_txt with Some t => same_pairs t big5_index | None => false end = true.
Proof. vm_compute. reflexivity. Qed.
Lemma big5_tables_file : same (py_encode (tables_text (map undef big5_decode_table) big5_encode_table)) (contents big5_inc) = true.
Proof. vm_compute. reflexivity. Qed.
Lemma jis0208_index_file : match read_lines parse_index index_jis0208_txt with Some t => same_pairs t jis0208_index | None => false end = true.
Proof. vm_compute. reflexivity. Qed.
Lemma sjis_tables_file : same (py_encode (tables_text (map undef sjis_decode_table) sjis_encode_table)) (contents shiftjis_inc) = true.
Proof. vm_compute. reflexivity. Qed.
Lemma module_files : forallb module_files_ok all_modules = true.
Proof. vm_compute. reflexivity. Qed.

(* what the two WHATWG scripts have in common *)
Lemma whatwg_files index enc dec_table enc_table inc :
  proper index -> ~ In 0xFFFD (map snd index) -> (forall p c, In (p, c) index -> scalar c) ->
  map written (dec_fill 0 (sort pair_leb index)) = dec_table -> enc = enc_table ->
  Forall (fun e => scalar (fst e) /\ fst (snd e) < 0x1000000 /\ snd (snd e) < 0x1000000) enc_table ->
  same (py_encode (tables_text (map undef dec_table) enc_table)) (contents inc) = true ->
  Some (py_encode (tables_text (dec_fill 0 (sort pair_leb index)) enc)) = Some (contents inc) /\
  (exists src, contents inc = utf8 src /\ text src /\ Lexes src (whatwg_tokens dec_table enc_table)).
Proof.
  intros HP Hno Hs <- -> He H. apply same_ok in H. destruct (sort_index index HP) as [_ Hin]. set (t := sort pair_leb index) in *. clearbody t.
  assert (V : forall c, In (Some c) (dec_fill 0 t) -> In c (map snd index) /\ scalar c).
  { intros c Hc. apply dec_fill_values in Hc. destruct Hc as [p Hp]. apply Hin in Hp. split; [|exact (Hs p c Hp)].
    apply in_map_iff. exists (p, c). split; [reflexivity|exact Hp]. }
  rewrite undef_written in H by (intros Hc; apply V in Hc; apply Hno, Hc).
  split; [rewrite <- H; reflexivity|]. exists (tables_text (dec_fill 0 t) enc_table). rewrite <- H, py_encode_text by apply text_tables.
  split; [reflexivity|]. split; [apply text_tables|]. apply tables_text_tokens; [|exact He].
  apply Forall_forall. intros [c|] Hc; [|exact I]. apply V in Hc. apply Hc.
Qed.

Lemma whatwg_scalars : scalar_pairs big5_index && scalar_entries big5_encode_table && scalar_pairs jis0208_index && scalar_entries sjis_encode_table = true.
Proof. vm_compute. reflexivity. Qed.

(* the index file says what the specification of the encoding takes as the index; running the script on it gives the file of tables
   in the repository, byte for byte; and that file is Rust source that defines the tables of the model *)
Theorem C56_big5_files :
  (exists cs, contents index_big5_txt = utf8 cs /\ text cs /\ FileLines IndexLine cs big5_index) /\
  big5_script (contents index_big5_txt) = Some (contents big5_inc) /\
  (exists src, contents big5_inc = utf8 src /\ text src /\ Lexes src (whatwg_tokens big5_decode_table big5_encode_table)).
Proof.
  pose proof (read_checked IndexLine parse_index index_big5_txt big5_index parse_index_ok big5_index_file) as R. split; [exact R|].
  destruct R as (cs & E & T & F). unfold big5_script. rewrite E, (C54_index_files cs big5_index T F). cbv zeta. clear cs E T F.
  pose proof whatwg_scalars as S. apply andb_prop in S. destruct S as [S _]. apply andb_prop in S. destruct S as [S _]. apply andb_prop in S. destruct S as [S1 S2].
  apply scalar_pairs_ok in S1. destruct S1 as [S1 S1'].
  pose proof C44_big5_tables as G. unfold generate_big5_tables in G. cbv zeta in G.
  apply whatwg_files; [exact big5_proper|exact S1|exact S1'|congruence|congruence|apply scalar_entries_ok, S2|exact big5_tables_file].
Qed.

Theorem C56_shift_jis_files :
  (exists cs, contents index_jis0208_txt = utf8 cs /\ text cs /\ FileLines IndexLine cs jis0208_index) /\
  shiftjis_script (contents index_jis0208_txt) = Some (contents shiftjis_inc) /\
  (exists src, contents shiftjis_inc = utf8 src /\ text src /\ Lexes src (whatwg_tokens sjis_decode_table sjis_encode_table)).
Proof.
  pose proof (read_checked IndexLine parse_index index_jis0208_txt jis0208_index parse_index_ok jis0208_index_file) as R. split; [exact R|].
  destruct R as (cs & E & T & F). unfold shiftjis_script. rewrite E, (C54_index_files cs jis0208_index T F). cbv zeta. clear cs E T F.
  pose proof whatwg_scalars as S. apply andb_prop in S. destruct S as [S S2]. apply andb_prop in S. destruct S as [_ S1].
  apply scalar_pairs_ok in S1. destruct S1 as [S1 S1'].
  pose proof C44_shift_jis_tables as G. unfold generate_shiftjis_tables in G. cbv zeta in G.
  apply whatwg_files; [exact jis0208_proper|exact S1|exact S1'|congruence|congruence|apply scalar_entries_ok, S2|exact sjis_tables_file].
Qed.

(* ascii has no files *)
Theorem C56_single_byte_files : forall m, m <> ascii ->
  (exists cs, contents (mapping_txt m) = utf8 cs /\ text cs /\ FileLines MappingLine cs (charset m)) /\
  ascii_ext_script (contents (mapping_txt m)) = Some (contents (tables_inc m)) /\
  (exists src, contents (tables_inc m) = utf8 src /\ text src /\ Lexes src (single_byte_tokens (sb_decode_table m) (sb_encode_table m))).
Proof.
  intros m Hm.
  assert (H : match read_lines parse_mapping (mapping_txt m) with Some t => same_pairs t (charset m) | None => false end = true /\
    same (py_encode (ascii_ext_text (map undef (sb_decode_table m)) (sb_encode_table m))) (contents (tables_inc m)) = true /\
    (scalar_pairs (charset m) && (length (sb_decode_table m) =? 128)%nat &&
     forallb (fun e => is_scalar (fst e) && (snd e <? 256)) (sb_encode_table m)) = true).
  { pose proof (module_sweep module_files_ok module_files m) as H. unfold module_files_ok in H.
    assert (H' : match read_lines parse_mapping (mapping_txt m) with Some t => same_pairs t (charset m) | None => false end &&
      same (py_encode (ascii_ext_text (map undef (sb_decode_table m)) (sb_encode_table m))) (contents (tables_inc m)) &&
      (scalar_pairs (charset m) && (length (sb_decode_table m) =? 128)%nat &&
       forallb (fun e => is_scalar (fst e) && (snd e <? 256)) (sb_encode_table m)) = true) by (destruct m; [congruence|exact H..]).
    apply andb_prop in H'. destruct H' as [H' H3]. apply andb_prop in H'. destruct H' as [H1 H2]. split; [exact H1|]. split; [exact H2|exact H3]. }
  destruct H as (H1 & H2 & H3). apply andb_prop in H3. destruct H3 as [H3 H5]. apply andb_prop in H3. destruct H3 as [H3 H4].
  apply Nat.eqb_eq in H4. apply scalar_pairs_ok in H3. destruct H3 as [Hno Hs].
  pose proof (read_checked MappingLine parse_mapping (mapping_txt m) (charset m) parse_mapping_ok H1) as R. split; [exact R|].
  destruct R as (cs & E & T & F). unfold ascii_ext_script. rewrite E, (C54_mapping_files cs (charset m) T F). clear cs E T F H1.
  pose proof (C44_single_byte_tables m Hm) as G. unfold generate_ascii_ext_encoding in G.
  apply same_ok in H2. set (inc := contents (tables_inc m)) in *. clearbody inc.
  assert (Hin : forall x, In x (sort pair_leb (charset m)) -> In x (charset m)).
  { destruct (sort_ok pair_leb pair_leb_total pair_leb_trans (charset m)) as [_ P]. intros x. apply Permutation_in, Permutation_sym, P. }
  pose proof (check_ascii_incl 128 0 (sort pair_leb (charset m))) as HC.
  destruct (check_ascii 128 0 (sort pair_leb (charset m))) as [table|]; [|discriminate]. cbv zeta in *.
  set (d0 := dec_fill 0 (map (fun bc => (fst bc - 128, snd bc)) table)) in *. set (dec := d0 ++ repeat None (128 - length d0)) in *.
  assert (E1 : map written dec = sb_decode_table m) by congruence. assert (E2 : sort pair_leb (single_byte_enc empty table) = sb_encode_table m) by congruence.
  clear G. rewrite <- E1 in *. rewrite E2. set (enc := sb_encode_table m) in *. clearbody enc.
  assert (V : forall c, In (Some c) dec -> In c (map snd (charset m)) /\ scalar c).
  { intros c Hc. apply in_app_or in Hc. destruct Hc as [Hc|Hc]; [|apply repeat_spec in Hc; discriminate].
    apply dec_fill_values in Hc. destruct Hc as [p Hp]. apply in_map_iff in Hp. destruct Hp as ([b c'] & E & Hb). cbn [fst snd] in E.
    assert (c' = c) by congruence. subst c'. apply (HC table eq_refl), Hin in Hb. split; [|exact (Hs b c Hb)].
    apply in_map_iff. exists (b, c). split; [reflexivity|exact Hb]. }
  rewrite undef_written in H2 by (intros Hc; apply V in Hc; apply Hno, Hc). rewrite map_length in H4.
  split; [rewrite H2; reflexivity|]. exists (ascii_ext_text dec enc). rewrite <- H2, py_encode_text by apply text_ascii_ext.
  split; [reflexivity|]. split; [apply text_ascii_ext|]. apply ascii_ext_text_tokens; [exact H4| |].
  - apply Forall_forall. intros [c|] Hc; [|exact I]. apply V in Hc. apply Hc.
  - rewrite forallb_forall in H5. apply Forall_forall. intros e He. apply H5 in He. unfold is_scalar in He. unfold scalar. lia.
Qed.

Definition script_theorems := (C54_index_files, C54_mapping_files, C54_every_table_has_a_file, C55_big5_script, C55_shift_jis_script,
  C55_single_byte_script, C55_tokens_unique, C56_big5_files, C56_shift_jis_files, C56_single_byte_files).
Print Assumptions script_theorems.
