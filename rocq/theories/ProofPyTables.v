(* generate_big5_tables and generate_shiftjis_tables. *)
From Coq Require Import List NArith ZArith Bool String Lia.
From Verif Require Import Prelude RustCore FileText ModelGen ModelScripts ModelFiles PySyntax PyEval ProofGen ScriptAst ProofPy ProofPyLoad Tac.
Import ListNotations.
Local Open Scope string_scope.
Local Open Scope list_scope.

(** ** Writing *)

(* w' is w with bs written to the end of a file *)
Definition grows (p : path) (bs : list N) (w w' : world) : Prop :=
  (exists old, disk w p = Some old /\ disk w' p = Some (old ++ bs)) /\ (forall q, q <> p -> disk w' q = disk w q) /\
  reads w' = reads w /\ writes w' = writes w.
Definition has_file (p : path) (w : world) : Prop := exists old, disk w p = Some old.
Lemma grows_nil p w : has_file p w -> grows p [] w w.
Proof. intros [old H]. split; [exists old; rewrite app_nil_r; split; exact H|repeat split]. Qed.
Lemma grows_app p a b w w' w'' : grows p a w w' -> grows p b w' w'' -> grows p (a ++ b) w w''.
Proof.
  intros ((o & A1 & A2) & A3 & A4 & A5) ((o' & B1 & B2) & B3 & B4 & B5). rewrite A2 in B1. injection B1 as <-.
  split; [exists o; rewrite app_assoc; split; assumption|]. split; [|split; congruence]. intros q Hq. rewrite B3, A3 by exact Hq. reflexivity.
Qed.
Lemma grows_has p a w w' : grows p a w w' -> has_file p w'.
Proof. intros ((o & _ & A) & _). exists (o ++ a). exact A. Qed.
Lemma grows_append p bs w : has_file p w -> grows p bs w (append p bs w).
Proof.
  intros [old H]. unfold append. rewrite H. split; [exists old; split; [exact H|apply write_same]|]. cbn [disk reads writes].
  split; [|split; reflexivity]. intros q Hq. apply write_other. congruence.
Qed.
Lemma has_append p q bs w : has_file q w -> has_file q (append p bs w).
Proof.
  intros [old H]. unfold append, has_file. cbn [disk]. unfold write. destruct (list_eq_dec string_dec p q); eexists; [reflexivity|exact H].
Qed.

Lemma encodable_app a b : encodable (a ++ b) = encodable a && encodable b.
Proof. apply forallb_app. Qed.
Lemma py_encode_app a b : py_encode (a ++ b) = py_encode a ++ py_encode b.
Proof. apply flat_map_app. Qed.
Lemma encodable_small l : Forall (fun c => c < 128)%N l -> encodable l = true.
Proof. intros H. unfold encodable. apply forallb_forall. intros c Hc. rewrite Forall_forall in H. specialize (H c Hc). lia. Qed.
Lemma format_small base n : (0 < base <= 16)%N -> Forall (fun c => c < 128)%N (py_format base n).
Proof.
  intros Hb. unfold py_format. generalize (S (N.size_nat n)) as k. intros k. assert (G : Forall (fun c => c < 128)%N []) by constructor.
  revert n G. generalize (@nil N). induction k as [|k IH]; intros acc n G; [exact G|]. cbn [py_format_from].
  assert (C : forall d, (d < 16)%N -> (py_char d < 128)%N) by (intros d D; unfold py_char; destruct (d <? 10)%N eqn:E; lia).
  destruct (n <? base)%N eqn:E; [constructor; [apply C; lia|exact G]|]. apply IH. constructor; [apply C; lia|exact G].
Qed.
Lemma hex_small k n : encodable (py_hex k n) = true.
Proof.
  unfold py_hex. rewrite encodable_app, (encodable_small (py_format 16 n)) by (apply format_small; lia). rewrite andb_true_r.
  apply encodable_small, Forall_forall. intros c H. apply repeat_spec in H. subst c. lia.
Qed.
Lemma dec_small n : encodable (py_dec n) = true.
Proof. apply encodable_small, format_small. lia. Qed.

(** ** Formats *)

Ltac fmt := intros; cbn [format until_brace format_field option_map vint py_digit Z.to_N tl N.eqb Pos.eqb List.length app];
  repeat match goal with |- context [(Z.of_N ?c <? 0)%Z] => replace (Z.of_N c <? 0)%Z with false by lia end; rewrite ?N2Z.id;
  cbn -[py_hex py_dec app]; reflexivity.
Definition dec_template : list N := Eval vm_compute in str "'\u{{{:04X}}}',".
Lemma fmt_dec c : format (S (List.length dec_template)) dec_template [vint c] = Some (str "'\u{" ++ py_hex 4 c ++ str "}',").
Proof. unfold dec_template. fmt. Qed.
Definition enc_template : list N := Eval vm_compute in str "('\u{{{:X}}}', [0x{:X}, 0x{:X}]), ".
Lemma fmt_enc a b c : format (S (List.length enc_template)) enc_template [vint a; vint b; vint c] = Some (encode_item (a, (b, c))).
Proof. unfold enc_template, encode_item. cbn [fst snd]. fmt. Qed.
Definition byte_template : list N := Eval vm_compute in str "('\u{{{:04X}}}', 0x{:02X}), ".
Lemma fmt_byte a b : format (S (List.length byte_template)) byte_template [vint a; vint b] = Some (encode_byte_item (a, b)).
Proof. unfold byte_template, encode_byte_item. cbn [fst snd]. fmt. Qed.
Definition dec_head_template : list N := Eval vm_compute in str "const DECODE_TABLE: [char; {}] = [".
Lemma fmt_dec_head n : format (S (List.length dec_head_template)) dec_head_template [vint n] =
  Some (str "const DECODE_TABLE: [char; " ++ py_dec n ++ str "] = [").
Proof. unfold dec_head_template. fmt. Qed.
Definition enc_head_template : list N := Eval vm_compute in str "const ENCODE_TABLE: [(char, [u8; 2]); {}] = [".
Lemma fmt_enc_head n : format (S (List.length enc_head_template)) enc_head_template [vint n] =
  Some (str "const ENCODE_TABLE: [(char, [u8; 2]); " ++ py_dec n ++ str "] = [").
Proof. unfold enc_head_template. fmt. Qed.
Definition byte_head_template : list N := Eval vm_compute in str "const ENCODE_TABLE: [(char, u8); {}] = [".
Lemma fmt_byte_head n : format (S (List.length byte_head_template)) byte_head_template [vint n] =
  Some (str "const ENCODE_TABLE: [(char, u8); " ++ py_dec n ++ str "] = [").
Proof. unfold byte_head_template. fmt. Qed.

Lemma write_text dir call fuel x p arg cs fr s w : s x = Some (VFile p MText) -> eval dir call arg s w = Val (VStr cs) w -> encodable cs = true ->
  exec dir call fuel (SExpr (EMethod (EName x) "write" [arg])) fr s w = Next s (append p (py_encode cs) w).
Proof.
  intros Hx Ha He. rewrite exec_method by reflexivity. cbn [eval]. rewrite Hx. cbn [bind]. rewrite Ha. cbn [bind]. py. unfold utf8_encode.
  rewrite He. reflexivity.
Qed.
Lemma write_bytes dir call fuel x p arg bs fr s w : s x = Some (VFile p MBytes) -> eval dir call arg s w = Val (VBytes bs) w ->
  exec dir call fuel (SExpr (EMethod (EName x) "write" [arg])) fr s w = Next s (append p bs w).
Proof. intros Hx Ha. rewrite exec_method by reflexivity. cbn [eval]. rewrite Hx. cbn [bind]. rewrite Ha. reflexivity. Qed.
Lemma write_raise dir call fuel x p m arg fr s w : s x = Some (VFile p m) -> eval dir call arg s w = Raise w ->
  exec dir call fuel (SExpr (EMethod (EName x) "write" [arg])) fr s w = Failed w.
Proof. intros Hx Ha. rewrite exec_method by reflexivity. cbn [eval]. rewrite Hx. cbn [bind]. rewrite Ha. reflexivity. Qed.

Section Loops.
  Variable dir : path.
  Variable call : string -> option (list value -> world -> res value).
  Variable fuel : nat.

  (* while c: dec_table += [None]; i += 1 *)
  Lemma fill_while c fr bound s0 w : frozen_in "dec_table" fr = false ->
    (forall s i, keeps ["dec_table"; "i"] s0 s -> s "i" = Some (VInt i) -> eval dir call c s w = Val (VBool (i <? bound)%Z) w) ->
    forall gap k i acc s, gap = Z.to_nat (bound - i) -> (gap < k)%nat -> keeps ["dec_table"; "i"] s0 s -> s "i" = Some (VInt i) ->
      s "dec_table" = Some (VList (map vopt acc)) ->
      exists s', while_loop dir call fuel c fill_step fr k s w = Next s' w /\ keeps ["dec_table"; "i"] s0 s' /\
        s' "i" = Some (VInt (Z.max i bound)) /\ s' "dec_table" = Some (VList (map vopt (acc ++ repeat None gap))).
  Proof.
    intros F Hc. induction gap as [|gap IH]; intros [|k] i acc s G K Hk Hi Hd; try (exfalso; lia); rewrite while_S, (Hc s i Hk Hi); cbn [after].
    - replace (i <? bound)%Z with false by lia. exists s. replace (Z.max i bound) with i by lia. cbn [repeat]. rewrite app_nil_r. auto.
    - replace (i <? bound)%Z with true by lia. unfold fill_step at 1.
      rewrite block_cons, (exec_aug _ _ _ _ _ _ _ _ _ (VList (map vopt acc))) by exact Hd. py. rewrite F. py.
      rewrite block_cons, (exec_aug _ _ _ _ _ _ _ _ _ (VInt i)) by exact Hi. py. rewrite block_nil.
      match goal with |- context [while_loop _ _ _ _ _ _ _ ?s1 _] => destruct (IH k (i + 1)%Z (acc ++ [None]) s1) as (s' & E & K' & I' & D') end;
        try lia.
      + apply (keeps_trans _ _ s); [exact Hk|]. intros y Hy. left. cbn [existsb] in Hy. unfold upd.
        rewrite (String.eqb_sym "i" y), (String.eqb_sym "dec_table" y). destruct (String.eqb y "dec_table"), (String.eqb y "i"); try discriminate. reflexivity.
      + reflexivity.
      + py. rewrite map_app. reflexivity.
      + exists s'. split; [exact E|]. split; [exact K'|]. split; [rewrite I'; f_equal; f_equal; lia|]. rewrite D', <- app_assoc. reflexivity.
  Qed.

  (* the largest index *)
  Definition highest (l : list (N * N)) : nat := fold_right (fun e n => Nat.max (N.to_nat (fst e)) n) 0 l.

  Lemma fill_loop fr table : frozen_in "dec_table" fr = false -> (highest table < fuel)%nat -> forall i acc s w,
    s "i" = Some (vint i) -> s "dec_table" = Some (VList (map vopt acc)) ->
    exists s', for_loop dir call fuel (TTuple ["index"; "codepoint"]) fill_body fr (map vpair table) s w = Next s' w /\
      s' "dec_table" = Some (VList (map vopt (acc ++ dec_fill i table))).
  Proof.
    intros F. induction table as [|[x c] table IH]; intros H i acc s w Hi Hd.
    - exists s. cbn [dec_fill]. rewrite app_nil_r. split; [reflexivity|exact Hd].
    - change (highest ((x, c) :: table)) with (Nat.max (N.to_nat x) (highest table)) in H.
      cbn [map]. rewrite for_cons. unfold vpair at 1. py. unfold fill_body at 1. rewrite block_cons, exec_while.
      set (s0 := upd "codepoint" _ _).
      destruct (fill_while (ECmp Lt (EName "i") (EName "index")) fr (Z.of_N x) s0 w F) with (gap := Z.to_nat (Z.of_N x - Z.of_N i)) (k := fuel) (i := Z.of_N i) (acc := acc) (s := s0)
        as (s1 & E1 & K1 & I1 & D1); try reflexivity; try lia; try assumption.
      { intros s' j K J. py. rewrite J. py. rewrite (keeps_get _ _ _ "index" (VInt (Z.of_N x)) K) by reflexivity. py. reflexivity. }
      { apply keeps_refl. }
      unfold fill_step in E1. rewrite E1. py.
      rewrite block_cons, (exec_aug _ _ _ _ _ _ _ _ _ _ D1). py.
      rewrite (keeps_get _ _ _ "codepoint" (VInt (Z.of_N c)) K1) by reflexivity. py. rewrite F. py.
      rewrite block_cons, (exec_aug _ _ _ _ _ _ _ _ _ (VInt (Z.max (Z.of_N i) (Z.of_N x)))) by exact I1. py. rewrite block_nil.
      match goal with |- context [for_loop _ _ _ _ _ _ _ ?s2 _] => destruct (IH ltac:(lia) (N.max i x + 1)%N (acc ++ repeat None (N.to_nat (x - i)) ++ [Some c]) s2 w) as (s' & E & D') end.
      + py. unfold vint. f_equal. f_equal. lia.
      + py. rewrite app_assoc, (map_app _ (acc ++ _)). cbn [map vopt vint]. replace (N.to_nat (x - i)) with (Z.to_nat (Z.of_N x - Z.of_N i)) by lia. reflexivity.
      + exists s'. split; [exact E|]. rewrite D'. cbn [dec_fill]. rewrite <- !app_assoc. reflexivity.
  Qed.

  (* if i % k == 0: out_file.write("\n    ") *)
  Definition new_line (k : N) : stmt :=
    SIf (ECmp Eq (EBin Mod (EName "i") (EInt k)) (EInt 0)) [SExpr (EMethod (EName "out_file") "write" [EStr (10%N :: str "    ")])] [].
  Lemma new_line_ok k i p fr s w : (0 < k)%N -> s "i" = Some (vint i) -> s "out_file" = Some (VFile p MText) -> has_file p w ->
    exists w', exec dir call fuel (new_line k) fr s w = Next s w' /\ grows p (py_encode (if i mod k =? 0 then 10 :: str "    " else [])%N) w w'.
  Proof.
    intros Hk Hi Ho Hw. unfold new_line. rewrite exec_if. cbn [eval]. rewrite Hi. cbn [bind binary vint]. replace (Z.of_N k =? 0)%Z with false by lia.
    cbn [bind compare after]. change (Z.of_N 0) with 0%Z. replace (Z.of_N i mod Z.of_N k =? 0)%Z with (i mod k =? 0)%N by (rewrite <- N2Z.inj_mod; lia).
    destruct (i mod k =? 0)%N.
    - rewrite block_cons, (write_text _ _ _ _ p _ (10%N :: str "    ") _ _ _ Ho) by reflexivity. cbn [seq_]. rewrite block_nil.
      eexists. split; [reflexivity|]. apply grows_append. exact Hw.
    - rewrite block_nil. exists w. split; [reflexivity|]. apply grows_nil. exact Hw.
  Qed.

  Lemma dec_loop fr p items : forall i s w, s "out_file" = Some (VFile p MText) -> has_file p w ->
    exists s' w', for_loop dir call fuel (TTuple ["i"; "c"]) dec_body fr (enumerate (Z.of_N i) (map vopt items)) s w = Next s' w' /\
      grows p (py_encode (write_items 8 i decode_item items)) w w'.
  Proof.
    induction items as [|c items IH]; intros i s w Ho Hw.
    - exists s, w. split; [reflexivity|]. apply grows_nil. exact Hw.
    - cbn [map enumerate write_items]. rewrite for_cons. py_step. set (s1 := upd "c" _ _). assert (Ho1 : s1 "out_file" = Some (VFile p MText)) by exact Ho.
      change dec_body with (new_line 8 :: tl dec_body) at 1. rewrite block_cons.
      destruct (new_line_ok 8 i p fr s1 w eq_refl eq_refl Ho Hw) as (w1 & E1 & G1). rewrite E1. cbn [seq_]. unfold dec_body at 1. cbn [tl].
      assert (D : exists w2, block dir call fuel (tl dec_body) fr s1 w1 = Next s1 w2 /\ grows p (py_encode (decode_item c)) w1 w2).
      { unfold dec_body. cbn [tl]. rewrite block_cons, exec_if. py. change (s1 "c") with (Some (vopt c)). destruct c as [c|]; cbn [vopt]; py.
        - rewrite block_cons, (write_text _ _ _ _ p _ (decode_item (Some c)) _ _ _ Ho1).
          + py. rewrite !block_nil. py. rewrite block_nil. eexists. split; [reflexivity|]. apply grows_append. exact (grows_has _ _ _ _ G1).
          + cbn [eval]. py. change (s1 "c") with (Some (vint c)). py. pose proof (fmt_dec c) as F. unfold dec_template in F. rewrite F. reflexivity.
          + unfold decode_item. rewrite !encodable_app, hex_small. reflexivity.
        - rewrite block_cons, (write_text _ _ _ _ p _ (decode_item None) _ _ _ Ho1) by reflexivity.
          py. rewrite !block_nil. py. rewrite block_nil. eexists. split; [reflexivity|]. apply grows_append. exact (grows_has _ _ _ _ G1). }
      destruct D as (w2 & E2 & G2). unfold dec_body in E2 at 1. cbn [tl] in E2. rewrite E2.
      replace (Z.of_N i + 1)%Z with (Z.of_N (i + 1)) by lia.
      destruct (IH (i + 1)%N s1 w2 Ho (grows_has _ _ _ _ G2)) as (s3 & w3 & E3 & G3). exists s3, w3. split; [exact E3|].
      rewrite !py_encode_app. eapply grows_app; [exact G1|]. eapply grows_app; eassumption.
  Qed.

  Lemma enc_loop fr p items : forall i s w, s "out_file" = Some (VFile p MText) -> has_file p w ->
    exists s' w', for_loop dir call fuel (TTuple ["i"; "pair"]) enc_body fr (enumerate (Z.of_N i) (map ventry items)) s w = Next s' w' /\
      grows p (py_encode (write_items 3 i encode_item items)) w w'.
  Proof.
    induction items as [|[a [b c]] items IH]; intros i s w Ho Hw.
    - exists s, w. split; [reflexivity|]. apply grows_nil. exact Hw.
    - cbn [map enumerate write_items]. rewrite for_cons. py_step. set (s1 := upd "pair" _ _). assert (Ho1 : s1 "out_file" = Some (VFile p MText)) by exact Ho.
      change enc_body with (new_line 3 :: tl enc_body) at 1. rewrite block_cons.
      destruct (new_line_ok 3 i p fr s1 w eq_refl eq_refl Ho Hw) as (w1 & E1 & G1). rewrite E1. cbn [seq_]. unfold enc_body at 1. cbn [tl].
      rewrite block_cons, (write_text _ _ _ _ p _ (encode_item (a, (b, c))) _ _ _ Ho1).
      + py. rewrite block_nil. replace (Z.of_N i + 1)%Z with (Z.of_N (i + 1)) by lia.
        pose proof (grows_append p (py_encode (encode_item (a, (b, c)))) w1 (grows_has _ _ _ _ G1)) as G2.
        destruct (IH (i + 1)%N s1 _ Ho (grows_has _ _ _ _ G2)) as (s3 & w3 & E3 & G3). exists s3, w3. split; [exact E3|].
        rewrite !py_encode_app. eapply grows_app; [exact G1|]. eapply grows_app; eassumption.
      + exact (f_equal (fun o => match o with Some t => Val (VStr t) w1 | None => Wrong end) (fmt_enc a b c)).
      + unfold encode_item. cbn [fst snd]. rewrite !encodable_app, !hex_small. reflexivity.
  Qed.
End Loops.
