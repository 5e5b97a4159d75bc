(* The file-level part of the table generators: reading and writing. *)
From Coq Require Import List NArith Arith Bool Lia ZArith.
From Verif Require Import Tac Encodings Spec SpecFiles Prelude RustCore ProofUtf8 FileText ModelGen ModelScripts.
Import ListNotations.
Local Open Scope N_scope.

(** ** Reading *)

Lemma rev'_rev {A} (l : list A) : rev' l = rev l.
Proof. unfold rev'. symmetry. apply rev_alt. Qed.

Lemma offsets_snd cs : forall off, map snd (offsets off cs) = cs.
Proof. induction cs as [|c cs IH]; intros off; [reflexivity|]. cbn [offsets map snd]. rewrite IH. reflexivity. Qed.

Lemma py_decode_text cs : text cs -> py_decode (utf8 cs) = Some cs.
Proof.
  intros H. unfold py_decode, char_indices. rewrite valid_up_to_text, Nat.eqb_refl, char_indices_offsets by exact H.
  rewrite offsets_snd. reflexivity.
Qed.

Lemma isspace_white c : py_isspace c = true <-> In c white.
Proof. unfold py_isspace, between, white. cbn [In]. lia. Qed.
Lemma not_white c : ~ In c white -> py_isspace c = false.
Proof. intros H. destruct (py_isspace c) eqn:E; [|reflexivity]. apply isspace_white in E. contradiction. Qed.

Lemma py_newlines_line l eol rest : ~ In 13 l -> LineEnd eol rest ->
  py_newlines (l ++ eol ++ rest) = l ++ 10 :: py_newlines rest.
Proof.
  intros H He. induction l as [|c l IH].
  - destruct He as [-> | [-> | [-> Hr]]]; [reflexivity|reflexivity|]. destruct rest as [|d r]; [reflexivity|].
    cbn [app py_newlines]. change (13 =? 13) with true. cbn iota. destruct (N.eqb_spec d 10) as [->|]; [|reflexivity]. destruct (Hr r eq_refl).
  - cbn [app py_newlines]. assert (c <> 13) by (intros ->; apply H; left; reflexivity). bfalse (c =? 13). rewrite IH; [reflexivity|]. intros X. apply H. right. exact X.
Qed.

Lemma py_lines_from_line l rest : ~ In 10 l -> forall acc,
  py_lines_from acc (l ++ 10 :: rest) = (rev acc ++ l) :: py_lines_from [] rest.
Proof.
  induction l as [|c l IH]; intros H acc.
  - cbn [app py_lines_from]. change (10 =? 10) with true. cbn iota. rewrite rev'_rev, app_nil_r. reflexivity.
  - cbn [app py_lines_from]. assert (c <> 10) by (intros ->; apply H; left; reflexivity). bfalse (c =? 10). rewrite IH; [|intros X; apply H; right; exact X].
    cbn [rev]. rewrite <- app_assoc. reflexivity.
Qed.

Lemma py_newlines_last l : ~ In 13 l -> py_newlines l = l.
Proof.
  induction l as [|c l IH]; intros H; [reflexivity|]. cbn [py_newlines]. assert (c <> 13) by (intros ->; apply H; left; reflexivity).
  bfalse (c =? 13). rewrite IH; [reflexivity|]. intros X. apply H. right. exact X.
Qed.
Lemma py_lines_from_last l : ~ In 10 l -> forall acc, rev acc ++ l <> [] -> py_lines_from acc l = [rev acc ++ l].
Proof.
  induction l as [|c l IH]; intros H acc N.
  - cbn [py_lines_from]. rewrite app_nil_r in *. rewrite rev'_rev. destruct acc; [destruct (N eq_refl)|reflexivity].
  - cbn [py_lines_from]. assert (c <> 10) by (intros ->; apply H; left; reflexivity). bfalse (c =? 10).
    rewrite IH; [cbn [rev]; rewrite <- app_assoc; reflexivity|intros X; apply H; right; exact X|].
    cbn [rev]. rewrite <- app_assoc. destruct (rev acc); discriminate.
Qed.

(* a parser of lines that follows the format reads files of that format *)
Lemma load_file_lines (M : list N -> option (N * N) -> Prop) parse : (forall l m, M l m -> parse l = Some m) -> forall cs t, text cs -> FileLines M cs t ->
  load_file parse (utf8 cs) = Some t.
Proof.
  intros HP cs t Ht H. unfold load_file. rewrite py_decode_text by exact Ht. clear Ht. unfold py_lines.
  induction H as [|l m eol rest t Hm H10 H13 He _ IH|l m Hm H10 H13 Hn]; [reflexivity| |].
  2: { rewrite py_newlines_last, (py_lines_from_last l H10 []) by assumption. cbn [rev app load_lines]. rewrite (HP l m Hm). destruct m; reflexivity. }
  rewrite py_newlines_line, py_lines_from_line by assumption. cbn [rev app load_lines]. rewrite (HP l m Hm), IH.
  destruct m; reflexivity.
Qed.

Lemma split_blanks s x : blanks s -> py_split_from [] (s ++ x) = py_split_from [] x.
Proof.
  induction 1 as [|c s Hc _ IH]; [reflexivity|]. cbn [app py_split_from]. rewrite IH, (proj2 (isspace_white c) Hc). reflexivity.
Qed.
Lemma split_word f x : Forall (fun c => py_isspace c = false) f -> forall w, py_split_from w (f ++ x) = py_split_from (rev f ++ w) x.
Proof.
  induction 1 as [|c f Hc _ IH]; intros w; [reflexivity|]. cbn [app py_split_from rev]. rewrite Hc, IH, <- app_assoc. reflexivity.
Qed.
Lemma split_end w x : w <> [] -> rest_of_line x -> py_split_from w x = rev w :: py_split_from [] x.
Proof.
  intros Hw [->|(c & r & -> & Hc)]; destruct w as [|a w]; try congruence.
  - cbn [py_split_from]. rewrite rev'_rev. reflexivity.
  - cbn [py_split_from]. assert (E : py_isspace c = true) by (apply isspace_white, Hc). rewrite E.
    rewrite rev'_rev. reflexivity.
Qed.
Lemma split_field f x : f <> [] -> Forall (fun c => py_isspace c = false) f -> rest_of_line x ->
  py_split_from [] (f ++ x) = f :: py_split_from [] x.
Proof.
  intros Hn Hf Hx. rewrite split_word, app_nil_r by exact Hf. rewrite split_end; [rewrite rev_involutive; reflexivity| |exact Hx].
  intros E. apply Hn. rewrite <- (rev_involutive f), E. reflexivity.
Qed.
(* a word that has begun *)
Lemma split_begun x : forall w, w <> [] -> exists q ps, py_split_from w x = (rev w ++ q) :: ps.
Proof.
  induction x as [|c x IH]; intros w Hw; destruct w as [|a w]; try congruence.
  - exists [], []. cbn [py_split_from]. rewrite rev'_rev, app_nil_r. reflexivity.
  - cbn [py_split_from]. destruct (py_isspace c).
    + exists [], (py_split_from [] x). rewrite rev'_rev, app_nil_r. reflexivity.
    + destruct (IH (c :: a :: w) ltac:(discriminate)) as (q & ps & E). exists (c :: q), ps. rewrite E. cbn [rev].
      rewrite <- !app_assoc. reflexivity.
Qed.
Lemma split_hash x : exists q ps, py_split_from [] (35 :: x) = (35 :: q) :: ps.
Proof. cbn [py_split_from]. change (py_isspace 35) with false. cbn iota. apply (split_begun x [35]). discriminate. Qed.
Lemma blanks_rest s x : blanks s -> s <> [] -> rest_of_line (s ++ x).
Proof. intros [|c r Hc Hr] Hn; [congruence|]. right. exists c, (r ++ x). split; [reflexivity|exact Hc]. Qed.

(* a line of one word *)
Lemma split_word_line s1 w s2 : blanks s1 -> Forall (fun c => ~ In c white) w -> blanks s2 -> py_split_from [] (s1 ++ w ++ s2) = match w with [] => [] | _ => [w] end.
Proof.
  intros H1 Hw H2. rewrite split_blanks by exact H1. destruct w as [|a w]; cbn [app].
  - rewrite <- (app_nil_r s2), split_blanks by exact H2. reflexivity.
  - change (a :: w ++ s2) with ((a :: w) ++ s2). rewrite split_field.
    + rewrite <- (app_nil_r s2), split_blanks by exact H2. reflexivity.
    + discriminate.
    + eapply Forall_impl; [|exact Hw]. exact not_white.
    + destruct H2 as [|c r Hc]; [left; reflexivity|]. right. exists c, r. split; [reflexivity|exact Hc].
Qed.

Lemma Digit_char base c d : Digit base c d -> 48 <= c <= 57 \/ 65 <= c <= 70 \/ 97 <= c <= 102.
Proof. unfold Digit. lia. Qed.
Lemma Digit_py base c d : Digit base c d -> py_digit c = Some d /\ d < base.
Proof.
  intros H. split; [|apply H]. destruct H as [_ H]. unfold py_digit, between.
  destruct H as [[H E]|[H [E|E]]]; subst c.
  - btrue ((48 <=? 48 + d) && (48 + d <=? 57)). f_equal. lia.
  - bfalse ((48 <=? 55 + d) && (55 + d <=? 57)). btrue ((65 <=? 55 + d) && (55 + d <=? 70)). f_equal. lia.
  - bfalse ((48 <=? 87 + d) && (87 + d <=? 57)). bfalse ((65 <=? 87 + d) && (87 + d <=? 70)). btrue ((97 <=? 87 + d) && (87 + d <=? 102)). f_equal. lia.
Qed.
Lemma digit_not_space c : 48 <= c <= 57 \/ 65 <= c <= 70 \/ 97 <= c <= 102 \/ c = 120 -> py_isspace c = false.
Proof. intros H. unfold py_isspace, between. lia. Qed.

Lemma Numeral_int base s n : Numeral base s n -> forall x, py_int_from base 0 (s ++ x) = py_int_from base n x.
Proof.
  induction 1 as [c d H|s n c d _ IH H]; intros x; destruct (Digit_py _ _ _ H) as [E L].
  - cbn [app py_int_from]. rewrite E. btrue (d <? base). f_equal.
  - rewrite <- app_assoc, IH. cbn [app py_int_from]. rewrite E. btrue (d <? base). reflexivity.
Qed.
Lemma Numeral_digits base s n : Numeral base s n -> py_digits base s = Some n.
Proof.
  intros H. pose proof (Numeral_int base s n H []) as E. rewrite app_nil_r in E. unfold py_digits.
  destruct s; [|exact E]. inversion H as [|s' n' c d _ _ Es]. symmetry in Es. destruct (app_cons_not_nil s' [] c Es).
Qed.
Lemma Numeral_chars base s n : Numeral base s n -> s <> [] /\ Forall (fun c => py_isspace c = false) s.
Proof.
  induction 1 as [c d H|s n c d _ [_ IH] H].
  - split; [discriminate|]. repeat constructor. apply digit_not_space. apply Digit_char in H. lia.
  - split; [destruct s; discriminate|]. apply Forall_app. split; [exact IH|]. repeat constructor. apply digit_not_space. apply Digit_char in H. lia.
Qed.
Lemma Numeral_head base s n : Numeral base s n -> exists c r, s = c :: r /\ c <> 35.
Proof.
  induction 1 as [c d H|s n c d _ (a & r & E & Ha) H].
  - exists c, []. split; [reflexivity|]. apply Digit_char in H. lia.
  - exists a, (r ++ [c]). split; [rewrite E; reflexivity|exact Ha].
Qed.
Lemma Hex_facts f n : Hex f n -> py_int16 f = Some n /\ f <> [] /\ Forall (fun c => py_isspace c = false) f /\ py_hash f = false.
Proof.
  intros (s & -> & H). destruct (Numeral_chars _ _ _ H) as [_ H2]. split; [exact (Numeral_digits _ _ _ H)|].
  split; [discriminate|]. split; [|reflexivity].
  constructor; [reflexivity|]. constructor; [reflexivity|exact H2].
Qed.

Lemma index_line_ok l m : IndexLine l m -> index_line l = Some m.
Proof.
  intros [s Hs|s1 w s2 H1 Hw H2|s r Hs|s1 f1 p s2 f2 c r H1 Hp H2 Hn Hc Hr]; unfold index_line, py_split.
  - rewrite <- (app_nil_r s), split_blanks by exact Hs. reflexivity.
  - rewrite split_word_line by assumption. destruct w; reflexivity.
  - rewrite split_blanks by exact Hs. destruct (split_hash r) as (q & ps & E). rewrite E. destruct ps; reflexivity.
  - rewrite split_blanks by exact H1. destruct (Numeral_chars _ _ _ Hp) as [N1 S1]. destruct (Hex_facts _ _ Hc) as (Ic & N2 & S2 & _).
    rewrite split_field, split_blanks, split_field; [|assumption..|apply blanks_rest; assumption].
    destruct (Numeral_head _ _ _ Hp) as (a & q & E & Ha). assert (Eh : py_hash f1 = false) by (rewrite E; cbn; lia).
    rewrite Eh, Ic. unfold py_int. rewrite (Numeral_digits _ _ _ Hp). reflexivity.
Qed.

Lemma mapping_line_ok l m : MappingLine l m -> mapping_line l = Some m.
Proof.
  intros [s Hs|s1 w s2 H1 Hw H2|s r Hs|s1 f1 b s2 r H1 Hb H2 Hn|s1 f1 b s2 f2 c r H1 Hb H2 Hn Hc Hr]; unfold mapping_line, py_split.
  - rewrite <- (app_nil_r s), split_blanks by exact Hs. reflexivity.
  - rewrite split_word_line by assumption. destruct w; reflexivity.
  - rewrite split_blanks by exact Hs. destruct (split_hash r) as (q & ps & E). rewrite E. destruct ps; reflexivity.
  - rewrite split_blanks by exact H1. destruct (Hex_facts _ _ Hb) as (Ib & N1 & S1 & P1).
    rewrite split_field, split_blanks; [|assumption..|apply blanks_rest; assumption].
    destruct (split_hash r) as (q & ps & E). rewrite E, P1, Ib. reflexivity.
  - rewrite split_blanks by exact H1. destruct (Hex_facts _ _ Hb) as (Ib & N1 & S1 & P1). destruct (Hex_facts _ _ Hc) as (Ic & N2 & S2 & P2).
    rewrite split_field, split_blanks, split_field; [|assumption..|apply blanks_rest; assumption].
    rewrite P1, Ib, P2, Ic. reflexivity.
Qed.

(** ** Numbers as text *)

(* the text of a number: digits of the base that have this value *)
Definition digits_of (base n : N) (ds : list N) : Prop :=
  ds <> [] /\ Forall (fun c => is_digit base c = true) ds /\ value base ds = n.

Lemma py_char_digit base d : d < base -> base <= 16 -> is_digit base (py_char d) = true /\ digit_of (py_char d) = Some d.
Proof.
  intros H L. assert (E : digit_of (py_char d) = Some d).
  { unfold digit_of, py_char. destruct (N.ltb_spec d 10).
    - btrue ((48 <=? 48 + d) && (48 + d <=? 57)). f_equal. lia.
    - bfalse ((48 <=? 55 + d) && (55 + d <=? 57)). btrue ((65 <=? 55 + d) && (55 + d <=? 70)). f_equal. lia. }
  split; [|exact E]. unfold is_digit. rewrite E. lia.
Qed.

Lemma value_app base a b : value base (a ++ b) = fold_left (fun n c => n * base + match digit_of c with Some d => d | None => 0 end) b (value base a).
Proof. unfold value. apply fold_left_app. Qed.

Lemma py_format_from_ok base : 2 <= base <= 16 -> forall f n acc, n < base ^ N.of_nat f -> f <> O ->
  exists ds, py_format_from f base n acc = ds ++ acc /\ digits_of base n ds /\
    forall k, (0 < k)%nat -> n < base ^ N.of_nat k -> (length ds <= k)%nat.
Proof.
  intros Hb. induction f as [|f IH]; intros n acc Hn Hf; [congruence|]. cbn [py_format_from].
  destruct (N.ltb_spec n base) as [L|L].
  - destruct (py_char_digit base n L ltac:(lia)) as [D1 D2]. exists [py_char n]. split; [reflexivity|]. split.
    + split; [discriminate|]. split; [repeat constructor; exact D1|]. unfold value. cbn [fold_left]. rewrite D2. lia.
    + intros k Hk _. cbn. lia.
  - assert (Hd : n / base < base ^ N.of_nat f).
    { apply N.div_lt_upper_bound; [lia|]. rewrite <- N.pow_succ_r'. replace (N.succ (N.of_nat f)) with (N.of_nat (S f)) by lia. exact Hn. }
    assert (Hf' : f <> O). { intros ->. cbn in Hd. assert (n / base = 0) by lia. apply N.div_small_iff in H; lia. }
    destruct (IH (n / base) (py_char (n mod base) :: acc) Hd Hf') as (ds & E & (D1 & D2 & D3) & D4).
    pose proof (N.mod_lt n base ltac:(lia)) as Hm. destruct (py_char_digit base (n mod base) Hm ltac:(lia)) as [C1 C2].
    exists (ds ++ [py_char (n mod base)]). split; [rewrite E, <- app_assoc; reflexivity|]. split.
    + split; [destruct ds; discriminate|]. split; [apply Forall_app; split; [exact D2|repeat constructor; exact C1]|].
      rewrite value_app, D3. cbn [fold_left]. rewrite C2. pose proof (N.div_mod n base ltac:(lia)) as Q. lia.
    + intros k Hk Hlt. rewrite app_length. cbn [length]. destruct k as [|k]; [lia|]. destruct k as [|k].
      * change (N.of_nat 1) with 1 in Hlt. rewrite N.pow_1_r in Hlt. lia.
      * enough (length ds <= S k)%nat by lia. apply D4; [lia|]. apply N.div_lt_upper_bound; [lia|]. rewrite <- N.pow_succ_r'.
        replace (N.succ (N.of_nat (S k))) with (N.of_nat (S (S k))) by lia. exact Hlt.
Qed.

Lemma size_bound n : n < 2 ^ N.of_nat (N.size_nat n).
Proof.
  destruct n as [|p]; [cbn; lia|]. cbn [N.size_nat].
  assert (H : forall p, N.pos p < 2 ^ N.of_nat (Pos.size_nat p)).
  { clear p. induction p as [p IH|p IH|]; cbn [Pos.size_nat];
      [replace (N.of_nat (S (Pos.size_nat p))) with (N.succ (N.of_nat (Pos.size_nat p))) by lia; rewrite N.pow_succ_r'; lia..|reflexivity]. }
  apply H.
Qed.

Lemma py_format_ok base n : 2 <= base <= 16 -> digits_of base n (py_format base n) /\
  forall k, (0 < k)%nat -> n < base ^ N.of_nat k -> (length (py_format base n) <= k)%nat.
Proof.
  intros Hb. unfold py_format. destruct (py_format_from_ok base Hb (S (N.size_nat n)) n []) as (ds & E & D & L); [|discriminate|].
  - pose proof (size_bound n). replace (N.of_nat (S (N.size_nat n))) with (N.succ (N.of_nat (N.size_nat n))) by lia.
    rewrite N.pow_succ_r'. pose proof (N.pow_le_mono_l 2 base (N.of_nat (N.size_nat n)) ltac:(lia)). nia.
  - rewrite E, app_nil_r. split; [exact D|exact L].
Qed.

Lemma value_zeros base k s : value base (repeat 48 k ++ s) = value base s.
Proof. unfold value. induction k as [|k IH]; [reflexivity|exact IH]. Qed.

Lemma py_hex_ok w n : (w <= 6)%nat -> n < 0x1000000 ->
  digits_of 16 n (py_hex w n) /\ (1 <= length (py_hex w n) <= 6)%nat.
Proof.
  intros Hw Hn. destruct (py_format_ok 16 n ltac:(lia)) as [(D1 & D2 & D3) L]. specialize (L 6%nat ltac:(lia) Hn). unfold py_hex.
  split; [split; [|split]|].
  - intros E. apply app_eq_nil in E. apply D1, E.
  - apply Forall_app. split; [|exact D2]. apply Forall_forall. intros x Hx. apply repeat_spec in Hx. subst x. reflexivity.
  - rewrite value_zeros. exact D3.
  - rewrite app_length, repeat_length. destruct (py_format 16 n); [congruence|]. cbn [length] in *. lia.
Qed.

(** ** Tokens *)

Lemma span_all p ds c r : Forall (fun x => p x = true) ds -> p c = false -> span p (ds ++ c :: r) = (ds, c :: r).
Proof.
  intros H Hc. induction H as [|d ds Hd _ IH]; cbn [app span].
  - rewrite Hc. reflexivity.
  - rewrite Hd, IH. reflexivity.
Qed.

(* the first n steps *)
Fixpoint lex_prefix (n : nat) (s : list N) : option (list token * list N) :=
  match n with
  | O => Some ([], s)
  | S n =>
      match next_token s with
      | Some (o, r) =>
          match lex_prefix n r with
          | Some (ts, r') => Some (match o with Some t => [t] | None => [] end ++ ts, r')
          | None => None
          end
      | None => None
      end
  end.
Lemma lex_prefix_ok n : forall s ts r ts', lex_prefix n s = Some (ts, r) -> Lexes r ts' -> Lexes s (ts ++ ts').
Proof.
  induction n as [|n IH]; intros s ts r ts' H HL; cbn [lex_prefix] in H.
  - assert (ts = []) by congruence. assert (s = r) by congruence. subst. exact HL.
  - destruct (next_token s) as [[o r1]|] eqn:E; [|discriminate]. destruct (lex_prefix n r1) as [[ts1 r2]|] eqn:E2; [|discriminate].
    assert (r2 = r) by congruence. subst r2. specialize (IH r1 ts1 r ts' E2 HL).
    assert (Ets : ts = match o with Some t => [t] | None => [] end ++ ts1) by congruence. subst ts. destruct o as [t|].
    + exact (Lexes_token s t r1 (ts1 ++ ts') E IH).
    + exact (Lexes_skip s r1 (ts1 ++ ts') E IH).
Qed.

Lemma Lexes_fun s ts : Lexes s ts -> forall ts', Lexes s ts' -> ts = ts'.
Proof.
  induction 1 as [|s t r ts E H IH|s r ts E H IH]; intros ts' H'.
  - remember [] as s eqn:Es. destruct H' as [|s t r ts E H|s r ts E H]; [reflexivity|subst s; discriminate E..].
  - destruct H' as [|s t' r' ts' E' H'|s r' ts' E' H']; [discriminate E| |]; rewrite E in E'; [|discriminate E'].
    assert (t' = t) by congruence. assert (r' = r) by congruence. subst. f_equal. apply IH, H'.
  - destruct H' as [|s t' r' ts' E' H'|s r' ts' E' H']; [discriminate E| |]; rewrite E in E'; [discriminate E'|].
    assert (r' = r) by congruence. subst. apply IH, H'.
Qed.

Lemma next_unicode_escape x : next_token (39 :: 92 :: 117 :: 123 :: x) =
  let '(ds, s3) := span (is_digit 16) x in
  match s3 with
  | e :: q :: s4 =>
      if (117 =? 117) && (123 =? 123) && (e =? 125) && (q =? 39) && (1 <=? length ds)%nat && (length ds <=? 6)%nat && is_scalar (value 16 ds)
      then Some (Some (TChar (value 16 ds)), s4) else None
  | _ => None
  end.
Proof. reflexivity. Qed.
Lemma next_hex x : next_token (48 :: 120 :: x) =
  let '(ds, r'') := span (is_digit 16) x in match ds with [] => None | _ => ends (TInt (value 16 ds)) r'' end.
Proof. reflexivity. Qed.

Lemma next_hex_char n w r : (w <= 6)%nat -> scalar n ->
  next_token (39 :: 92 :: 117 :: 123 :: py_hex w n ++ 125 :: 39 :: r) = Some (Some (TChar n), r).
Proof.
  intros Hw Hs. assert (Hn : n < 0x1000000) by (unfold scalar in Hs; lia).
  destruct (py_hex_ok w n Hw Hn) as [(D1 & D2 & D3) L]. rewrite next_unicode_escape.
  rewrite span_all; [|exact D2|reflexivity]. rewrite D3.
  btrue (1 <=? length (py_hex w n))%nat. btrue (length (py_hex w n) <=? 6)%nat.
  assert (E : is_scalar n = true) by (unfold is_scalar; unfold scalar in Hs; lia). rewrite E. reflexivity.
Qed.

Lemma next_hex_int n w c r : (w <= 6)%nat -> n < 0x1000000 -> is_digit 16 c = false -> name_char c = false ->
  next_token (48 :: 120 :: py_hex w n ++ c :: r) = Some (Some (TInt n), c :: r).
Proof.
  intros Hw Hn Hc Hc'. destruct (py_hex_ok w n Hw Hn) as [(D1 & D2 & D3) _]. rewrite next_hex.
  rewrite span_all by assumption. destruct (py_hex w n) as [|d ds]; [congruence|]. rewrite D3.
  unfold ends. rewrite Hc'. reflexivity.
Qed.

Lemma is_digit10 c : is_digit 10 c = true -> 48 <= c <= 57.
Proof.
  unfold is_digit, digit_of. destruct ((48 <=? c) && (c <=? 57)) eqn:E1; [lia|].
  destruct ((65 <=? c) && (c <=? 70)) eqn:E2; [lia|]. destruct ((97 <=? c) && (c <=? 102)) eqn:E3; [lia|discriminate].
Qed.

Lemma next_dec_int n c r : is_digit 10 c = false -> name_char c = false ->
  next_token (py_dec n ++ c :: r) = Some (Some (TInt n), c :: r).
Proof.
  intros Hc Hc'. destruct (py_format_ok 10 n ltac:(lia)) as [(D1 & D2 & D3) _]. unfold py_dec.
  assert (S := span_all (is_digit 10) (py_format 10 n) c r D2 Hc).
  destruct (py_format 10 n) as [|d ds]; [congruence|]. clear D1. cbn [app] in *.
  assert (Hd : is_digit 10 d = true) by (inversion D2; assumption). pose proof (is_digit10 d Hd) as Hr.
  unfold next_token. bfalse ((d =? 32) || (d =? 10) || (d =? 13) || (d =? 9)).
  assert (E : letter d = false) by (unfold letter; lia). rewrite E, Hd. rewrite S.
  assert (F : ends (TInt (value 10 (d :: ds))) (c :: r) = Some (Some (TInt n), c :: r)) by (unfold ends; rewrite Hc', D3; reflexivity).
  destruct ds as [|d2 ds]; cbn [app] in *.
  - assert (X : (d =? 48) && (c =? 120) = false).
    { unfold name_char, letter in Hc'. destruct (N.eqb_spec c 120) as [->|]; [discriminate Hc'|]. apply andb_false_r. }
    rewrite X. exact F.
  - assert (Hd2 : is_digit 10 d2 = true) by (inversion D2 as [|? ? ? D]; inversion D; assumption). apply is_digit10 in Hd2.
    bfalse ((d =? 48) && (d2 =? 120)). exact F.
Qed.

(** ** The written files *)

Lemma lex_space c r ts : (c =? 32) || (c =? 10) || (c =? 13) || (c =? 9) = true -> Lexes r ts -> Lexes (c :: r) ts.
Proof. intros H L. apply (Lexes_skip _ r); [|exact L]. unfold next_token. rewrite H. reflexivity. Qed.
Lemma lex_decode_item o rest ts : match o with Some c => scalar c | None => True end -> Lexes rest ts ->
  Lexes (decode_item o ++ rest) (char_item (written o) ++ punct "," ++ ts).
Proof.
  intros Ho H. destruct o as [c|]; cbn [decode_item written char_item].
  - rewrite <- !app_assoc. pose proof (fun r => next_hex_char c 4 r ltac:(lia) Ho) as E. set (h := py_hex 4 c) in *. clearbody h.
    apply (Lexes_token _ _ (44 :: rest)); [exact (E (44 :: rest))|].
    apply (lex_prefix_ok 1 _ (punct ",") rest); [reflexivity|exact H].
  - apply (lex_prefix_ok 2 _ (TChar 0xFFFD :: punct ",") rest); [reflexivity|exact H].
Qed.

Lemma lex_encode_item e rest ts : scalar (fst e) -> fst (snd e) < 0x1000000 -> snd (snd e) < 0x1000000 -> Lexes rest ts ->
  Lexes (encode_item e ++ rest) (pair_item e ++ punct "," ++ ts).
Proof.
  intros Hc H1 H2 H. destruct e as [c [b1 b2]]. cbn [fst snd] in *. unfold encode_item, pair_item. cbn [fst snd]. rewrite <- !app_assoc.
  pose proof (fun r => next_hex_char c 0 r ltac:(lia) Hc) as E.
  pose proof (fun d r => next_hex_int b1 0 d r ltac:(lia) H1) as E1. pose proof (fun d r => next_hex_int b2 0 d r ltac:(lia) H2) as E2.
  set (h := py_hex 0 c) in *. set (h1 := py_hex 0 b1) in *. set (h2 := py_hex 0 b2) in *. clearbody h h1 h2. clear Hc H1 H2.
  assert (L3 : Lexes (93 :: str "), " ++ rest) (punct "])," ++ ts)) by (apply (lex_prefix_ok 4 _ (punct "]),") rest); [reflexivity|exact H]).
  assert (L2 : Lexes (44 :: str " 0x" ++ h2 ++ str "]), " ++ rest) (punct "," ++ [TInt b2] ++ punct "])," ++ ts)).
  { apply (lex_prefix_ok 2 _ (punct ",") (48 :: 120 :: h2 ++ 93 :: str "), " ++ rest)); [reflexivity|].
    apply (Lexes_token _ _ (93 :: str "), " ++ rest)); [apply E2; reflexivity|exact L3]. }
  assert (L1 : Lexes (44 :: str " [0x" ++ h1 ++ str ", 0x" ++ h2 ++ str "]), " ++ rest) (punct ",[" ++ [TInt b1] ++ punct "," ++ [TInt b2] ++ punct "])," ++ ts)).
  { apply (lex_prefix_ok 3 _ (punct ",[") (48 :: 120 :: h1 ++ 44 :: str " 0x" ++ h2 ++ str "]), " ++ rest)); [reflexivity|].
    apply (Lexes_token _ _ (44 :: str " 0x" ++ h2 ++ str "]), " ++ rest)); [apply E1; reflexivity|exact L2]. }
  apply (lex_prefix_ok 1 _ (punct "(") (39 :: 92 :: 117 :: 123 :: h ++ 125 :: 39 :: 44 :: str " [0x" ++ h1 ++ str ", 0x" ++ h2 ++ str "]), " ++ rest)); [reflexivity|].
  apply (Lexes_token _ _ (44 :: str " [0x" ++ h1 ++ str ", 0x" ++ h2 ++ str "]), " ++ rest)); [apply E|exact L1].
Qed.

Lemma lex_encode_byte_item e rest ts : scalar (fst e) -> snd e < 0x1000000 -> Lexes rest ts ->
  Lexes (encode_byte_item e ++ rest) (byte_item e ++ punct "," ++ ts).
Proof.
  intros Hc H1 H. destruct e as [c b]. cbn [fst snd] in *. unfold encode_byte_item, byte_item. cbn [fst snd]. rewrite <- !app_assoc.
  pose proof (fun r => next_hex_char c 4 r ltac:(lia) Hc) as E. pose proof (fun d r => next_hex_int b 2 d r ltac:(lia) H1) as E1.
  set (h := py_hex 4 c) in *. set (h1 := py_hex 2 b) in *. clearbody h h1. clear Hc H1.
  assert (L2 : Lexes (41 :: str ", " ++ rest) (punct ")," ++ ts)) by (apply (lex_prefix_ok 3 _ (punct "),") rest); [reflexivity|exact H]).
  assert (L1 : Lexes (44 :: str " 0x" ++ h1 ++ str "), " ++ rest) (punct "," ++ [TInt b] ++ punct ")," ++ ts)).
  { apply (lex_prefix_ok 2 _ (punct ",") (48 :: 120 :: h1 ++ 41 :: str ", " ++ rest)); [reflexivity|].
    apply (Lexes_token _ _ (41 :: str ", " ++ rest)); [apply E1; reflexivity|exact L2]. }
  apply (lex_prefix_ok 1 _ (punct "(") (39 :: 92 :: 117 :: 123 :: h ++ 125 :: 39 :: 44 :: str " 0x" ++ h1 ++ str "), " ++ rest)); [reflexivity|].
  apply (Lexes_token _ _ (44 :: str " 0x" ++ h1 ++ str "), " ++ rest)); [apply E|exact L1].
Qed.

Lemma lex_items {A} k i (format : A -> list N) (item : A -> list token) items rest ts :
  Forall (fun x => forall rest ts, Lexes rest ts -> Lexes (format x ++ rest) (item x ++ punct "," ++ ts)) items -> Lexes rest ts ->
  Lexes (write_items k i format items ++ rest) (flat_map (fun x => x ++ punct ",") (map item items) ++ ts).
Proof.
  intros HF H. revert i. induction HF as [|x items Hx _ IH]; intros i; [exact H|]. cbn [write_items map flat_map].
  rewrite <- !app_assoc. specialize (IH (i + 1)). apply Hx in IH. destruct (i mod k =? 0); [|exact IH].
  apply (lex_prefix_ok 5 _ [] (format x ++ write_items k (i + 1) format items ++ rest)); [reflexivity|exact IH].
Qed.

Lemma whatwg_header rest : lex_prefix 14 (str "// This file is auto-generated.  Please see `encoding_tables/whatwg/`
// from the root directory for the files that generate this.

" ++ str "const DECODE_TABLE: [char; " ++ rest) = Some ([ident "const"; ident "DECODE_TABLE"] ++ punct ":[" ++ [ident "char"] ++ punct ";", rest).
Proof. vm_compute. reflexivity. Qed.
Lemma whatwg_middle rest : lex_prefix 24 (str "
];

" ++ str "const ENCODE_TABLE: [(char, [u8; 2]); " ++ rest) =
  Some (punct "];" ++ [ident "const"; ident "ENCODE_TABLE"] ++ punct ":[" ++ (punct "(" ++ [ident "char"] ++ punct "," ++ array_type [ident "u8"] 2 ++ punct ")") ++ punct ";", rest).
Proof. vm_compute. reflexivity. Qed.
Lemma single_byte_header rest : lex_prefix 177 (str "// This file is auto-generated.  Please see `encoding_tables/single_byte/`
// from the root directory for the files that generate this.

use {DecodeResult, EncodeResult};

pub fn decode_to_str<'a>(
    input: &[u8],
    out_buffer: &'a mut [u8],
) -> DecodeResult<'a> {
    super::ascii_ext_decode_to_str(&DECODE_TABLE, input, out_buffer)
}

pub fn encode_from_str<'a>(
    input: &str,
    out_buffer: &'a mut [u8],
) -> EncodeResult<'a> {
    super::ascii_ext_encode_from_str(&ENCODE_TABLE, input, out_buffer)
}

" ++ str "const DECODE_TABLE: [char; 128] = [" ++ rest) =
  Some ([ident "use"] ++ punct "{" ++ [ident "DecodeResult"] ++ punct "," ++ [ident "EncodeResult"] ++ punct "};" ++
  wrapper_function [ident "decode_to_str"] (punct "&[" ++ [ident "u8"] ++ punct "]") [ident "DecodeResult"]
    [ident "ascii_ext_decode_to_str"] [ident "DECODE_TABLE"] ++
  wrapper_function [ident "encode_from_str"] (punct "&" ++ [ident "str"]) [ident "EncodeResult"]
    [ident "ascii_ext_encode_from_str"] [ident "ENCODE_TABLE"] ++
  [ident "const"; ident "DECODE_TABLE"] ++ punct ":" ++ array_type [ident "char"] 128 ++ punct "=[", rest).
Proof. vm_compute. reflexivity. Qed.
Lemma single_byte_middle rest : lex_prefix 19 (str "
];

" ++ str "const ENCODE_TABLE: [(char, u8); " ++ rest) =
  Some (punct "];" ++ [ident "const"; ident "ENCODE_TABLE"] ++ punct ":[" ++ (punct "(" ++ [ident "char"] ++ punct "," ++ [ident "u8"] ++ punct ")") ++ punct ";", rest).
Proof. vm_compute. reflexivity. Qed.

Lemma lex_last : Lexes (str "
];
") (punct "];").
Proof. rewrite <- (app_nil_r (punct "];")). apply (lex_prefix_ok 4 _ (punct "];") []); [vm_compute; reflexivity|constructor]. Qed.

(* "n] = [" and what follows *)
Lemma lex_count n rest ts : Lexes rest ts -> Lexes (py_dec n ++ str "] = [" ++ rest) (TInt n :: punct "]=[" ++ ts).
Proof.
  intros H. apply (Lexes_token _ _ (93 :: str " = [" ++ rest)); [exact (next_dec_int n 93 (str " = [" ++ rest) eq_refl eq_refl)|].
  apply (lex_prefix_ok 5 _ (punct "]=[") rest); [reflexivity|exact H].
Qed.

Lemma tables_text_tokens dec enc :
  Forall (fun o => match o with Some c => scalar c | None => True end) dec ->
  Forall (fun e => scalar (fst e) /\ fst (snd e) < 0x1000000 /\ snd (snd e) < 0x1000000) enc ->
  Lexes (tables_text dec enc) (whatwg_tokens (map written dec) enc).
Proof.
  intros Hd He. unfold tables_text, whatwg_tokens, const_array, array_type at 1 3. rewrite !map_length, map_map.
  set (nd := N.of_nat (length dec)). set (ne := N.of_nat (length enc)).
  assert (L4 : Lexes (write_items 3 0 encode_item enc ++ str "
];
") (flat_map (fun x => x ++ punct ",") (map pair_item enc) ++ punct "];")).
  { apply lex_items; [|exact lex_last]. eapply Forall_impl; [|exact He]. intros e (H1 & H2 & H3) rest ts. apply lex_encode_item; assumption. }
  apply (lex_count ne) in L4. eapply lex_prefix_ok in L4; [|apply whatwg_middle].
  assert (L2 := L4). clear L4.
  eapply (lex_items 8 0 decode_item (fun o => char_item (written o)) dec) in L2.
  2:{ eapply Forall_impl; [|exact Hd]. intros o H rest ts. apply lex_decode_item. exact H. }
  apply (lex_count nd) in L2. eapply lex_prefix_ok in L2; [|apply whatwg_header].
  rewrite <- ?app_assoc in L2 |- *. cbn [app] in L2 |- *. exact L2.
Qed.

Lemma ascii_ext_text_tokens dec enc : length dec = 128%nat ->
  Forall (fun o => match o with Some c => scalar c | None => True end) dec ->
  Forall (fun e => scalar (fst e) /\ snd e < 0x1000000) enc ->
  Lexes (ascii_ext_text dec enc) (single_byte_tokens (map written dec) enc).
Proof.
  intros Hl Hd He. unfold ascii_ext_text, single_byte_tokens, const_array. rewrite !map_length, map_map, Hl.
  change (N.of_nat 128) with 128. set (ne := N.of_nat (length enc)).
  assert (L4 : Lexes (write_items 4 0 encode_byte_item enc ++ str "
];
") (flat_map (fun x => x ++ punct ",") (map byte_item enc) ++ punct "];")).
  { apply lex_items; [|exact lex_last]. eapply Forall_impl; [|exact He]. intros e (H1 & H2) rest ts. apply lex_encode_byte_item; assumption. }
  apply (lex_count ne) in L4. eapply lex_prefix_ok in L4; [|apply single_byte_middle].
  eapply (lex_items 8 0 decode_item (fun o => char_item (written o)) dec) in L4.
  2:{ eapply Forall_impl; [|exact Hd]. intros o H rest ts. apply lex_decode_item. exact H. }
  eapply lex_prefix_ok in L4; [|apply single_byte_header].
  unfold array_type at 2. rewrite <- ?app_assoc in L4 |- *. cbn [app] in L4 |- *. exact L4.
Qed.

(** ** The encoding of the written text *)

Lemma py_encode_text cs : text cs -> py_encode cs = utf8 cs.
Proof. induction 1 as [|c cs Hc _ IH]; [reflexivity|]. cbn [py_encode flat_map]. rewrite utf8_cons, utf8_char_encode by exact Hc. f_equal. exact IH. Qed.

Lemma text_app a b : text a -> text b -> text (a ++ b).
Proof. intros. apply Forall_app. split; assumption. Qed.
Lemma text_check s : forallb (fun c => c <? 128) s = true -> text s.
Proof. intros H. apply Forall_forall. intros c Hc. rewrite forallb_forall in H. specialize (H c Hc). unfold scalar. lia. Qed.
Lemma digit_scalar base c : is_digit base c = true -> scalar c.
Proof.
  unfold is_digit, digit_of, scalar. destruct ((48 <=? c) && (c <=? 57)) eqn:E1; [lia|].
  destruct ((65 <=? c) && (c <=? 70)) eqn:E2; [lia|]. destruct ((97 <=? c) && (c <=? 102)) eqn:E3; [lia|discriminate].
Qed.
Lemma text_dec n : text (py_dec n).
Proof. destruct (py_format_ok 10 n ltac:(lia)) as [(_ & D & _) _]. eapply Forall_impl; [|exact D]. intros c. apply digit_scalar. Qed.
Lemma text_hex w n : text (py_hex w n).
Proof.
  destruct (py_format_ok 16 n ltac:(lia)) as [(_ & D & _) _]. apply text_app.
  - apply Forall_forall. intros x Hx. apply repeat_spec in Hx. subst x. unfold scalar. lia.
  - eapply Forall_impl; [|exact D]. intros c. apply digit_scalar.
Qed.
Lemma text_items {A} k (format : A -> list N) items : (forall x, text (format x)) -> forall i, text (write_items k i format items).
Proof.
  intros H. induction items as [|x items IH]; intros i; [constructor|]. cbn [write_items]. apply text_app; [|apply text_app; [apply H|apply IH]].
  destruct (i mod k =? 0); [apply text_check; reflexivity|constructor].
Qed.
Ltac text_parts := repeat (apply text_app; [solve [apply text_check; vm_compute; reflexivity|apply text_dec|apply text_hex]|]).
Lemma text_decode_item o : text (decode_item o).
Proof.
  destruct o as [c|]; cbn [decode_item].
  - text_parts. apply text_check. reflexivity.
  - repeat constructor; unfold scalar; lia.
Qed.
Lemma text_encode_item e : text (encode_item e).
Proof. unfold encode_item. text_parts. apply text_check. reflexivity. Qed.
Lemma text_encode_byte_item e : text (encode_byte_item e).
Proof. unfold encode_byte_item. text_parts. apply text_check. reflexivity. Qed.
Lemma text_tables dec enc : text (tables_text dec enc).
Proof.
  unfold tables_text. text_parts. apply text_app; [apply text_items, text_decode_item|]. text_parts.
  apply text_app; [apply text_items, text_encode_item|]. apply text_check. reflexivity.
Qed.
Lemma text_ascii_ext dec enc : text (ascii_ext_text dec enc).
Proof.
  unfold ascii_ext_text. text_parts. apply text_app; [apply text_items, text_decode_item|]. text_parts.
  apply text_app; [apply text_items, text_encode_byte_item|]. apply text_check. reflexivity.
Qed.

(** ** The values in the tables *)

Lemma dec_fill_values table : forall i c, In (Some c) (dec_fill i table) -> exists p, In (p, c) table.
Proof.
  induction table as [|[p d] table IH]; intros i c H; [destruct H|]. cbn [dec_fill] in H. apply in_app_or in H. destruct H as [H|[H|H]].
  - apply repeat_spec in H. discriminate.
  - exists p. left. congruence.
  - destruct (IH _ _ H) as [q Hq]. exists q. right. exact Hq.
Qed.
