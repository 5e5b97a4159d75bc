(* The model of core's UTF-8 functions agrees with the specification of UTF-8. *)
From Coq Require Import List NArith Arith Bool Lia ZArith.
From Verif Require Import Tac Encodings Spec Prelude RustCore Types.
Import ListNotations.
Local Open Scope N_scope.

Lemma is_char_scalar c : is_char c = true <-> scalar c.
Proof. unfold is_char, scalar. lia. Qed.

Lemma is_char_true c : scalar c -> is_char c = true.
Proof. apply is_char_scalar. Qed.

Lemma utf8_char_encode c : scalar c -> encode_utf8 c = utf8_char c.
Proof.
  intros H. unfold encode_utf8, utf8_char, as_u8, scalar in *.
  rewrite ?land_3F, ?land_1F, ?land_0F, ?land_07, ?shiftr_6, ?shiftr_12, ?shiftr_18.
  destruct (N.ltb_spec c 0x80); [ f_equal; lia |].
  destruct (N.ltb_spec c 0x800).
  { rewrite (lor_const 0xC0 6 5), (lor_const 0x80 2 6) by (try reflexivity; cbn [N.pow]; lia).
    repeat (f_equal; try lia). }
  destruct (N.ltb_spec c 0x10000).
  { rewrite (lor_const 0xE0 14 4), !(lor_const 0x80 2 6) by (try reflexivity; change (2^4) with 16; change (2^6) with 64; lia).
    repeat (f_equal; try lia). }
  rewrite (lor_const 0xF0 30 3), !(lor_const 0x80 2 6) by (try reflexivity; change (2^3) with 8; change (2^6) with 64; lia).
  repeat (f_equal; try lia).
Qed.

Lemma utf8_char_len c : length (utf8_char c) = len_utf8 c.
Proof. unfold utf8_char, len_utf8. repeat bcase; reflexivity. Qed.

Lemma len_utf8_pos c : (1 <= len_utf8 c <= 4)%nat.
Proof. unfold len_utf8. repeat bcase; lia. Qed.

Lemma utf8_char_pos c : (1 <= length (utf8_char c) <= 4)%nat.
Proof. rewrite utf8_char_len. apply len_utf8_pos. Qed.

Lemma utf8_char_bytes c : scalar c -> bytes (utf8_char c).
Proof.
  unfold scalar, bytes, utf8_char. intros H.
  repeat bcase; repeat constructor; lia.
Qed.

Lemma utf8_app a b : utf8 (a ++ b) = utf8 a ++ utf8 b.
Proof. apply flat_map_app. Qed.

Lemma utf8_cons c cs : utf8 (c :: cs) = utf8_char c ++ utf8 cs.
Proof. reflexivity. Qed.

Lemma utf8_single c : utf8 [c] = utf8_char c.
Proof. cbn. apply app_nil_r. Qed.

Lemma utf8_bytes cs : text cs -> bytes (utf8 cs).
Proof.
  induction 1; [constructor|]. rewrite utf8_cons. apply Forall_app. split; auto.
  apply utf8_char_bytes; assumption.
Qed.

Lemma utf8_length_nil cs : length (utf8 cs) = 0%nat -> cs = [].
Proof.
  destruct cs as [|c cs]; [reflexivity|]. rewrite utf8_cons, app_length.
  pose proof (utf8_char_pos c). lia.
Qed.

(** ** char_indices *)

(* items of char_indices of a text starting at byte offset [off] *)
Fixpoint offsets (off : nat) (cs : list N) : list (nat * N) :=
  match cs with
  | [] => []
  | c :: cs => (off, c) :: offsets (off + length (utf8_char c)) cs
  end.

Lemma acc_cont_val ch b : b < 256 -> acc_cont ch b = ch * 64 + b mod 64.
Proof.
  intros. unfold acc_cont. rewrite land_3F, shiftl_6. apply (lor_add ch _ 6).
  change (2^6) with 64. lia.
Qed.

Lemma char_indices_offsets cs : text cs -> forall off,
  char_indices_from off (utf8 cs) = Ret (offsets off cs).
Proof.
  induction 1 as [|c cs Hc Hcs IH]; intros off; [reflexivity|].
  rewrite utf8_cons. unfold offsets; fold offsets. rewrite utf8_char_len.
  pose proof Hc as Hs. unfold scalar in Hs.
  unfold utf8_char, len_utf8.
  destruct (N.ltb_spec c 0x80).
  { cbn [app char_indices_from]. btrue (c <? 128). rewrite IH. reflexivity. }
  destruct (N.ltb_spec c 0x800).
  { cbn [app char_indices_from].
    bfalse (192 + c / 64 <? 128). btrue (192 + c / 64 <? 224).
    rewrite acc_cont_val, land_1F by lia.
    replace ((192 + c / 64) mod 32 * 64 + (128 + c mod 64) mod 64) with c by lia.
    unfold from_u32_unchecked. rewrite is_char_true by exact Hc.
    cbn [bind]. rewrite IH. reflexivity. }
  destruct (N.ltb_spec c 0x10000).
  { cbn [app char_indices_from].
    bfalse (224 + c / 4096 <? 128). bfalse (224 + c / 4096 <? 224). btrue (224 + c / 4096 <? 240).
    rewrite acc_cont_val, land_1F, land_3F, shiftl_12 by lia.
    rewrite (lor_add _ _ 12) by (change (2^12) with 4096; lia). change (2^12) with 4096.
    replace ((224 + c / 4096) mod 32 * 4096 + ((128 + (c / 64) mod 64) mod 64 * 64 + (128 + c mod 64) mod 64)) with c by lia.
    unfold from_u32_unchecked. rewrite is_char_true by exact Hc.
    cbn [bind]. rewrite IH. reflexivity. }
  cbn [app char_indices_from].
  bfalse (240 + c / 262144 <? 128). bfalse (240 + c / 262144 <? 224). bfalse (240 + c / 262144 <? 240).
  rewrite !acc_cont_val, land_1F, land_3F, land_07, shiftl_18 by lia.
  rewrite (lor_add _ _ 18) by (change (2^18) with 262144; lia). change (2^18) with 262144.
  replace ((240 + c / 262144) mod 32 mod 8 * 262144 +
      (((128 + (c / 4096) mod 64) mod 64 * 64 + (128 + (c / 64) mod 64) mod 64) * 64 + (128 + c mod 64) mod 64)) with c by lia.
  unfold from_u32_unchecked. rewrite is_char_true by exact Hc.
  cbn [bind]. rewrite IH. reflexivity.
Qed.

(** ** is_char_boundary and finish_input *)

Lemma utf8_char_head c : scalar c -> exists b r, utf8_char c = b :: r /\ (b < 128 \/ 192 <= b) /\ Forall (fun x => 128 <= x < 192) r.
Proof.
  unfold scalar, utf8_char. intros H. repeat bcase; repeat eexists; try (repeat constructor; lia); lia.
Qed.

(* inside a text, the offsets of its chars are boundaries *)
Lemma boundary_true pre post : text post ->
  is_char_boundary (utf8 (pre ++ post)) (length (utf8 pre)) = true.
Proof.
  intros Hp. unfold is_char_boundary. rewrite utf8_app, app_length.
  destruct post as [|c post].
  { cbn [utf8 flat_map length]. rewrite Nat.add_0_r, Nat.eqb_refl, orb_true_r. reflexivity. }
  destruct (_ || _); [reflexivity|].
  inversion Hp; subst. destruct (utf8_char_head c H1) as (b & r & Hb & Hv & _).
  rewrite utf8_cons, nth_error_app2, Nat.sub_diag, Hb by lia. cbn [app nth_error]. lia.
Qed.

(* and positions inside a char are not *)
Lemma boundary_false pre c post k : scalar c -> (0 < k < length (utf8_char c))%nat ->
  is_char_boundary (utf8 (pre ++ c :: post)) (length (utf8 pre) + k) = false.
Proof.
  intros Hc Hk. unfold is_char_boundary. rewrite utf8_app, utf8_cons, !app_length.
  destruct (Nat.eqb_spec (length (utf8 pre) + k) 0); [lia|].
  destruct (Nat.eqb_spec (length (utf8 pre) + k) (length (utf8 pre) + (length (utf8_char c) + length (utf8 post)))); [lia|].
  cbn [orb]. rewrite nth_error_app2 by lia. replace (length (utf8 pre) + k - length (utf8 pre))%nat with k by lia.
  rewrite nth_error_app1 by lia.
  destruct (utf8_char_head c Hc) as (b & r & Hb & _ & Hr). rewrite Hb in *.
  destruct k as [|k]; [lia|]. cbn [nth_error length] in *.
  destruct (nth_error r k) as [x|] eqn:E; [|reflexivity].
  apply nth_error_In in E. rewrite Forall_forall in Hr. specialize (Hr x E). lia.
Qed.

Lemma finish_input_zero cs : text cs -> finish_input (utf8 cs) 0 = Ret 0%nat.
Proof.
  intros. unfold finish_input. cbn [Nat.ltb Nat.leb length loop].
  replace (length (utf8 cs) <? 0)%nat with false by lia. reflexivity.
Qed.

Lemma finish_loop cs pre c post : text cs -> cs = pre ++ c :: post -> forall d fuel,
  (d < length (utf8_char c))%nat -> (d < fuel)%nat ->
  loop (R := Empty_set) fuel
     (fun i => if is_char_boundary (utf8 cs) i then Ret (Break i) else Ret (Continue (i + 1)%nat))
     (length (utf8 pre) + length (utf8_char c) - d)%nat
  = Ret (inl (length (utf8 (pre ++ [c])))).
Proof.
  intros Hcs -> d. induction d as [|d IH]; intros fuel Hd Hf; (destruct fuel as [|fuel]; [lia|]); cbn [loop].
  - rewrite Nat.sub_0_r.
    pose proof (boundary_true (pre ++ [c]) post) as Hb.
    rewrite <- app_assoc in Hb. cbn [app] in Hb.
    rewrite (utf8_app pre [c]), utf8_single, app_length in *.
    rewrite Hb; [reflexivity|]. apply Forall_app in Hcs. destruct Hcs as [_ Hcs]. inversion Hcs; assumption.
  - apply Forall_app in Hcs as Hcs'. destruct Hcs' as [_ Hcs']. inversion Hcs'; subst.
    replace (length (utf8 pre) + length (utf8_char c) - S d)%nat with (length (utf8 pre) + (length (utf8_char c) - S d))%nat by lia.
    rewrite boundary_false by (auto; lia). cbn [bind].
    replace (length (utf8 pre) + (length (utf8_char c) - S d) + 1)%nat
      with (length (utf8 pre) + length (utf8_char c) - d)%nat by lia.
    apply IH; lia.
Qed.

Lemma finish_input_char pre c post : text (pre ++ c :: post) ->
  finish_input (utf8 (pre ++ c :: post)) (length (utf8 pre) + 1) = Ret (length (utf8 (pre ++ [c]))).
Proof.
  intros H. unfold finish_input.
  assert (Hl : (length (utf8 pre) + 1 <= length (utf8 (pre ++ c :: post)))%nat).
  { rewrite utf8_app, app_length, utf8_cons, app_length. pose proof (utf8_char_pos c). lia. }
  replace (_ <? _)%nat with false by lia.
  pose proof (utf8_char_pos c).
  replace (length (utf8 pre) + 1)%nat with (length (utf8 pre) + length (utf8_char c) - (length (utf8_char c) - 1))%nat by lia.
  rewrite (finish_loop _ pre c post H eq_refl); [reflexivity|lia|].
  rewrite utf8_app, app_length, utf8_cons, app_length. lia.
Qed.

(** ** Validation *)

Lemma valid_up_to_char c r : scalar c ->
  utf8_valid_up_to (utf8_char c ++ r) = (length (utf8_char c) + utf8_valid_up_to r)%nat.
Proof.
  intros Hc. unfold scalar in Hc. unfold utf8_char.
  destruct (N.ltb_spec c 0x80).
  { cbn [app utf8_valid_up_to length]. unfold utf8_char_width.
    btrue (c <? 128). reflexivity. }
  destruct (N.ltb_spec c 0x800).
  { cbn [app utf8_valid_up_to length]. unfold utf8_char_width.
    bfalse (192 + c / 64 <? 128). bfalse (192 + c / 64 <? 194). btrue (192 + c / 64 <? 224).
    unfold is_cont, between. btrue ((128 <=? 128 + c mod 64) && (128 + c mod 64 <=? 191)). reflexivity. }
  destruct (N.ltb_spec c 0x10000).
  { cbn [app utf8_valid_up_to length]. unfold utf8_char_width.
    bfalse (224 + c / 4096 <? 128). bfalse (224 + c / 4096 <? 194). bfalse (224 + c / 4096 <? 224). btrue (224 + c / 4096 <? 240).
    unfold is_cont, between.
    match goal with |- (if ?b then _ else _) = _ => assert (E : b = true) by lia; rewrite E end. reflexivity. }
  cbn [app utf8_valid_up_to length]. unfold utf8_char_width.
  bfalse (240 + c / 262144 <? 128). bfalse (240 + c / 262144 <? 194). bfalse (240 + c / 262144 <? 224). bfalse (240 + c / 262144 <? 240).
  btrue (240 + c / 262144 <? 245).
  unfold is_cont, between.
  match goal with |- (if ?b then _ else _) = _ => assert (E : b = true) by lia; rewrite E end. reflexivity.
Qed.

Lemma valid_up_to_app cs r : text cs ->
  utf8_valid_up_to (utf8 cs ++ r) = (length (utf8 cs) + utf8_valid_up_to r)%nat.
Proof.
  induction 1; [reflexivity|]. rewrite utf8_cons, <- app_assoc, valid_up_to_char by assumption.
  rewrite IHForall, app_length. lia.
Qed.

Lemma valid_up_to_text cs : text cs -> utf8_valid_up_to (utf8 cs) = length (utf8 cs).
Proof.
  intros. rewrite <- (app_nil_r (utf8 cs)) at 1. rewrite valid_up_to_app by assumption. cbn. lia.
Qed.

(* one validation step: either the head is a char, or validation stops *)
Lemma valid_up_to_step bs : bytes bs ->
  (exists c r, scalar c /\ bs = utf8_char c ++ r) \/ utf8_valid_up_to bs = 0%nat.
Proof.
  intros Hb.
  destruct bs as [|b1 r1]; [right; reflexivity|].
  cbn [utf8_valid_up_to]. unfold utf8_char_width.
  inversion Hb as [|? ? H1 Hr1]; subst.
  destruct (N.ltb_spec b1 0x80).
  { left. exists b1, r1. split; [unfold scalar; lia|]. unfold utf8_char. btrue (b1 <? 128). reflexivity. }
  destruct (N.ltb_spec b1 0xC2); [right; reflexivity|].
  destruct (N.ltb_spec b1 0xE0).
  { destruct r1 as [|b2 r2]; [right; reflexivity|].
    unfold is_cont, between. destruct (_ && _) eqn:E; [|right; reflexivity].
    left. exists ((b1 - 192) * 64 + (b2 - 128)), r2. split; [unfold scalar; lia|].
    unfold utf8_char. bfalse ((b1 - 192) * 64 + (b2 - 128) <? 128). btrue ((b1 - 192) * 64 + (b2 - 128) <? 2048).
    cbn [app]. repeat (f_equal; try lia). }
  destruct (N.ltb_spec b1 0xF0).
  { destruct r1 as [|b2 [|b3 r3]]; try (right; reflexivity).
    unfold is_cont, between. destruct (_ && _) eqn:E; [|right; reflexivity].
    left. exists ((b1 - 224) * 4096 + (b2 - 128) * 64 + (b3 - 128)), r3. split; [unfold scalar; lia|].
    unfold utf8_char.
    bfalse ((b1 - 224) * 4096 + (b2 - 128) * 64 + (b3 - 128) <? 128).
    bfalse ((b1 - 224) * 4096 + (b2 - 128) * 64 + (b3 - 128) <? 2048).
    btrue ((b1 - 224) * 4096 + (b2 - 128) * 64 + (b3 - 128) <? 65536).
    cbn [app]. repeat (f_equal; try lia). }
  destruct (N.ltb_spec b1 0xF5); [|right; reflexivity].
  destruct r1 as [|b2 [|b3 [|b4 r4]]]; try (right; reflexivity).
  unfold is_cont, between. destruct (_ && _) eqn:E; [|right; reflexivity].
  left. exists ((b1 - 240) * 262144 + (b2 - 128) * 4096 + (b3 - 128) * 64 + (b4 - 128)), r4. split; [unfold scalar; lia|].
  unfold utf8_char.
  bfalse ((b1 - 240) * 262144 + (b2 - 128) * 4096 + (b3 - 128) * 64 + (b4 - 128) <? 128).
  bfalse ((b1 - 240) * 262144 + (b2 - 128) * 4096 + (b3 - 128) * 64 + (b4 - 128) <? 2048).
  bfalse ((b1 - 240) * 262144 + (b2 - 128) * 4096 + (b3 - 128) * 64 + (b4 - 128) <? 65536).
  cbn [app]. repeat (f_equal; try lia).
Qed.

Lemma bytes_app a b : bytes (a ++ b) <-> bytes a /\ bytes b.
Proof. apply Forall_app. Qed.

(* the valid prefix is the UTF-8 form of a text, and what follows does not start with a char *)
Lemma valid_up_to_split bs : bytes bs -> exists cs r, text cs /\ bs = utf8 cs ++ r /\
  utf8_valid_up_to bs = length (utf8 cs) /\ utf8_valid_up_to r = 0%nat.
Proof.
  remember (length bs) as n eqn:Hn. revert bs Hn.
  induction n as [n IH] using lt_wf_ind. intros bs -> Hb.
  destruct (valid_up_to_step bs Hb) as [(c & r & Hc & ->)|H0].
  - apply bytes_app in Hb. destruct Hb as [_ Hr].
    destruct (IH (length r)) with (bs := r) as (cs & r' & Hcs & Hr' & Hv & H0); auto.
    { rewrite app_length. pose proof (utf8_char_pos c). lia. }
    exists (c :: cs), r'. split; [constructor; assumption|].
    rewrite Hr' at 1. rewrite utf8_cons, <- app_assoc. split; [reflexivity|]. split; [|assumption].
    rewrite valid_up_to_char by assumption. rewrite Hv, app_length. reflexivity.
  - exists [], bs. repeat split; auto. constructor.
Qed.

Lemma valid_up_to_le bs : (utf8_valid_up_to bs <= length bs)%nat.
Proof.
  remember (length bs) as n eqn:Hn. revert bs Hn.
  induction n as [n IH] using lt_wf_ind. intros bs ->.
  assert (IH' : forall r, (length r < length bs)%nat -> (utf8_valid_up_to r <= length r)%nat).
  { intros r Hr. exact (IH _ Hr r eq_refl). }
  destruct bs as [|b1 r1]; [cbn; lia|]. cbn [length] in *.
  pose proof (IH' r1 ltac:(lia)).
  cbn [utf8_valid_up_to]. unfold utf8_char_width.
  destruct (b1 <? 0x80); [lia|]. destruct (b1 <? 0xC2); [lia|].
  destruct (b1 <? 0xE0).
  { destruct r1 as [|b2 r2]; cbn [length] in *; [lia|]. pose proof (IH' r2 ltac:(lia)). destruct (is_cont b2); lia. }
  destruct (b1 <? 0xF0).
  { destruct r1 as [|b2 [|b3 r3]]; cbn [length] in *; [lia|lia|]. pose proof (IH' r3 ltac:(lia)).
    match goal with |- context [if ?b then _ else _] => destruct b end; lia. }
  destruct (b1 <? 0xF5); [|lia].
  destruct r1 as [|b2 [|b3 [|b4 r4]]]; cbn [length] in *; [lia|lia|lia|]. pose proof (IH' r4 ltac:(lia)).
  match goal with |- context [if ?b then _ else _] => destruct b end; lia.
Qed.

Lemma from_utf8_unchecked_text cs : text cs -> from_utf8_unchecked (utf8 cs) = Ret (utf8 cs).
Proof.
  intros. unfold from_utf8_unchecked. rewrite valid_up_to_text by assumption. rewrite Nat.eqb_refl. reflexivity.
Qed.

(* UTF-8 forms are prefix-free, hence UTF-8 is injective *)
(* reading a scalar value back from its UTF-8 form *)
Definition utf8_value (bs : list N) : N :=
  match bs with
  | [a] => a
  | [a; b] => (a - 192) * 64 + (b - 128)
  | [a; b; c] => (a - 224) * 4096 + (b - 128) * 64 + (c - 128)
  | [a; b; c; d] => (a - 240) * 262144 + (b - 128) * 4096 + (c - 128) * 64 + (d - 128)
  | _ => 0
  end.

Lemma utf8_value_char c : utf8_value (utf8_char c) = c.
Proof. unfold utf8_char. repeat bcase; cbn [utf8_value]; lia. Qed.

(* the first byte determines the length *)
Lemma utf8_char_width_len c b r : scalar c -> utf8_char c = b :: r -> utf8_char_width b = length (utf8_char c).
Proof.
  unfold scalar, utf8_char, utf8_char_width. intros Hc.
  repeat bcase; intros E; apply cons_inj in E; destruct E as [E _]; try reflexivity; lia.
Qed.

Lemma utf8_char_prefix_free c d r s : scalar c -> scalar d -> utf8_char c ++ r = utf8_char d ++ s -> c = d /\ r = s.
Proof.
  intros Hc Hd E.
  assert (L : length (utf8_char c) = length (utf8_char d)).
  { destruct (utf8_char_head c Hc) as (b & x & Eb & _). destruct (utf8_char_head d Hd) as (b' & x' & Eb' & _).
    rewrite <- (utf8_char_width_len c b x), <- (utf8_char_width_len d b' x') by assumption.
    rewrite Eb, Eb' in E. apply cons_inj in E. destruct E as [-> _]. reflexivity. }
  apply app_eq_app in E. destruct E as (l & [[E1 E2]|[E1 E2]]);
    (destruct l; [|rewrite E1, app_length in L; cbn in L; lia]); rewrite app_nil_r in E1;
    (split; [rewrite <- (utf8_value_char c), <- (utf8_value_char d), E1; reflexivity|auto]).
Qed.

Lemma utf8_inj a b : text a -> text b -> utf8 a = utf8 b -> a = b.
Proof.
  intros Ha. revert b. induction Ha as [|c a Hc Ha IH]; intros b Hb E.
  - symmetry in E. apply (f_equal (@length N)) in E. cbn in E. apply utf8_length_nil in E. auto.
  - destruct Hb as [|d b Hd Hb].
    + apply (f_equal (@length N)) in E. apply utf8_length_nil in E. discriminate.
    + rewrite !utf8_cons in E. apply utf8_char_prefix_free in E; auto. destruct E as [-> E].
      f_equal. auto.
Qed.

Lemma len_utf16_val c : scalar c -> len_utf16 c = if c <? 0x10000 then 1%nat else 2%nat.
Proof.
  intros. unfold len_utf16, scalar in *. rewrite land_FFFF.
  destruct (N.ltb_spec c 0x10000); [btrue (c mod 65536 =? c)|bfalse (c mod 65536 =? c)]; reflexivity.
Qed.
