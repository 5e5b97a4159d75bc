(* The UTF-8 encoder and decoder as greedy iterations. *)
From Coq Require Import List NArith Arith Bool Lia ZArith.
From Verif Require Import Tac Encodings Spec Prelude RustCore Types ProofUtf8 Engine ModelUtf8 NextEnc NextDec.
Import ListNotations.
Local Open Scope N_scope.

(* bytes that the error range of the decoder extends over, beyond the first *)
Definition extends_error (b : N) : bool := (0x80 <=? b) && (b <? 0xC0) || (0xF8 <=? b).

Fixpoint run_len (bs : list N) : nat :=
  match bs with
  | b :: r => if extends_error b then S (run_len r) else 0%nat
  | [] => 0%nat
  end.

(* fewer bytes left than the first one announces *)
Definition looks_truncated (b : N) (n : nat) : bool :=
  (0xC0 <=? b) && (b <? 0xE0) && (n <? 2)%nat
  || (0xE0 <=? b) && (b <? 0xF0) && (n <? 3)%nat
  || (0xF0 <=? b) && (b <? 0xF8) && (n <? 4)%nat.

Definition utf8_dec_next (is_end : bool) (bs : list N) : dact :=
  match bs with
  | [] => DEnd
  | b :: r =>
      if (utf8_valid_up_to bs =? 0)%nat then
        if looks_truncated b (length bs) then if is_end then DBad (length bs) else DHold
        else DBad (1 + run_len r)
      else DUnit (utf8_char_width b) [utf8_value (firstn (utf8_char_width b) bs)]
  end.

Lemma utf8_dec_next_char is_end c r : scalar c ->
  utf8_dec_next is_end (utf8_char c ++ r) = DUnit (length (utf8_char c)) [c].
Proof.
  intros Hc. pose proof (utf8_char_pos c) as Hpos.
  destruct (utf8_char c) as [|b t] eqn:E; [cbn in Hpos; lia|].
  cbn [app utf8_dec_next]. change (b :: t ++ r) with ((b :: t) ++ r). rewrite <- E.
  rewrite valid_up_to_char by assumption.
  destruct (Nat.eqb_spec (length (utf8_char c) + utf8_valid_up_to r) 0) as [H|_]; [rewrite E in H; cbn in H; lia|].
  rewrite (utf8_char_width_len c b t Hc E).
  rewrite firstn_app, Nat.sub_diag, firstn_all. cbn [firstn]. rewrite app_nil_r, utf8_value_char. reflexivity.
Qed.

Lemma esteps_text w (Hw : forall c, (1 <= length (w c))%nat \/ True) : forall pre rest,
  esteps (utf_enc_next w) (pre ++ rest) pre (flat_map w pre) rest.
Proof.
  induction pre as [|c pre IH]; intros rest; [constructor|].
  cbn [app flat_map]. change (c :: pre) with (firstn 1 (c :: pre ++ rest) ++ pre).
  eapply esteps_unit; [reflexivity|]. cbn [skipn]. apply IH.
Qed.

Lemma dsteps_text is_end : forall cs rest, text cs ->
  dsteps (utf8_dec_next is_end) (utf8 cs ++ rest) (utf8 cs) cs rest.
Proof.
  intros cs rest H. induction H as [|c cs Hc Hcs IH]; [constructor|].
  rewrite utf8_cons, <- app_assoc.
  replace (utf8_char c ++ utf8 cs) with (firstn (length (utf8_char c)) (utf8_char c ++ utf8 cs ++ rest) ++ utf8 cs).
  2: { rewrite firstn_app, Nat.sub_diag, firstn_all. cbn [firstn]. rewrite app_nil_r. reflexivity. }
  change (c :: cs) with ([c] ++ cs). eapply dsteps_unit.
  - apply utf8_dec_next_char, Hc.
  - rewrite skipn_app, Nat.sub_diag, skipn_all. exact IH.
Qed.

(** ** copy_len: the longest prefix of whole chars that fits *)

Lemma split_at cs n : (n < length (utf8 cs))%nat -> exists pre c post, cs = pre ++ c :: post /\
  (length (utf8 pre) <= n < length (utf8 pre) + length (utf8_char c))%nat.
Proof.
  revert n. induction cs as [|c cs IH]; intros n H; [cbn in H; lia|].
  rewrite utf8_cons, app_length in H.
  destruct (Nat.lt_ge_cases n (length (utf8_char c))) as [L|L].
  - exists [], c, cs. cbn. split; [reflexivity|lia].
  - destruct (IH (n - length (utf8_char c))%nat) as (pre & d & post & -> & Hn); [lia|].
    exists (c :: pre), d, post. rewrite utf8_cons, app_length. split; [reflexivity|lia].
Qed.

Lemma nth_error_mid {A} (a b c : list A) i : (i < length b)%nat -> nth_error (a ++ b ++ c) (length a + i) = nth_error b i.
Proof.
  intros H. rewrite nth_error_app2 by lia. rewrite nth_error_app1 by lia. f_equal. lia.
Qed.

Lemma copy_loop pre c post : scalar c -> forall d fuel, (d < length (utf8_char c))%nat -> (d < fuel)%nat ->
  loop (R := Empty_set) fuel
    (fun i => if (0 <? i)%nat then
                let* b := idx (utf8 (pre ++ c :: post)) i in
                if N.land b 0xC0 =? 0x80 then Ret (Continue (i - 1)%nat) else Ret (Break i)
              else Ret (Break i)) (length (utf8 pre) + d)%nat
  = Ret (inl (length (utf8 pre))).
Proof.
  intros Hc. destruct (utf8_char_head c Hc) as (h & t & E & Hh & Ht).
  pose proof (utf8_char_bytes c Hc) as Hbytes. rewrite E in Hbytes. inversion Hbytes as [|? ? Hhb Htb]; subst.
  induction d as [|d IH]; intros fuel Hd Hf; (destruct fuel as [|fuel]; [lia|]).
  - rewrite Nat.add_0_r. cbn [loop]. destruct (Nat.ltb_spec 0 (length (utf8 pre))) as [L|L].
    + unfold idx. rewrite utf8_app, utf8_cons.
      replace (length (utf8 pre)) with (length (utf8 pre) + 0)%nat at 1 by lia.
      rewrite nth_error_mid by lia. rewrite E. cbn [nth_error bind].
      rewrite mask_C0 by assumption. bfalse ((0x80 <=? h) && (h <? 0xC0)). reflexivity.
    + reflexivity.
  - cbn [loop]. destruct (Nat.ltb_spec 0 (length (utf8 pre) + S d)) as [L|L]; [|lia].
    unfold idx at 1. rewrite utf8_app, utf8_cons, nth_error_mid by lia. rewrite E. cbn [nth_error].
    rewrite E in Hd. cbn [length] in Hd.
    destruct (nth_error t d) as [x|] eqn:Ex; [|apply nth_error_None in Ex; lia].
    apply nth_error_In in Ex. rewrite Forall_forall in Ht. specialize (Ht x Ex). cbn [bind].
    rewrite mask_C0 by lia. btrue ((0x80 <=? x) && (x <? 0xC0)). cbn [bind].
    replace (length (utf8 pre) + S d - 1)%nat with (length (utf8 pre) + d)%nat by lia.
    rewrite <- E, <- utf8_cons, <- utf8_app. apply IH; [rewrite E; cbn [length]|]; lia.
Qed.

Lemma copy_len_spec cs n : text cs -> exists pre post, cs = pre ++ post /\
  copy_len (utf8 cs) n = Ret (length (utf8 pre)) /\ (length (utf8 pre) <= n)%nat /\
  match post with [] => True | c :: _ => (n < length (utf8 pre) + length (utf8_char c))%nat end.
Proof.
  intros Hcs. unfold copy_len. destruct (Nat.leb_spec (length (utf8 cs)) n) as [L|L].
  - exists cs, []. rewrite app_nil_r. auto.
  - destruct (split_at cs n L) as (pre & c & post & -> & Hn).
    exists pre, (c :: post). split; [reflexivity|].
    assert (Hc : scalar c) by (apply Forall_app in Hcs; destruct Hcs as [_ Hcs]; inversion Hcs; assumption).
    replace n with (length (utf8 pre) + (n - length (utf8 pre)))%nat at 1 2 by lia.
    rewrite copy_loop by (auto; lia). split; [reflexivity|]. lia.
Qed.

Lemma copy_at_zero out src : (length src <= length out)%nat -> copy_at out 0 (length src) src = Ret (frame src out).
Proof.
  intros H. unfold copy_at. cbn [Nat.leb andb]. destruct (Nat.leb_spec (length src) (length out)); [|lia].
  rewrite Nat.sub_0_r, Nat.eqb_refl. reflexivity.
Qed.

Lemma firstn_app_exact {A} (a b : list A) : firstn (length a) (a ++ b) = a.
Proof. rewrite firstn_app, Nat.sub_diag, firstn_all. cbn. apply app_nil_r. Qed.

Lemma utf8_encode_outcome cs out : text cs ->
  enc_outcome (utf_enc_next utf8_char) 0 cs out (utf8_encode_from_str (utf8 cs) out).
Proof.
  intros Hcs. destruct (copy_len_spec cs (length out) Hcs) as (pre & post & -> & Hcl & Hle & Hpost).
  assert (E : utf8_encode_from_str (utf8 (pre ++ post)) out = Ret (Ok (utf8 pre, length (utf8 pre)), frame (utf8 pre) out)).
  { unfold utf8_encode_from_str. rewrite Hcl. cbn [bind].
    assert (Hp : text post) by (apply Forall_app in Hcs; apply Hcs).
    unfold str_slice_to. rewrite boundary_true by assumption. rewrite utf8_app, app_length.
    destruct (Nat.leb_spec (length (utf8 pre)) (length (utf8 pre) + length (utf8 post))); [|lia]. cbn [andb bind].
    rewrite firstn_app_exact, copy_at_zero by assumption. cbn [bind].
    rewrite slice_frame by assumption. reflexivity. }
  exists pre, (utf8 pre), post. split; [reflexivity|]. split; [apply esteps_text; auto|]. split; [assumption|].
  rewrite E. destruct post as [|c post]; cbn [utf_enc_next chars_next]; auto.
Qed.

Lemma error_end_spec input : bytes input -> forall start, (start <= length input)%nat ->
  utf8_error_end input start = Ret (start + run_len (skipn start input))%nat.
Proof.
  intros Hb start Hs. unfold utf8_error_end.
  set (body := fun i => _).
  assert (H : forall n i fuel, (length input - i <= n)%nat -> (n < fuel)%nat -> (i <= length input)%nat ->
      loop (R := Empty_set) fuel body i = Ret (inl (i + run_len (skipn i input))%nat)).
  { induction n as [|n IH]; intros i fuel Hn Hf Hi; (destruct fuel as [|fuel]; [lia|]); cbn [loop]; unfold body at 1.
    - destruct (Nat.ltb_spec i (length input)); [lia|]. replace i with (length input) by lia.
      rewrite skipn_all. cbn. rewrite Nat.add_0_r. reflexivity.
    - destruct (Nat.ltb_spec i (length input)) as [L|L].
      + destruct (firstn_S input i L) as (x & Hx & _ & Hsk). rewrite Hsk. unfold idx. rewrite Hx. cbn [bind run_len].
        assert (Hxb : x < 256) by (eapply Forall_forall in Hb; [exact Hb|eapply nth_error_In, Hx]).
        rewrite mask_C0, mask_F8_F8 by assumption. fold (extends_error x).
        destruct (extends_error x); cbn [bind].
        * rewrite IH by lia. f_equal. f_equal. replace (i + 1)%nat with (S i) by lia. lia.
        * rewrite Nat.add_0_r. reflexivity.
      + replace i with (length input) by lia. rewrite skipn_all. cbn. rewrite Nat.add_0_r. reflexivity. }
  rewrite (H (length input)) by lia. reflexivity.
Qed.

Lemma utf8_decode_outcome is_end bs out : bytes bs ->
  dec_outcome (utf8_dec_next is_end) 1 bs out (utf8_decode_to_str bs out is_end).
Proof.
  intros Hb. destruct (valid_up_to_split bs Hb) as (cs & r & Hcs & -> & Hv & Hr).
  destruct (copy_len_spec cs (length out) Hcs) as (pre & post & -> & Hcl & Hle & Hpost).
  assert (Hpre : text pre) by (apply Forall_app in Hcs; apply Hcs).
  assert (Hpt : text post) by (apply Forall_app in Hcs; apply Hcs).
  exists (utf8 pre), pre, (utf8 post ++ r).
  split; [rewrite utf8_app, app_assoc; reflexivity|].
  split; [rewrite utf8_app, <- app_assoc; apply dsteps_text; assumption|].
  split; [assumption|].
  unfold utf8_decode_to_str. rewrite Hv.
  assert (S1 : slice_to (utf8 (pre ++ post) ++ r) (length (utf8 (pre ++ post))) = Ret (utf8 (pre ++ post))).
  { unfold slice_to. rewrite app_length. destruct (Nat.leb_spec (length (utf8 (pre ++ post))) (length (utf8 (pre ++ post)) + length r)); [|lia].
    rewrite firstn_app_exact. reflexivity. }
  rewrite S1. cbn [bind]. rewrite Hcl. cbn [bind].
  assert (S2 : slice_to (utf8 (pre ++ post) ++ r) (length (utf8 pre)) = Ret (utf8 pre)).
  { unfold slice_to. rewrite !utf8_app, !app_length. destruct (Nat.leb_spec (length (utf8 pre)) (length (utf8 pre) + length (utf8 post) + length r)); [|lia].
    rewrite <- app_assoc, firstn_app_exact. reflexivity. }
  rewrite S2. cbn [bind]. rewrite copy_at_zero by assumption. cbn [bind].
  rewrite slice_frame by assumption. cbn [bind]. rewrite from_utf8_unchecked_text by assumption. cbn [bind].
  rewrite frame_length by assumption.
  destruct post as [|c post].
  - rewrite app_nil_r in *. cbn [utf8 flat_map app]. rewrite Nat.eqb_refl. rewrite app_length.
    destruct r as [|b r].
    + cbn [utf8_dec_next]. destruct (Nat.ltb_spec (length (utf8 pre)) (length (utf8 pre) + length (@nil N))) as [L|L]; [cbn in L; lia|].
      rewrite andb_false_r. reflexivity.
    + cbn [utf8_dec_next]. rewrite Hr. cbn [Nat.eqb].
      destruct (Nat.ltb_spec (length (utf8 pre)) (length (utf8 pre) + length (b :: r))) as [L|L]; [|cbn in L; lia].
      rewrite !andb_true_r.
      replace (length (utf8 pre) + length (b :: r) - length (utf8 pre))%nat with (length (b :: r)) by lia.
      assert (S3 : idx (utf8 pre ++ b :: r) (length (utf8 pre)) = Ret b).
      { unfold idx. rewrite nth_error_app2 by lia. rewrite Nat.sub_diag. reflexivity. }
      rewrite S3. cbn [bind].
      assert (Hbb : b < 256). { apply bytes_app in Hb. destruct Hb as [_ Hb]. inversion Hb; assumption. }
      rewrite mask_E0, mask_F0, mask_F8 by assumption.
      fold (looks_truncated b (length (b :: r))).
      rewrite error_end_spec by (auto; rewrite app_length; cbn [length]; lia). cbn [bind].
      replace (skipn (length (utf8 pre) + 1) (utf8 pre ++ b :: r)) with r.
      2: { rewrite skipn_app. rewrite (skipn_all2 (utf8 pre)) by lia. replace (length (utf8 pre) + 1 - length (utf8 pre))%nat with 1%nat by lia. reflexivity. }
      replace (length (utf8 pre) + 1 <=? length out)%nat with (length (utf8 pre) <? length out)%nat by lia.
      destruct (looks_truncated b (length (b :: r))); destruct (length (utf8 pre) <? length out)%nat; destruct is_end; cbn [negb];
        try reflexivity.
      all: rewrite <- Nat.add_assoc; reflexivity.
  - assert (Hc : scalar c) by (inversion Hpt; assumption).
    rewrite utf8_cons, <- app_assoc, utf8_dec_next_char by assumption.
    rewrite utf8_single. split; [lia|].
    assert (Hne : (length (utf8 pre) =? length (utf8 (pre ++ c :: post)))%nat = false).
    { apply Nat.eqb_neq. rewrite utf8_app, utf8_cons, !app_length. pose proof (utf8_char_pos c). lia. }
    rewrite Hne, andb_false_r. reflexivity.
Qed.
