(* How often the loops of a call run. *)
From Coq Require Import List NArith Arith Bool String Lia.
From Verif Require Import Prelude RustCore Types Encodings ModelUtf8 ModelBig5 ModelWord Tac ProofWord ProofSrc ProofUtf8 ProofSrcTests ProofSrcUtf8 ProofSrcAll TabBig5 TabSjis.
From Verif Require Import Spec.
Import ListNotations.
Local Open Scope N_scope.
Local Open Scope list_scope.

(* each iteration but the last makes mu smaller by k *)
Lemma loop_measure {S R} (k : nat) (mu : S -> nat) (body : S -> outcome (ctl S R)) : (forall s s', body s = Ret (Continue s') -> (mu s' + k <= mu s)%nat) ->
  forall n fuel s, (mu s < k * fuel)%nat -> within n fuel body s.
Proof.
  intros D n. induction n as [|n IH]; intros fuel s L r E; [discriminate E|]. destruct fuel as [|fuel]; [lia|]. cbn [loop] in *.
  destruct (body s) as [[t|t|x]| | |] eqn:B; cbn [bind] in *; try exact E. apply IH; [|exact E]. specialize (D _ _ B). lia.
Qed.

(** ** The main loops: every iteration but the last writes at least k bytes *)

Definition enc_grows (k : nat) (body : enc_state -> outcome (ctl enc_state (encode_error * list N))) : Prop :=
  forall st st', body st = Ret (Continue st') -> (es_out st + k <= es_out st' <= List.length (es_buf st'))%nat /\ List.length (es_buf st') = List.length (es_buf st).
Definition dec_grows {T} (k : nat) (body : dec_state T -> outcome (ctl (dec_state T) (decode_error * list N))) : Prop :=
  forall st st', body st = Ret (Continue st') -> (ds_out st + k <= ds_out st' <= List.length (ds_buf st'))%nat /\ List.length (ds_buf st') = List.length (ds_buf st).
Lemma enc_grows_within k body fuel n itr out : enc_grows k body -> (List.length out < k * fuel)%nat -> within n fuel body (EncState itr 0 0 out).
Proof.
  intros G L. apply (loop_measure k (fun st => List.length (es_buf st) - es_out st)%nat); [|cbn [es_buf es_out]; lia].
  intros s s' B. destruct (G _ _ B). lia.
Qed.
Lemma dec_grows_within {T} k (body : dec_state T -> _) fuel n itr out : dec_grows k body -> (List.length out < k * fuel)%nat -> dec_within fuel n body itr out.
Proof.
  intros G L. apply (loop_measure k (fun st => List.length (ds_buf st) - ds_out st)%nat); [|cbn [ds_buf ds_out]; lia].
  intros s s' B. destruct (G _ _ B). lia.
Qed.

Lemma copy_at_inv {A} (l : list A) a b s l' : copy_at l a b s = Ret l' -> List.length l' = List.length l /\ (a <= b <= List.length l)%nat.
Proof.
  unfold copy_at. destruct (_ && _) eqn:E; [|discriminate]. intros H. apply Ret_inj in H. subst.
  rewrite !app_length, firstn_length, skipn_length. lia.
Qed.
Lemma encode_utf8_some c : (1 <= List.length (encode_utf8 c))%nat.
Proof. unfold encode_utf8. repeat match goal with |- context [if ?b then _ else _] => destruct b end; cbn [List.length]; lia. Qed.
Lemma grapheme_some p s : big5_grapheme_literal p = Some s -> (1 <= List.length s)%nat.
Proof.
  unfold big5_grapheme_literal. repeat match goal with |- context [if ?b then _ else _] => destruct b end; intros H; try discriminate H;
  apply Some_inj in H; subst; cbn [List.length]; lia.
Qed.
Ltac written :=
  repeat match goal with
  | H : upd _ _ _ = Ret _ |- _ => apply upd_inv in H; destruct H
  | H : copy_at _ _ _ _ = Ret _ |- _ => apply copy_at_inv in H; destruct H
  | H : big5_grapheme_literal _ = Some _ |- _ => apply grapheme_some in H
  end;
  try match goal with |- context [encode_utf8 ?c] => pose proof (encode_utf8_some c) end.
Ltac grow H :=
  cbn [es_itr es_in es_out es_buf ds_itr ds_in ds_out ds_buf] in *; paths H; try discriminate H;
  injection H; clear H; intros; subst;
  cbn [es_itr es_in es_out es_buf ds_itr ds_in ds_out ds_buf fst snd] in *; written; lia.
Lemma utf16_encode_grows max big : enc_grows 2 (w_utf16_encode_body max big).
Proof. intros [itr i o buf] st' H. unfold w_utf16_encode_body in H. grow H. Qed.
Lemma utf32_encode_grows max big : enc_grows 4 (w_utf32_encode_body max big).
Proof. intros [itr i o buf] st' H. unfold w_utf32_encode_body in H. grow H. Qed.
Lemma sb_encode_grows max table : enc_grows 1 (w_ascii_ext_encode_body max table).
Proof. intros [itr i o buf] st' H. unfold w_ascii_ext_encode_body in H. grow H. Qed.
Lemma big5_encode_grows max table is_end : enc_grows 1 (w_big5_encode_body max table is_end).
Proof. intros [itr i o buf] st' H. unfold w_big5_encode_body in H. grow H. Qed.
Lemma sjis_encode_grows max table : enc_grows 1 (w_sjis_encode_body max table).
Proof. intros [itr i o buf] st' H. unfold w_sjis_encode_body in H. grow H. Qed.
Lemma utf16_decode_grows max big input is_end : dec_grows 1 (w_utf16_decode_body max big input is_end).
Proof. intros [itr i o buf] st' H. unfold w_utf16_decode_body, w_copy_string in H. grow H. Qed.
Lemma utf32_decode_grows max big input is_end : dec_grows 1 (w_utf32_decode_body max big input is_end).
Proof. intros [itr i o buf] st' H. unfold w_utf32_decode_body, w_copy_string in H. grow H. Qed.
Lemma sb_decode_grows max table : dec_grows 1 (w_ascii_ext_decode_body max table).
Proof. intros [itr i o buf] st' H. unfold w_ascii_ext_decode_body, w_copy_string in H. grow H. Qed.
Lemma big5_decode_grows max table is_end : dec_grows 1 (w_big5_decode_body max table is_end).
Proof. intros [itr i o buf] st' H. unfold w_big5_decode_body, w_copy_string in H. grow H. Qed.
Lemma sjis_decode_grows max table is_end : dec_grows 1 (w_sjis_decode_body max table is_end).
Proof. intros [itr i o buf] st' H. unfold w_sjis_decode_body, w_copy_string in H. grow H. Qed.

(** ** The other loops *)

(* where a position in a text is *)
Lemma locate cs i : text cs -> (i < List.length (utf8 cs))%nat ->
  exists pre c post k, cs = pre ++ c :: post /\ text post /\ scalar c /\ i = (List.length (utf8 pre) + k)%nat /\ (k < List.length (utf8_char c))%nat.
Proof.
  intros T. revert i. induction T as [|c cs Hc T IH]; intros i L; [cbn in L; lia|].
  rewrite utf8_cons, app_length in L. destruct (Nat.lt_ge_cases i (List.length (utf8_char c))) as [H|H].
  - exists [], c, cs, i. repeat split; assumption.
  - destruct (IH (i - List.length (utf8_char c))%nat ltac:(lia)) as (pre & c' & post & k & -> & Tp & Hc' & E & K).
    exists (c :: pre), c', post, k. rewrite utf8_cons, app_length. repeat split; try assumption. lia.
Qed.
Lemma char_len c : scalar c -> (1 <= List.length (utf8_char c) <= 4)%nat.
Proof. unfold scalar, utf8_char. intros H. repeat match goal with |- context [if ?b then _ else _] => destruct b end; cbn [List.length]; lia. Qed.

Lemma not_beyond max s n : forall i r, (List.length s < i)%nat -> loop n (to_boundary max s) i <> Ret r.
Proof.
  induction n as [|n IH]; intros i r L; [discriminate|]. cbn [loop]. unfold to_boundary at 1.
  replace (is_char_boundary s i) with false.
  - unfold add_usz. destruct (_ <=? _); cbn [bind]; [|discriminate]. apply IH. lia.
  - unfold is_char_boundary. rewrite (proj2 (nth_error_None s i)) by lia.
    replace ((i =? 0)%nat || (i =? List.length s)%nat) with false by lia. reflexivity.
Qed.
Lemma boundary_within max cs n fuel i : text cs -> (4 <= fuel)%nat -> within n fuel (to_boundary max (utf8 cs)) i.
Proof.
  intros T F. destruct (Nat.lt_trichotomy i (List.length (utf8 cs))) as [L|[->|L]].
  2: { intros r E. destruct n as [|n]; [discriminate E|]. destruct fuel as [|fuel]; [lia|]. cbn [loop] in *. unfold to_boundary in *.
       rewrite boundary_end in * by exact T. exact E. }
  2: { intros r E. exfalso. exact (not_beyond max (utf8 cs) n i r L E). }
  destruct (locate cs i T L) as (pre & c & post & k & -> & Tp & Hc & -> & K). pose proof (char_len c Hc) as W. clear L.
  assert (Tc : text (c :: post)) by (constructor; assumption).
  assert (G : forall m k n fuel, (k + m = List.length (utf8_char c))%nat -> (m < fuel)%nat ->
    within n fuel (to_boundary max (utf8 (pre ++ c :: post))) (List.length (utf8 pre) + k)%nat).
  { clear k K n fuel F. induction m as [|m IH]; intros k n fuel E F r H.
    - destruct n as [|n]; [discriminate H|]. destruct fuel as [|fuel]; [lia|]. cbn [loop] in *. unfold to_boundary in *.
      assert (B : is_char_boundary (utf8 (pre ++ c :: post)) (List.length (utf8 pre) + k) = true).
      { pose proof (boundary_true (pre ++ [c]) post Tp) as B. rewrite <- app_assoc in B. cbn [app] in B.
        replace (List.length (utf8 pre) + k)%nat with (List.length (utf8 (pre ++ [c]))); [exact B|].
        rewrite utf8_app, app_length. cbn [utf8 flat_map]. rewrite app_nil_r. lia. }
      rewrite B in *. exact H.
    - destruct n as [|n]; [discriminate H|]. destruct fuel as [|fuel]; [lia|]. cbn [loop] in *. unfold to_boundary at 1 in H. unfold to_boundary at 1.
      destruct (is_char_boundary _ _); [exact H|]. unfold add_usz in *. destruct (_ <=? _); [|discriminate H]. cbn [bind] in *.
      replace (List.length (utf8 pre) + k + 1)%nat with (List.length (utf8 pre) + (k + 1))%nat in * by lia.
      apply (IH (k + 1)%nat n fuel); [lia|lia|exact H]. }
  destruct (Nat.eq_dec k 0) as [->|D].
  - intros r H. destruct n as [|n]; [discriminate H|]. destruct fuel as [|fuel]; [lia|]. cbn [loop] in *. unfold to_boundary in *.
    rewrite Nat.add_0_r, boundary_true in * by exact Tc. exact H.
  - apply (G (List.length (utf8_char c) - k)%nat); lia.
Qed.

Lemma copy_within_text cs n fuel : text cs -> (4 <= fuel)%nat -> copy_within fuel (utf8 cs) n.
Proof.
  intros T F L. destruct (locate cs n T L) as (pre & c & post & k & -> & Tp & Hc & -> & K). pose proof (char_len c Hc) as W. clear L.
  generalize (S (List.length (utf8 pre) + k)) as m. assert (Fk : (k < fuel)%nat) by lia. clear F. revert fuel Fk.
  destruct (utf8_char_head c Hc) as (b & r & Hb & Hv & Hr). rewrite Hb in *.
  assert (I : forall k, idx (utf8 (pre ++ c :: post)) (List.length (utf8 pre) + k) = idx ((b :: r) ++ utf8 post) k).
  { intros j. unfold idx. rewrite utf8_app, utf8_cons, Hb, nth_error_app2 by lia. f_equal. replace (_ + j - _)%nat with j by lia. reflexivity. }
  induction k as [|k IH]; intros fuel Fk n x H.
  - destruct n as [|n]; [discriminate H|]. destruct fuel as [|fuel]; [lia|]. cbn [loop] in *. unfold back_body in *.
    rewrite I in *. destruct (0 <? _)%nat; [|exact H]. cbn [app idx nth_error bind] in *.
    replace (N.land b 192 =? 128) with false in *; [exact H|].
    symmetry. destruct (N.land b 192 =? 128) eqn:E; [exfalso|reflexivity].
    pose proof (utf8_char_bytes c Hc) as Y. rewrite Hb in Y. inversion Y; subst. rewrite mask_C0 in E by assumption. lia.
  - destruct n as [|n]; [discriminate H|]. destruct fuel as [|fuel]; [lia|]. cbn [loop] in *. unfold back_body at 1 in H. unfold back_body at 1.
    destruct (0 <? _)%nat; [|exact H]. destruct (idx _ _) as [x0| | |]; cbn [bind] in *; try exact H.
    destruct (_ =? 128); [|exact H]. unfold sub_usz in *. destruct (_ <=? _)%nat; cbn [bind] in *; [|exact H].
    replace (List.length (utf8 pre) + S k - 1)%nat with (List.length (utf8 pre) + k)%nat in * by lia.
    exact (IH ltac:(cbn [List.length] in *; lia) fuel ltac:(lia) n x H).
Qed.

Lemma error_end_within max s n : forall fuel i j, loop n (error_body max s) i = Ret (inl j) ->
  (i <= j <= Nat.max i (List.length s))%nat /\ ((j - i < fuel)%nat -> loop fuel (error_body max s) i = Ret (inl j)).
Proof.
  induction n as [|n IH]; intros fuel i j H; [discriminate H|]. cbn [loop] in H. unfold error_body at 1 in H.
  destruct (i <? List.length s)%nat eqn:L; cbn [bind] in H.
  2: { apply Ret_inj in H. assert (i = j) by congruence. subst. split; [lia|]. intros F. destruct fuel as [|fuel]; [lia|]. cbn [loop]. unfold error_body. rewrite L. reflexivity. }
  destruct (idx s i) as [b| | |] eqn:X; cbn [bind] in H; try discriminate H.
  destruct (_ || _) eqn:O.
  - destruct (add_usz max i 1) as [k| | |] eqn:A; cbn [bind] in H; try discriminate H.
    pose proof (proj1 (add_usz_inv _ _ _ _ A)) as ->. destruct (IH (fuel - 1)%nat _ _ H) as [L1 L2]. split; [lia|]. intros F. destruct fuel as [|fuel]; [lia|].
    cbn [loop]. unfold error_body at 1. rewrite L, X. cbn [bind]. rewrite O, A. cbn [bind]. replace (S fuel - 1)%nat with fuel in L2 by lia. apply L2. lia.
  - cbn [bind] in H. apply Ret_inj in H. assert (i = j) by congruence. subst. split; [lia|]. intros F. destruct fuel as [|fuel]; [lia|].
    cbn [loop]. unfold error_body. rewrite L, X. cbn [bind]. rewrite O. reflexivity.
Qed.

(** ** Calls *)

(* the least number of bytes written for a character *)
Definition least (e : encoding) : nat :=
  match e with Utf16BE | Utf16LE => 2 | Utf32BE | Utf32LE => 4 | _ => 1 end.
Lemma encode_bounded max fuel e cs out is_end : text cs -> (List.length out < least e * fuel)%nat -> (4 <= fuel)%nat ->
  encode_within max fuel e (utf8 cs) out is_end.
Proof.
  intros T L F. destruct e; cbn [encode_within least] in *;
    try (split; [intros itr; eapply enc_grows_within; [|exact L]|intros i; apply boundary_within; assumption]).
  - apply copy_within_text; assumption.
  - apply utf16_encode_grows.
  - apply utf16_encode_grows.
  - apply utf32_encode_grows.
  - apply utf32_encode_grows.
  - apply big5_encode_grows.
  - apply sjis_encode_grows.
  - apply sb_encode_grows.
Qed.
Lemma encode_bounded8 max fuel cs out is_end : text cs -> (4 <= fuel)%nat -> encode_within max fuel Utf8 (utf8 cs) out is_end.
Proof. intros T F. cbn [encode_within]. apply copy_within_text; assumption. Qed.
Lemma decode_bounded max fuel e bs out is_end res : e <> Utf8 -> (List.length out < fuel)%nat -> decode_within max fuel e bs out is_end res.
Proof.
  intros D L. assert (L' : (List.length out < 1 * fuel)%nat) by lia. clear L. destruct e; cbn [decode_within] in *; try (eapply dec_grows_within; [|exact L']).
  - contradiction.
  - apply utf16_decode_grows.
  - apply utf16_decode_grows.
  - apply utf32_decode_grows.
  - apply utf32_decode_grows.
  - apply big5_decode_grows.
  - apply sjis_decode_grows.
  - apply sb_decode_grows.
Qed.
Lemma decode_utf8_bounded max fuel bs out is_end r buf : bytes bs -> (4 <= fuel)%nat ->
  (forall cause a b n, r = Err (DecodeError cause (a, b) n) -> (b - a <= fuel)%nat) ->
  decode_word max Utf8 bs out is_end = Ret (r, buf) -> decode_within max fuel Utf8 bs out is_end (r, buf).
Proof.
  intros B F R W. cbn [decode_within]. split.
  - destruct (valid_up_to_split bs B) as (cs & t & T & E & V & _). rewrite V, E, firstn_app, firstn_all, Nat.sub_diag. cbn [firstn]. rewrite app_nil_r.
    apply copy_within_text; assumption.
  - intros e buf' X [j|[]] H. cbn [decode_word] in W. injection X as -> _. unfold w_utf8_decode_to_str in W.
    destruct (error_end_within max bs _ fuel _ _ H) as [L1 L2]. apply L2. clear L2.
    paths W; try discriminate.
    + injection W as <- _. specialize (R _ _ _ _ eq_refl).
      unfold w_utf8_error_end in E8. change (loop (R := Empty_set) (S (List.length bs)) _ _) with (loop (S (List.length bs)) (error_body max bs) (utf8_valid_up_to bs + 1)%nat) in E8.
      rewrite H in E8. cbn [bind] in E8. apply Ret_inj in E8. subst. lia.
    + injection W as <- _. specialize (R _ _ _ _ eq_refl). lia.
Qed.
