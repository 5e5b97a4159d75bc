(* C64: the functions of Rust's core library that the crate calls, as RustCore.v and Prelude.v define them, do what their
   documentation says.  The documentation is expressed with the terms of Spec.v only. *)
From Coq Require Import List NArith Arith Bool Lia ZArith.
From Verif Require Import Tac Encodings Spec Prelude RustCore ProofUtf8 Search.
Import ListNotations.
Local Open Scope nat_scope.

(** * C64 *)

(** ** char *)

(* char::from_u32: "a u32 that is a valid char"; the unchecked variant is only defined for those *)
Theorem C64_from_u32 : forall c,
  (scalar c -> from_u32 c = Some c /\ from_u32_unchecked c = Ret c) /\ (~ scalar c -> from_u32 c = None /\ from_u32_unchecked c = UB).
Proof.
  intros c. unfold from_u32, from_u32_unchecked. pose proof (is_char_scalar c) as H. destruct (is_char c); split; intros X; auto.
  - exfalso. apply X, H. reflexivity.
  - apply H in X. discriminate X.
Qed.

(* char::encode_utf8, char::len_utf8, char::len_utf16 *)
Theorem C64_encode_utf8 : forall c, scalar c -> encode_utf8 c = utf8_char c /\ len_utf8 c = length (utf8_char c).
Proof. intros c H. split; [apply utf8_char_encode, H|symmetry; apply utf8_char_len]. Qed.

Theorem C64_len_utf16 : forall c big, scalar c -> 2 * len_utf16 c = length (utf16_char big c).
Proof.
  intros c big H. rewrite len_utf16_val by exact H. unfold utf16_char, unit16. destruct (c <? 0x10000)%N, big; reflexivity.
Qed.

(** ** str *)

(* str::char_indices: the characters of the string in order, each with the byte position it starts at *)
Theorem C64_char_indices : forall cs, text cs -> exists l, char_indices (utf8 cs) = Ret l /\ length l = length cs /\
  forall k c, nth_error cs k = Some c -> nth_error l k = Some (length (utf8 (firstn k cs)), c).
Proof.
  intros cs H. exists (offsets 0 cs). split; [apply char_indices_offsets, H|]. clear H.
  assert (G : forall off, length (offsets off cs) = length cs /\
    forall k c, nth_error cs k = Some c -> nth_error (offsets off cs) k = Some (off + length (utf8 (firstn k cs)), c)).
  { induction cs as [|d cs IH]; intros off; [split; [reflexivity|]; intros [|k] c; discriminate|].
    cbn [offsets]. destruct (IH (off + length (utf8_char d))) as [L N]. split; [cbn [length]; rewrite L; reflexivity|].
    intros [|k] c; cbn [nth_error firstn].
    - intros E. injection E as ->. cbn [utf8 flat_map length]. rewrite Nat.add_0_r. reflexivity.
    - intros E. rewrite (N k c E), utf8_cons, app_length, Nat.add_assoc. reflexivity. }
  destruct (G 0) as [L N]. split; [exact L|]. intros k c E. rewrite (N k c E). reflexivity.
Qed.

(* str::is_char_boundary: "the first byte in a UTF-8 code point sequence or the end of the string"; false beyond the end *)
Theorem C64_is_char_boundary : forall cs i, text cs ->
  (is_char_boundary (utf8 cs) i = true <-> exists pre post, cs = pre ++ post /\ i = length (utf8 pre)).
Proof.
  intros cs i H. split.
  - intros B. destruct (Nat.le_gt_cases i (length (utf8 cs))) as [L|L].
    2: { exfalso. unfold is_char_boundary in B. replace (i =? 0) with false in B by (symmetry; apply Nat.eqb_neq; lia).
         replace (i =? length (utf8 cs)) with false in B by (symmetry; apply Nat.eqb_neq; lia). cbn [orb] in B.
         rewrite (proj2 (nth_error_None (utf8 cs) i)) in B by lia. discriminate B. }
    assert (G : forall post pre, cs = pre ++ post -> length (utf8 pre) <= i -> exists pre post, cs = pre ++ post /\ i = length (utf8 pre)).
    { induction post as [|c post IH]; intros pre E Hp.
      - exists pre, []. split; [exact E|]. rewrite app_nil_r in E. subst pre. lia.
      - destruct (Nat.eq_dec i (length (utf8 pre))) as [->|D]; [exists pre, (c :: post); auto|].
        destruct (Nat.le_gt_cases (length (utf8 pre) + length (utf8_char c)) i) as [G|G].
        + apply (IH (pre ++ [c])); [rewrite <- app_assoc; exact E|]. rewrite utf8_app, app_length, utf8_single. exact G.
        + exfalso. assert (Hc : scalar c) by (subst cs; apply Forall_app in H; destruct H as [_ H]; inversion H; assumption).
          pose proof (boundary_false pre c post (i - length (utf8 pre)) Hc ltac:(lia)) as F. rewrite <- E in F.
          replace (length (utf8 pre) + (i - length (utf8 pre))) with i in F by lia. congruence. }
    apply (G cs []); [reflexivity|]. cbn. lia.
  - intros (pre & post & -> & ->). apply boundary_true. apply Forall_app in H. apply H.
Qed.

(* core::str::from_utf8: Ok for well-formed strings; otherwise Utf8Error::valid_up_to is "the maximum index such that
   from_utf8(&input[..index]) would return Ok" *)
Theorem C64_from_utf8 : forall bs n, bytes bs ->
  (utf8_valid_up_to bs = n <-> n <= length bs /\ well_formed_utf8 (firstn n bs) /\
    forall m, m <= length bs -> well_formed_utf8 (firstn m bs) -> m <= n).
Proof.
  assert (M : forall bs m, m <= length bs -> well_formed_utf8 (firstn m bs) -> m <= utf8_valid_up_to bs).
  { intros bs m Hm (cs & Ht & E). rewrite <- (firstn_skipn m bs), E, valid_up_to_app by exact Ht. rewrite <- E, firstn_length_le by exact Hm. lia. }
  assert (W : forall bs, bytes bs -> well_formed_utf8 (firstn (utf8_valid_up_to bs) bs)).
  { intros bs Hb. destruct (valid_up_to_split bs Hb) as (cs & r & Ht & E & V & _). exists cs. split; [exact Ht|]. rewrite V, E.
    rewrite firstn_app, Nat.sub_diag, firstn_all, firstn_O, app_nil_r. reflexivity. }
  intros bs n Hb. split.
  - intros <-. split; [apply valid_up_to_le|]. split; [apply W, Hb|intros m; apply M].
  - intros (L & Wn & X). pose proof (M bs n L Wn). pose proof (X _ (valid_up_to_le bs) (W bs Hb)). lia.
Qed.

(* core::str::from_utf8_unchecked: defined for well-formed strings only *)
Theorem C64_from_utf8_unchecked : forall bs, bytes bs ->
  (well_formed_utf8 bs -> from_utf8_unchecked bs = Ret bs) /\ (~ well_formed_utf8 bs -> from_utf8_unchecked bs = UB).
Proof.
  intros bs Hb. split.
  - intros (cs & Ht & ->). apply from_utf8_unchecked_text, Ht.
  - intros X. unfold from_utf8_unchecked. destruct (Nat.eqb_spec (utf8_valid_up_to bs) (length bs)) as [E|E]; [|reflexivity].
    exfalso. apply X. apply C64_from_utf8 in E; [|exact Hb]. rewrite firstn_all in E. apply E.
Qed.

(** ** Integers *)

(* the number that bytes denote, the first one being the least significant *)
Fixpoint number (bs : list N) : N := match bs with [] => 0 | b :: r => b + 256 * number r end%N.

Theorem C64_to_bytes : forall x,
  (x < 0x10000 -> number (u16_to_le_bytes x) = x /\ length (u16_to_le_bytes x) = 2%nat /\ bytes (u16_to_le_bytes x) /\ u16_to_be_bytes x = rev (u16_to_le_bytes x))%N /\
  (x < 0x100000000 -> number (u32_to_le_bytes x) = x /\ length (u32_to_le_bytes x) = 4%nat /\ bytes (u32_to_le_bytes x) /\ u32_to_be_bytes x = rev (u32_to_le_bytes x))%N.
Proof.
  intros x. split; intros H; (split; [unfold u16_to_le_bytes, u32_to_le_bytes; cbn [number]; lia|]);
    (split; [reflexivity|]); (split; [|reflexivity]); unfold u16_to_le_bytes, u32_to_le_bytes; repeat constructor; lia.
Qed.

Theorem C64_from_bytes : forall a b c d,
  u16_from_le_bytes a b = number [a; b] /\ u16_from_be_bytes a b = number [b; a] /\
  u32_from_le_bytes a b c d = number [a; b; c; d] /\ u32_from_be_bytes a b c d = number [d; c; b; a].
Proof.
  intros a b c d. unfold u16_from_le_bytes, u16_from_be_bytes, u32_from_le_bytes, u32_from_be_bytes. cbn [number]. repeat split; lia.
Qed.

(** ** Slices *)

(* slice::chunks: "n elements at a time, starting at the beginning; if n does not divide the length, the last chunk will not
   have length n" *)
Theorem C64_chunks : forall n bs, 1 <= n -> concat (chunks n bs) = bs /\
  forall k c, nth_error (chunks n bs) k = Some c -> 1 <= length c <= n /\ (S k < length (chunks n bs) -> length c = n).
Proof.
  intros n bs Hn.
  assert (G : forall fuel bs, length bs <= fuel -> concat (chunks_fuel fuel n bs) = bs /\
    forall k c, nth_error (chunks_fuel fuel n bs) k = Some c -> 1 <= length c <= n /\ (S k < length (chunks_fuel fuel n bs) -> length c = n)).
  { induction fuel as [|f IH]; intros [|b r] L; cbn [chunks_fuel].
    - split; [reflexivity|]. intros [|k] c; discriminate.
    - cbn in L. lia.
    - split; [reflexivity|]. intros [|k] c; discriminate.
    - assert (Ls : length (skipn n (b :: r)) <= f) by (rewrite skipn_length; cbn [length] in *; lia).
      destruct (IH _ Ls) as [Ec En]. cbn [concat]. rewrite Ec, firstn_skipn. split; [reflexivity|].
      intros [|k] c; cbn [nth_error length].
      + intros E. injection E as <-. split; [rewrite firstn_length; cbn [length]; lia|].
        intros X. rewrite firstn_length_le; [reflexivity|]. destruct (Nat.le_gt_cases n (length (b :: r))) as [Y|Y]; [exact Y|].
        exfalso. rewrite skipn_all2 in X by lia. destruct f; cbn in X; lia.
      + intros E. destruct (En k c E) as [A B]. split; [exact A|]. intros X. apply B. lia. }
  apply G. reflexivity.
Qed.

(* slice::binary_search_by_key on a slice sorted by the key, which may have equal keys: "If the value is found then Ok is
   returned, containing the index of the matching element.  If there are multiple matches, then any one of the matches could be
   returned.  If the value is not found then Err is returned" *)
Definition sorted {V} (t : list (N * V)) : Prop := forall i j x y, i < j -> nth_error t i = Some x -> nth_error t j = Some y -> (fst x <= fst y)%N.

Lemma search_loop {V} (t : list (N * V)) key : sorted t -> forall fuel base size,
  size < fuel -> 1 <= size -> base + size <= length t ->
  (base = 0 \/ exists x, nth_error t base = Some x /\ (fst x <= key)%N) ->
  (forall j x, nth_error t j = Some x -> base + size <= j -> (key < fst x)%N) ->
  exists b, bsearch_loop fuel t key base size = Ret b /\ b < length t /\
    (b = 0 \/ exists x, nth_error t b = Some x /\ (fst x <= key)%N) /\
    (forall j x, nth_error t j = Some x -> b + 1 <= j -> (key < fst x)%N).
Proof.
  intros Ht. induction fuel as [|fuel IH]; intros base size Hf Hs Hl Hlo Hhi; [lia|].
  cbn [bsearch_loop]. destruct (Nat.ltb_spec 1 size).
  - assert (Hd : 1 <= Nat.div2 size < size).
    { destruct size as [|[|size]]; try lia. split; [cbn; lia|]. apply Nat.lt_div2. lia. }
    destruct (nth_error t (base + Nat.div2 size)) as [x|] eqn:E.
    2: { apply nth_error_None in E. lia. }
    unfold idx_unchecked. rewrite E. cbn [bind].
    destruct (N.ltb_spec key (fst x)).
    + apply IH; try lia; auto.
      intros j y Hj Hge. destruct (Nat.lt_trichotomy (base + Nat.div2 size) j) as [L|[L|L]]; try lia.
      * pose proof (Ht _ _ _ _ L E Hj). lia.
      * subst j. rewrite E in Hj. injection Hj as <-. assumption.
      * exfalso. assert (size - Nat.div2 size >= Nat.div2 size).
        { pose proof (Nat.div2_odd size). destruct (Nat.odd size); cbn in *; lia. }
        lia.
    + apply IH; try lia.
      * right. exists x. split; auto.
      * intros j y Hj Hge. apply Hhi with (j := j); auto. lia.
  - assert (size = 1) by lia. subst size. exists base. repeat split; auto; lia.
Qed.

Theorem C64_binary_search : forall V (t : list (N * V)) key, sorted t ->
  (exists i v, binary_search_by_key t key = Ret (Some i) /\ nth_error t i = Some (key, v)) \/
  (binary_search_by_key t key = Ret None /\ forall v, ~ In (key, v) t).
Proof.
  intros V t key Ht. unfold binary_search_by_key. destruct (Nat.eqb_spec (length t) 0) as [E0|E0].
  { right. destruct t; [auto|discriminate]. }
  destruct (search_loop t key Ht (S (length t)) 0 (length t)) as (b & Hb & Hlt & Hlo & Hhi); try lia.
  { intros j x Hj Hge. assert (nth_error t j <> None) by congruence. apply nth_error_Some in H. lia. }
  rewrite Hb. cbn [bind]. unfold idx_unchecked.
  destruct (nth_error t b) as [[k v]|] eqn:E. 2: { apply nth_error_None in E. lia. }
  cbn [bind fst]. destruct (N.eqb_spec k key) as [->|Hne]; [left; exists b, v; auto|].
  right. split; [reflexivity|]. intros v' Hin. apply In_nth_error in Hin. destruct Hin as [j Ej].
  destruct (Nat.lt_trichotomy j b) as [L|[L|L]].
  - destruct Hlo as [->|(x & Ex & Hx)]; [lia|]. injection Ex as <-.
    pose proof (Ht _ _ _ _ L Ej E) as X. cbn [fst] in *. lia.
  - subst. congruence.
  - pose proof (Hhi j _ Ej ltac:(lia)) as X. cbn in X. lia.
Qed.

(* l[a..b].copy_from_slice(src), l[i] = v, &l[..n]: what changes, what does not, and when they panic *)
Theorem C64_copy_from_slice : forall (l src : list N) a b,
  (a <= b /\ b <= length l /\ length src = b - a ->
    exists l', copy_at l a b src = Ret l' /\ length l' = length l /\
    forall i, nth_error l' i = if (a <=? i) && (i <? b) then nth_error src (i - a) else nth_error l i) /\
  (~ (a <= b /\ b <= length l /\ length src = b - a) -> copy_at l a b src = Panic).
Proof.
  intros l src a b. unfold copy_at. split.
  - intros (H1 & H2 & H3). rewrite (proj2 (Nat.leb_le a b)), (proj2 (Nat.leb_le b (length l))), (proj2 (Nat.eqb_eq _ _) H3) by assumption.
    cbn [andb]. eexists. split; [reflexivity|]. split; [rewrite !app_length, firstn_length_le, skipn_length by lia; lia|].
    intros i. destruct (Nat.leb_spec a i), (Nat.ltb_spec i b); cbn [andb].
    + rewrite nth_error_app2 by (rewrite firstn_length_le; lia). rewrite firstn_length_le by lia. apply nth_error_app1. lia.
    + rewrite nth_error_app2 by (rewrite firstn_length_le; lia). rewrite firstn_length_le by lia. rewrite nth_error_app2 by lia.
      rewrite <- (firstn_skipn b l) at 2. rewrite (nth_error_app2 (firstn b l)) by (rewrite firstn_length_le; lia).
      rewrite firstn_length_le by lia. f_equal. lia.
    + rewrite nth_error_app1 by (rewrite firstn_length_le; lia).
      rewrite <- (firstn_skipn a l) at 2. rewrite nth_error_app1 by (rewrite firstn_length_le; lia). reflexivity.
    + lia.
  - intros H. destruct (Nat.leb_spec a b), (Nat.leb_spec b (length l)), (Nat.eqb_spec (length src) (b - a)); cbn [andb]; try reflexivity.
    exfalso. auto.
Qed.

Theorem C64_indexing : forall (l : list N) i v,
  (i < length l -> exists x l', nth_error l i = Some x /\ idx l i = Ret x /\ upd l i v = Ret l' /\ length l' = length l /\
    forall j, nth_error l' j = if j =? i then Some v else nth_error l j) /\
  (length l <= i -> idx l i = Panic /\ upd l i v = Panic) /\
  (i <= length l -> slice_to l i = Ret (firstn i l)) /\ (length l < i -> slice_to l i = Panic).
Proof.
  intros l i v. unfold idx, upd, slice_to. split; [|split; [|split]].
  - intros H. destruct (nth_error l i) as [x|] eqn:E; [|apply nth_error_None in E; lia]. rewrite (proj2 (Nat.ltb_lt _ _) H).
    exists x. eexists. repeat (split; [reflexivity|]). split; [rewrite app_length, firstn_length_le by lia; cbn [length]; rewrite skipn_length; lia|].
    intros j. destruct (Nat.eqb_spec j i) as [->|D].
    + rewrite nth_error_app2 by (rewrite firstn_length_le; lia). rewrite firstn_length_le, Nat.sub_diag by lia. reflexivity.
    + destruct (Nat.lt_ge_cases j i).
      * rewrite nth_error_app1 by (rewrite firstn_length_le; lia).
        rewrite <- (firstn_skipn i l) at 2. rewrite nth_error_app1 by (rewrite firstn_length_le; lia). reflexivity.
      * rewrite nth_error_app2 by (rewrite firstn_length_le; lia). rewrite firstn_length_le by lia.
        replace (j - i) with (S (j - S i)) by lia. cbn [nth_error].
        rewrite <- (firstn_skipn (S i) l) at 2. rewrite nth_error_app2 by (rewrite firstn_length_le; lia).
        rewrite firstn_length_le by lia. reflexivity.
  - intros H. rewrite (proj2 (nth_error_None l i) H), (proj2 (Nat.ltb_ge _ _) H). auto.
  - intros H. rewrite (proj2 (Nat.leb_le _ _) H). reflexivity.
  - intros H. rewrite (proj2 (Nat.leb_gt _ _) H). reflexivity.
Qed.

(** ** Instances *)

(* "Aé€😀": four characters at positions 0, 1, 3, 6 *)
Example char_indices_example : char_indices [0x41; 0xC3; 0xA9; 0xE2; 0x82; 0xAC; 0xF0; 0x9F; 0x98; 0x80]%N =
  Ret [(0, 0x41%N); (1, 0xE9%N); (3, 0x20AC%N); (6, 0x1F600%N)].
Proof. reflexivity. Qed.

(* a truncated and an overlong sequence *)
Example from_utf8_example : utf8_valid_up_to [0x41; 0xC3; 0xA9; 0xE2; 0x82]%N = 3 /\ utf8_valid_up_to [0x41; 0xC0; 0x80]%N = 1 /\
  utf8_valid_up_to [0xED; 0xA0; 0x80]%N = 0.
Proof. repeat split. Qed.

Example boundary_example : map (is_char_boundary [0x41; 0xE2; 0x82; 0xAC]%N) [0; 1; 2; 3; 4; 5] = [true; true; false; false; true; false].
Proof. reflexivity. Qed.

Example chunks_example : chunks 2 [1; 2; 3; 4; 5]%N = [[1; 2]; [3; 4]; [5]]%N.
Proof. reflexivity. Qed.

Example search_example : sorted [(1, 10); (3, 11); (3, 12); (5, 13)]%N /\
  binary_search_by_key [(1, 10); (3, 11); (3, 12); (5, 13)]%N 3 = Ret (Some 2) /\ binary_search_by_key [(1, 10); (3, 11); (3, 12); (5, 13)]%N 4 = Ret None.
Proof.
  split; [|split; reflexivity]. intros i j x y L. do 4 (destruct i as [|i]; [do 4 (destruct j as [|j]; [cbn; try lia; intros A B; injection A as <-; injection B as <-; cbn; lia|]); destruct j; discriminate|]).
  destruct i; discriminate.
Qed.

Definition core_theorems := (C64_from_u32, C64_encode_utf8, C64_len_utf16, C64_char_indices, C64_is_char_boundary, C64_from_utf8,
  C64_from_utf8_unchecked, C64_to_bytes, C64_from_bytes, C64_chunks, C64_binary_search, C64_copy_from_slice, C64_indexing).
Print Assumptions core_theorems.
