(* C65: what becomes of data that is decoded and encoded again. *)
From Coq Require Import List NArith Arith Bool Lia ZArith.
From Verif Require Import Tac Encodings Spec SpecErrors RefBig5 RefSjis Prelude RustCore Types ModelApi TabBig5 TabSjis Trie.
From Verif Require Import ProofUtf8 Engine Search NextEnc NextDec NextUtf8 Tables Units Decide Greedy ProofApi ProofMore ProofRound PropRound.
Import ListNotations.
Local Open Scope nat_scope.

(** * C65 *)

(* w is a code sequence of the encoding, and w' the one that encoding its meaning gives *)
Definition reencoded (e : encoding) (w w' : list N) : Prop := exists u, DecUnit e w u /\ EncUnit e u w'.

Lemma unit_longest e u w : EncUnit e u w -> longest e u (u ++ []).
Proof.
  intros H. assert (D : e = Big5WHATWG \/ e <> Big5WHATWG) by (destruct e; auto; right; discriminate).
  destruct D as [->|D]; [eapply big5_longest; [exact H|discriminate]|eapply longest_e; eassumption].
Qed.

Lemma enc_unit_det e u w w' : EncUnit e u w -> EncUnit e u w' -> w = w'.
Proof.
  intros H H'. assert (G : forall w, EncUnit e u w -> Encoded e (u ++ []) (w ++ [])).
  { intros x Hx. constructor; [exact Hx|eapply unit_longest, Hx|constructor]. }
  pose proof (Encoded_det _ _ _ _ (G w H) (G w' H')) as E. rewrite !app_nil_r in E. exact E.
Qed.

Lemma reencoded_det e w w1 w2 : reencoded e w w1 -> reencoded e w w2 -> w1 = w2.
Proof.
  intros (u & D & E) (u' & D' & E').
  assert (G : forall u, DecUnit e w u -> Decoded e (w ++ []) (u ++ [])) by (intros x Hx; constructor; [exact Hx|constructor]).
  pose proof (Decoded_det _ _ _ _ (G _ D) (G _ D')) as X. rewrite !app_nil_r in X. subst u'. eapply enc_unit_det; eassumption.
Qed.

(* UTF encodings and single-byte encodings: nothing changes *)
Lemma same_unit e w u : e <> Big5WHATWG -> e <> ShiftJISWHATWG -> DecUnit e w u -> EncUnit e u w.
Proof.
  intros H1 H2 D. destruct e; try congruence; cbn [DecUnit EncUnit] in *;
    first [destruct D as (b & c & H & -> & ->); exists b, c; auto; fail|destruct D as (c & H & -> & ->); exists c; auto].
Qed.

Lemma dec_enc_unit e w u : DecUnit e w u -> exists w', EncUnit e u w' /\ length w' = length w.
Proof.
  intros D. assert (X : e = Big5WHATWG \/ e = ShiftJISWHATWG \/ (e <> Big5WHATWG /\ e <> ShiftJISWHATWG))
    by (destruct e; auto; right; right; split; discriminate).
  destruct X as [->|[->|[H1 H2]]].
  - cbn [DecUnit] in D. destruct D as [(b & Hb & -> & ->)|[(p & c & Hp & -> & ->)|(p & Hp & ->)]].
    + exists [b]. split; [left; eauto|reflexivity].
    + destruct big5_facts as (_ & _ & _ & F4 & F5 & _). destruct (F5 p c Hp) as (_ & _ & v & Hv).
      apply F4 in Hv. destruct Hv as (q & Hq & _). exists (big5_code q). split; [right; left; eauto|reflexivity].
    + exists (big5_code p). split; [right; right; eauto|reflexivity].
  - destruct D as [(b & Hb & -> & ->)|[(b & Hb & -> & ->)|[(p & c & Hp & -> & ->)|(p & Hp & -> & ->)]]].
    + exists [b]. split; [left; exists b; auto|reflexivity].
    + exists [b]. split; [|reflexivity]. right. right. right. left. exists (b - 0xA1 + 0xFF61)%N. split; [lia|]. split; [reflexivity|]. f_equal. lia.
    + destruct sjis_facts as (_ & _ & _ & F4 & F5 & _). destruct (F5 p c Hp) as (X & _ & _ & v & Hv).
      apply F4 in Hv. destruct Hv as (q & Hq & _). exists (sjis_code q). split; [|reflexivity]. do 6 right. exists c, q. auto.
    + exists (sjis_code p). split; [|reflexivity]. do 4 right. left. exists (p - 8836 + 0xE000)%N. split; [lia|]. split; [reflexivity|]. f_equal. lia.
  - exists w. split; [apply same_unit; assumption|reflexivity].
Qed.

(* a unit in front of decoded text is the longest piece *)
Lemma decoded_longest e u w bs cs : EncUnit e u w -> Decoded e bs cs -> longest e u (u ++ cs).
Proof.
  intros H HD. assert (D : e = Big5WHATWG \/ e <> Big5WHATWG) by (destruct e; auto; right; discriminate).
  destruct D as [->|D]; [|eapply longest_e; eassumption]. eapply big5_longest; [exact H|].
  destruct HD as [|w' u' bs' cs' Hu HD]; [discriminate|]. intros c r E. destruct (dec_unit_shape _ _ _ Hu) as (_ & _ & _ & Hne).
  destruct u' as [|d u']; [congruence|]. injection E as -> _. eapply big5_dec_head, Hu.
Qed.

Lemma Decoded_reencode e bs cs : Decoded e bs cs -> exists ws ws', bs = concat ws /\ Forall2 (reencoded e) ws ws' /\
  Forall2 (fun w w' => length w' = length w) ws ws' /\ Encoded e cs (concat ws').
Proof.
  induction 1 as [|w u bs cs Hu HD (ws & ws' & -> & HF & HL & HE)]; [exists [], []; repeat split; constructor|].
  destruct (dec_enc_unit e w u Hu) as (w' & Hu' & L). exists (w :: ws), (w' :: ws'). split; [reflexivity|].
  split; [constructor; [exists u; auto|exact HF]|]. split; [constructor; assumption|]. cbn [concat].
  constructor; [exact Hu'|eapply decoded_longest; eassumption|exact HE].
Qed.

Lemma app_eq_length (a b c d : list N) : length a = length b -> a ++ c = b ++ d -> a = b /\ c = d.
Proof.
  intros L E. assert (F : a = b).
  { apply (f_equal (firstn (length a))) in E. rewrite firstn_app, Nat.sub_diag, firstn_O, app_nil_r, firstn_all in E.
    rewrite L, firstn_app, Nat.sub_diag, firstn_O, app_nil_r, firstn_all in E. exact E. }
  subst b. apply app_inv_head in E. auto.
Qed.

Lemma concat_lengths (ws ws' : list (list N)) : Forall2 (fun w w' => length w' = length w) ws ws' -> length (concat ws') = length (concat ws).
Proof. induction 1 as [|w w' ws ws' L H IH]; [reflexivity|]. cbn [concat]. rewrite !app_length. congruence. Qed.

(* Data that decodes without error can be encoded again; the result is as long, and every code sequence is replaced by the one
   that stands for the same text. *)
Theorem C65_reencode : forall e is_end bs out s buf, bytes bs -> decode_to_str e bs out is_end = Ret (Ok (s, length bs), buf) ->
  exists ws ws', bs = concat ws /\ Forall2 (reencoded e) ws ws' /\ length (concat ws') = length bs /\
    forall out', length bs <= length out' -> exists buf', encode_from_str e s out' true = Ret (Ok (concat ws', length s), buf').
Proof.
  intros e ie bs out s buf Hb H. destruct (decode_whole _ _ _ _ _ _ Hb H) as (cs & HD & ->).
  destruct (Decoded_reencode e bs cs HD) as (ws & ws' & E & HF & HL & HE). exists ws, ws'. split; [exact E|]. split; [exact HF|].
  apply concat_lengths in HL. rewrite <- E in HL. split; [exact HL|]. intros out' Ho. eexists. apply encode_enough; [exact HE|]. lia.
Qed.

(* what a code sequence is replaced by is determined *)
Theorem C65_replacement_unique : forall e w w1 w2, reencoded e w w1 -> reencoded e w w2 -> w1 = w2.
Proof. exact reencoded_det. Qed.

(* The data comes back unchanged exactly if it consists of code sequences that stand for themselves. *)
Theorem C65_unchanged_iff : forall e is_end bs out s buf out', bytes bs -> decode_to_str e bs out is_end = Ret (Ok (s, length bs), buf) ->
  length bs <= length out' ->
  ((exists buf', encode_from_str e s out' true = Ret (Ok (bs, length s), buf')) <->
   exists ws, bs = concat ws /\ Forall (fun w => reencoded e w w) ws).
Proof.
  intros e ie bs out s buf out' Hb H Ho. destruct (decode_whole _ _ _ _ _ _ Hb H) as (cs & HD & ->). split.
  - intros (buf' & He). destruct (Decoded_reencode e bs cs HD) as (ws & ws' & E & HF & HL & HE). exists ws. split; [exact E|].
    pose proof (concat_lengths _ _ HL) as L. rewrite (encode_enough e cs out' _ HE) in He by (rewrite L, <- E; exact Ho).
    injection He as X _. rewrite E in X. clear -X HF HL. revert X HL. induction HF as [|w w' ws ws' Hw HF IH]; intros X HL; [constructor|].
    inversion HL as [|? ? ? ? L HL']; subst. cbn [concat] in X.
    assert (w' = w /\ concat ws' = concat ws) as [-> X'] by (apply app_eq_length; assumption). constructor; [exact Hw|auto].
  - intros (ws & E & HF).
    assert (X : exists cs', Decoded e (concat ws) cs' /\ Encoded e cs' (concat ws)).
    { clear -HF. induction HF as [|w ws (u & D & U) HF (cs' & HD & HE)]; [exists []; split; constructor|]. exists (u ++ cs'). cbn [concat].
      split; constructor; auto. eapply decoded_longest; eassumption. }
    destruct X as (cs' & HD' & HE). rewrite <- E in *. rewrite <- (Decoded_det _ _ _ _ HD HD') in HE. eexists. apply encode_enough; assumption.
Qed.

(** ** Which code sequences are replaced *)

(* none, in the UTF encodings and the single-byte encodings *)
Theorem C65_no_changes : forall e w w', e <> Big5WHATWG -> e <> ShiftJISWHATWG -> reencoded e w w' -> w' = w.
Proof. intros e w w' H1 H2 (u & D & U). eapply enc_unit_det; [exact U|]. apply same_unit; assumption. Qed.

Definition changes (index : list (N * N)) (table : list (N * (N * N))) (code : N -> list N) : list (list N * list N) :=
  let t := of_list table in
  flat_map (fun pc => match tget t (N.succ_pos (snd pc)) with
    | Some v => if pair_eqb (pair_bytes v) (code (fst pc)) then [] else [(code (fst pc), pair_bytes v)]
    | None => []
    end) index.

Lemma changes_In index table code w w' : In (w, w') (changes index table code) <->
  exists p c v, In (p, c) index /\ assoc table c = Some v /\ w = code p /\ w' = pair_bytes v /\ pair_eqb w' w = false.
Proof.
  unfold changes. rewrite in_flat_map. split.
  - intros ([p c] & Hin & H). cbn [fst snd] in H. rewrite tget_of_list in H. destruct (assoc table c) as [v|] eqn:Ev; [|destruct H].
    destruct (pair_eqb (pair_bytes v) (code p)) eqn:Eq; [destruct H|]. destruct H as [H|[]]. apply pair_equal_spec in H. destruct H as [<- <-].
    exists p, c, v. auto.
  - intros (p & c & v & Hin & Ev & -> & -> & Eq). exists (p, c). split; [exact Hin|]. cbn [fst snd]. rewrite tget_of_list, Ev, Eq. left. reflexivity.
Qed.

Lemma pair_eqb_refl_false a b : pair_eqb [fst a; snd a] b = false -> [fst a; snd a] <> b.
Proof. intros H <-. cbn in H. rewrite !N.eqb_refl in H. discriminate H. Qed.

Lemma pair_eqb_false a b : length a = 2 -> a <> b -> pair_eqb a b = false.
Proof. intros L H. destruct (pair_eqb a b) eqn:E; [|reflexivity]. exfalso. apply H, pair_eqb_ok, E. Qed.

Fixpoint distinct (l : list (list N * list N)) : bool :=
  match l with
  | [] => true
  | x :: r => forallb (fun y => negb (pair_eqb (fst x) (fst y))) r && distinct r
  end.

Lemma distinct_NoDup l : Forall (fun x => length (fst x) = 2) l -> distinct l = true -> NoDup (map fst l).
Proof.
  induction 1 as [|x l Hx Hl IH]; intros H; [constructor|]. cbn [distinct] in H. apply andb_prop in H. destruct H as [H1 H2]. cbn [map].
  constructor; [|auto]. intros Hin. apply in_map_iff in Hin. destruct Hin as (y & E & Hy). rewrite forallb_forall in H1. specialize (H1 y Hy).
  rewrite E in H1. destruct (fst x) as [|a [|b [|]]]; try discriminate Hx. cbn in H1. rewrite !N.eqb_refl in H1. discriminate H1.
Qed.

Lemma changes_two index table code : (forall p, length (code p) = 2) -> Forall (fun x => length (fst x) = 2) (changes index table code).
Proof.
  intros Hc. apply Forall_forall. intros [w w'] H. apply changes_In in H. destruct H as (p & c & v & _ & _ & -> & _). apply Hc.
Qed.

Lemma big5_changes : length (changes big5_index big5_encode_table big5_code) = 100 /\ distinct (changes big5_index big5_encode_table big5_code) = true.
Proof. split; vm_compute; reflexivity. Qed.

Lemma sjis_changes : length (changes jis0208_index sjis_encode_table sjis_code) = 398 /\ distinct (changes jis0208_index sjis_encode_table sjis_code) = true.
Proof. split; vm_compute; reflexivity. Qed.

(* exactly 100 codes of Big5 *)
Theorem C65_big5_changes : exists l, length l = 100 /\ NoDup (map fst l) /\
  forall w w', reencoded Big5WHATWG w w' /\ w' <> w <-> In (w, w') l.
Proof.
  destruct big5_changes as [L D]. exists (changes big5_index big5_encode_table big5_code). split; [exact L|].
  split; [apply distinct_NoDup; [apply changes_two; reflexivity|exact D]|]. clear L D. intros w w'. rewrite changes_In.
  destruct big5_facts as (_ & _ & _ & F4 & F5 & _). split.
  - intros ((u & D & U) & N). cbn [DecUnit] in D. destruct D as [(b & Hb & -> & ->)|[(p & c & Hp & -> & ->)|(p & Hp & ->)]].
    + exfalso. apply N. eapply enc_unit_det; [exact U|]. left. eauto.
    + destruct (F5 p c Hp) as (_ & _ & v & Hv). exists p, c, v. pose proof (proj1 (F4 c v) Hv) as (q & Hq & _ & Eq).
      assert (E : w' = pair_bytes v). { rewrite Eq. eapply enc_unit_det; [exact U|]. right. left. eauto. }
      repeat (split; [assumption||reflexivity|]). apply pair_eqb_false; [rewrite E; reflexivity|exact N].
    + exfalso. apply N. eapply enc_unit_det; [exact U|]. right. right. eauto.
  - intros (p & c & v & Hp & Hv & -> & E & Eq). rewrite E in Eq. pose proof (proj1 (F4 c v) Hv) as (q & Hq & _ & Ec). split.
    + exists [c]. split; [right; left; eauto|]. rewrite E, Ec. right. left. eauto.
    + rewrite E. apply pair_eqb_refl_false, Eq.
Qed.

(* exactly 398 codes of Shift JIS *)
Theorem C65_shift_jis_changes : exists l, length l = 398 /\ NoDup (map fst l) /\
  forall w w', reencoded ShiftJISWHATWG w w' /\ w' <> w <-> In (w, w') l.
Proof.
  destruct sjis_changes as [L D]. exists (changes jis0208_index sjis_encode_table sjis_code). split; [exact L|].
  split; [apply distinct_NoDup; [apply changes_two; reflexivity|exact D]|]. clear L D. intros w w'. rewrite changes_In.
  destruct sjis_facts as (_ & _ & _ & F4 & F5 & _). split.
  - intros ((u & D & U) & N). destruct D as [(b & Hb & -> & ->)|[(b & Hb & -> & ->)|[(p & c & Hp & -> & ->)|(p & Hp & -> & ->)]]].
    + exfalso. apply N. eapply enc_unit_det; [exact U|]. left. exists b. auto.
    + exfalso. apply N. eapply enc_unit_det; [exact U|]. right. right. right. left. exists (b - 0xA1 + 0xFF61)%N.
      split; [lia|]. split; [reflexivity|]. f_equal. lia.
    + destruct (F5 p c Hp) as (_ & _ & _ & v & Hv). exists p, c, v. pose proof (proj1 (F4 c v) Hv) as (q & Hq & Eq).
      assert (E : w' = pair_bytes v). { rewrite Eq. eapply enc_unit_det; [exact U|]. do 6 right. exists c, q. auto. }
      repeat (split; [assumption||reflexivity|]). apply pair_eqb_false; [rewrite E; reflexivity|exact N].
    + exfalso. apply N. eapply enc_unit_det; [exact U|]. do 4 right. left. exists (p - 8836 + 0xE000)%N.
      split; [lia|]. split; [reflexivity|]. f_equal. lia.
  - intros (p & c & v & Hp & Hv & -> & E & Eq). rewrite E in Eq. pose proof (proj1 (F4 c v) Hv) as (q & Hq & Ec). split.
    + exists [c]. split; [right; right; left; exists p, c; auto|]. rewrite E, Ec. do 6 right. exists c, q. auto.
    + rewrite E. apply pair_eqb_refl_false, Eq.
Qed.

(** ** Instances *)

(* "A起" with the second of the two Big5 codes of U+8D77 comes back with the first *)
Example C65_big5_example : exists buf buf',
  decode_to_str Big5WHATWG ([0x41] ++ big5_code 7410)%N (repeat 0%N 8) true = Ret (Ok (utf8 [0x41; 0x8D77]%N, 3), buf) /\
  encode_from_str Big5WHATWG (utf8 [0x41; 0x8D77]%N) (repeat 0%N 8) true = Ret (Ok (([0x41] ++ big5_code 2354)%N, 4), buf').
Proof. do 2 eexists. split; vm_compute; reflexivity. Qed.

(* 纊 is in Shift JIS as an NEC and as an IBM extension *)
Example C65_shift_jis_example : exists buf buf',
  decode_to_str ShiftJISWHATWG [0xED; 0x40; 0xB1]%N (repeat 0%N 8) true = Ret (Ok (utf8 [0x7E8A; 0xFF71]%N, 3), buf) /\
  encode_from_str ShiftJISWHATWG (utf8 [0x7E8A; 0xFF71]%N) (repeat 0%N 8) true = Ret (Ok ([0xFA; 0x5C; 0xB1]%N, 6), buf').
Proof. do 2 eexists. split; vm_compute; reflexivity. Qed.

(* data that stays the same *)
Example C65_unchanged_example : exists buf', encode_from_str Big5WHATWG (utf8 [0xCA; 0x304; 0x41]%N) (repeat 0%N 8) true = Ret (Ok ([0x88; 0x62; 0x41]%N, 5), buf').
Proof.
  assert (D : decode_to_str Big5WHATWG [0x88; 0x62; 0x41]%N (repeat 0%N 8) true = Ret (Ok (utf8 [0xCA; 0x304; 0x41]%N, 3), [0xC3; 0x8A; 0xCC; 0x84; 0x41; 0; 0; 0]%N))
    by (vm_compute; reflexivity).
  assert (B : bytes [0x88; 0x62; 0x41]%N) by (repeat constructor).
  apply (C65_unchanged_iff Big5WHATWG true _ _ _ _ (repeat 0%N 8) B D); [cbn; lia|].
  exists [[0x88; 0x62]; [0x41]]%N. split; [reflexivity|]. constructor; [|constructor; [|constructor]].
  - exists [0xCA; 0x304]%N. split; right; right; exists 1133%N; (split; [left; reflexivity|reflexivity]).
  - exists [0x41%N]. split; left; exists 0x41%N; repeat split.
Qed.

Definition reencode_theorems := (C65_reencode, C65_replacement_unique, C65_unchanged_iff, C65_no_changes, C65_big5_changes, C65_shift_jis_changes).
Print Assumptions reencode_theorems.
