(* C74: the single-byte, Shift JIS and Big5 decoders compared with an independent implementation, the codecs of CPython. *)
From Coq Require Import List NArith Arith Bool Lia.
From Verif Require Import Encodings Spec Prelude RustCore Types ModelApi Tables RefSjis RefBig5 RefBig5_2003 RefPython ProofApi ProofRound PropCalls PropRound.
Import ListNotations.
Local Open Scope N_scope.

(** ** The codecs *)

(* data that can be split into codes, and the text that they stand for *)
Inductive Pieces (code : list N -> list N -> Prop) : list N -> list N -> Prop :=
| Pieces_nil : Pieces code [] []
| Pieces_cons w u bs cs : code w u -> Pieces code bs cs -> Pieces code (w ++ bs) (u ++ cs).

(* the codes in a list of runs *)
Fixpoint byte_run (x : N) (l : list N) : list (list N * list N) := match l with [] => [] | c :: l => ([x], [c]) :: byte_run (x + 1) l end.
Fixpoint pair_run (x y : N) (l : list N) : list (list N * list N) := match l with [] => [] | c :: l => ([x; y], [c]) :: pair_run x (y + 1) l end.
Definition byte_codes (l : list (N * list N)) : list (list N * list N) := flat_map (fun r => byte_run (fst r) (snd r)) l.
Definition pair_codes (l : list (N * N * list N)) : list (list N * list N) := flat_map (fun r => pair_run (fst (fst r)) (snd (fst r)) (snd r)) l.
(* codes for several characters *)
Definition seq_codes (l : list (N * N * list N)) : list (list N * list N) := map (fun r => ([fst (fst r); snd (fst r)], snd r)) l.
Definition cp932 : list (list N * list N) := byte_codes py_cp932_one ++ pair_codes py_cp932_two ++ seq_codes py_cp932_seq.
Definition big5hkscs : list (list N * list N) := byte_codes py_big5hkscs_one ++ pair_codes py_big5hkscs_two ++ seq_codes py_big5hkscs_seq.

(* codes of Big5 that the codec lacks *)
Definition big5_more : list (N * N * list N) :=
  [((0x87, 0x7A), [0x3875; 0x21D53; 0x2369E; 0x26021; 0x3EEC]); ((0x87, 0xA1), [0x258DE; 0x3AF5; 0x7AFC; 0x9F97; 0x24161; 0x2890D; 0x231EA; 0x20A8A;
   0x2325E; 0x430A; 0x8484; 0x9F96; 0x942F; 0x4930; 0x8613; 0x5896; 0x974A; 0x9218; 0x79D0; 0x7A32; 0x6660; 0x6A29; 0x889D; 0x744C; 0x7BC5; 0x6782;
   0x7A2C; 0x524F; 0x9046; 0x34E6; 0x73C4; 0x25DB9; 0x74C6; 0x9FC7; 0x57B3; 0x492F; 0x544C; 0x4131; 0x2368E; 0x5818; 0x7A72; 0x27B65; 0x8B8F; 0x46AE;
   0x26E88; 0x4181; 0x25D99; 0x7BAE; 0x224BC; 0x9FC8; 0x224C1; 0x224C9; 0x224CC; 0x9FC9; 0x8504; 0x235BB; 0x40B4; 0x9FCA; 0x44E1; 0x2ADFF; 0x62C1;
   0x706E; 0x9FCB]); ((0x8E, 0x69), [0x7BB8]); ((0x8E, 0x6F), [0x7C06]); ((0x8E, 0x7E), [0x7CCE]); ((0x8E, 0xAB), [0x7DD2]); ((0x8E, 0xB4), [0x7E1D]);
   ((0x8E, 0xCD), [0x8005]); ((0x8E, 0xD0), [0x8028]); ((0x8F, 0x57), [0x83C1]); ((0x8F, 0x69), [0x84A8]); ((0x8F, 0x6E), [0x840F]); ((0x8F, 0xCB),
   [0x89A6; 0x89A9]); ((0x8F, 0xFE), [0x8D77]); ((0x90, 0x6D), [0x90FD]); ((0x90, 0x7A), [0x92B9]); ((0x90, 0xDC), [0x975C]); ((0x90, 0xF1),
   [0x97FF]); ((0x91, 0xBF), [0x9F16]); ((0x92, 0x44), [0x8503]); ((0x92, 0xAF), [0x5159; 0x515B; 0x515D; 0x515E]); ((0x92, 0xC8), [0x936E]); ((0x92,
   0xD1), [0x7479]); ((0x94, 0x47), [0x6D67]); ((0x94, 0xCA), [0x799B]); ((0x95, 0xD9), [0x9097]); ((0x96, 0x44), [0x975D]); ((0x96, 0xED), [0x701E]);
   ((0x96, 0xFC), [0x5B28]); ((0x9B, 0x76), [0x7201]); ((0x9B, 0x78), [0x77D7]); ((0x9B, 0x7B), [0x7E87]); ((0x9B, 0xC6), [0x99D6]); ((0x9B, 0xDE),
   [0x91D4]); ((0x9B, 0xEC), [0x60DE]); ((0x9B, 0xF6), [0x6FB6]); ((0x9C, 0x42), [0x8F36]); ((0x9C, 0x53), [0x4FBB]); ((0x9C, 0x62), [0x71DF]);
   ((0x9C, 0x68), [0x9104]); ((0x9C, 0x6B), [0x9DF0]); ((0x9C, 0x77), [0x83CF]); ((0x9C, 0xBC), [0x5C10; 0x79E3]); ((0x9C, 0xD0), [0x5A67]); ((0x9D,
   0x57), [0x8F0B]); ((0x9D, 0x5A), [0x7B51]); ((0x9D, 0xC4), [0x62D0]); ((0x9E, 0xA9), [0x6062]); ((0x9E, 0xEF), [0x75F9]); ((0x9E, 0xFD), [0x6C4A]);
   ((0x9F, 0x60), [0x9B2E]); ((0x9F, 0x66), [0x9F17]); ((0x9F, 0xCB), [0x50ED]); ((0x9F, 0xD8), [0x5F0C]); ((0xA0, 0x63), [0x880F]); ((0xA0, 0x77),
   [0x62CE]); ((0xA0, 0xD5), [0x7468]); ((0xA0, 0xDF), [0x7162]); ((0xA0, 0xE4), [0x7250]); ((0xA3, 0xC0), [0x2400; 0x2401; 0x2402; 0x2403; 0x2404;
   0x2405; 0x2406; 0x2407; 0x2408; 0x2409; 0x240A; 0x240B; 0x240C; 0x240D; 0x240E; 0x240F; 0x2410; 0x2411; 0x2412; 0x2413; 0x2414; 0x2415; 0x2416;
   0x2417; 0x2418; 0x2419; 0x241A; 0x241B; 0x241C; 0x241D; 0x241E; 0x241F; 0x2421; 0x20AC]); ((0xC6, 0xCF), [0x5EF4]); ((0xC6, 0xD3), [0x65E0]);
   ((0xC6, 0xD5), [0x7676]); ((0xC6, 0xD7), [0x96B6]); ((0xC6, 0xDE), [0x3003; 0x4EDD]); ((0xFA, 0x5F), [0x5029]); ((0xFA, 0x66), [0x507D]); ((0xFA,
   0xBD), [0x5305]); ((0xFA, 0xC5), [0x5344]); ((0xFA, 0xD5), [0x537F]); ((0xFB, 0x48), [0x5605]); ((0xFB, 0xB8), [0x5A77]); ((0xFB, 0xF3), [0x5E75]);
   ((0xFB, 0xF9), [0x5ED0]); ((0xFC, 0x4F), [0x5F58]); ((0xFC, 0x6C), [0x60A4]); ((0xFC, 0xB9), [0x6490]); ((0xFC, 0xE2), [0x6674]); ((0xFC, 0xF1),
   [0x675E]); ((0xFD, 0xB7), [0x6C9C; 0x6E1D]); ((0xFD, 0xBB), [0x6E2F]); ((0xFD, 0xF1), [0x716E]); ((0xFE, 0x52), [0x732A]); ((0xFE, 0x6F),
   [0x745C]); ((0xFE, 0xAA), [0x74E9]); ((0xFE, 0xDD), [0x7809])].
(* codes of Big5 that the codec maps to other, similar characters *)
Definition big5_other : list (N * N * list N) :=
  [((0xA1, 0x45), [0x2027]); ((0xA1, 0x4E), [0xFE51]); ((0xA1, 0xC2), [0xAF]); ((0xA1, 0xE3), [0xFF5E]); ((0xA1, 0xF2), [0x2295; 0x2299]); ((0xA2,
   0x41), [0x2215; 0xFE68]); ((0xA2, 0x44), [0xFFE5]); ((0xA2, 0x46), [0xFFE0; 0xFFE1])].

(* the codes of Shift JIS: those of cp932 but for four single bytes *)
Definition sjis_by_codec (w u : list N) : Prop := In (w, u) cp932 /\ ~ In w [[0xA0]; [0xFD]; [0xFE]; [0xFF]].
(* the codes of Big5: those of big5hkscs except as listed *)
Definition big5_by_codec (w u : list N) : Prop :=
  (In (w, u) big5hkscs /\ ~ In w (map fst (pair_codes big5_other))) \/ In (w, u) (pair_codes big5_other) \/ In (w, u) (pair_codes big5_more).

(** ** Single-byte encodings *)

Fixpoint table (b : N) (l : list N) : list (N * N) :=
  match l with [] => [] | c :: l => if c =? 0xFFFE then table (b + 1) l else (b, c) :: table (b + 1) l end.

Lemma py_single m : charset m = table 0 (py_table m).
Proof. destruct m; vm_compute; reflexivity. Qed.

Lemma in_table l : forall k b c, In (b, c) (table k l) <-> k <= b /\ nth_error l (N.to_nat (b - k)) = Some c /\ c <> 0xFFFE.
Proof.
  induction l as [|x l IH]; intros k b c.
  { cbn [table In]. split; [intros []|]. intros (_ & H & _). destruct (N.to_nat (b - k)); discriminate H. }
  cbn [table]. assert (T : In (b, c) (table (k + 1) l) <-> k < b /\ nth_error (x :: l) (N.to_nat (b - k)) = Some c /\ c <> 0xFFFE).
  { rewrite IH. split; intros (G & H).
    - split; [lia|]. replace (N.to_nat (b - k)) with (S (N.to_nat (b - (k + 1)))) by lia. exact H.
    - split; [lia|]. replace (N.to_nat (b - k)) with (S (N.to_nat (b - (k + 1)))) in H by lia. exact H. }
  destruct (x =? 0xFFFE) eqn:X.
  - apply N.eqb_eq in X. rewrite T. split; intros (G & H & C); (split; [|auto]); [lia|].
    destruct (N.eq_dec k b) as [->|D]; [|lia]. rewrite N.sub_diag in H. cbn in H. congruence.
  - apply N.eqb_neq in X. cbn [In]. rewrite T. split.
    + intros [E|(G & H)]; [injection E as -> ->; rewrite N.sub_diag; split; [lia|auto]|split; [lia|exact H]].
    + intros (G & H & C). destruct (N.eq_dec k b) as [->|D]; [|right; split; [lia|auto]].
      left. rewrite N.sub_diag in H. cbn in H. congruence.
Qed.

Lemma charset_py m b c : In (b, c) (charset m) <-> nth_error (py_table m) (N.to_nat b) = Some c /\ c <> 0xFFFE.
Proof. rewrite py_single, in_table, N.sub_0_r. split; [intros (_ & H); exact H|intros H; split; [lia|exact H]]. Qed.

Lemma decoded_single m bs cs : Decoded (Single m) bs cs <->
  Forall2 (fun b c => nth_error (py_table m) (N.to_nat b) = Some c /\ c <> 0xFFFE) bs cs.
Proof.
  split.
  - intros H. induction H as [|w u bs cs U H IH]; [constructor|].
    destruct U as (b & c & I & -> & ->). cbn [app]. constructor; [apply charset_py, I|exact IH].
  - intros H. induction H as [|b c bs cs U H IH]; [constructor|].
    apply (Decoded_unit (Single m) [b] [c]); [exists b, c; split; [apply charset_py, U|auto]|exact IH].
Qed.

(** ** Pieces *)

Lemma decoded_pieces e code : (forall w u, DecUnit e w u <-> code w u) -> forall bs cs, Decoded e bs cs <-> Pieces code bs cs.
Proof.
  intros E bs cs. split; intros H; induction H as [|w u bs cs U H IH]; try constructor; try (apply E, U); exact IH.
Qed.

(** ** Codes and pointers *)

Fixpoint merge (a : list (N * list N)) : list (N * list N) -> list (N * list N) :=
  match a with
  | [] => fun b => b
  | x :: a' => fix go b := match b with [] => x :: a' | y :: b' => if fst x <=? fst y then x :: merge a' b else y :: go b' end
  end.

Lemma in_merge x : forall a b, In x (merge a b) <-> In x a \/ In x b.
Proof.
  induction a as [|y a IH]; [cbn; tauto|]. induction b as [|z b IHb]; [cbn; tauto|].
  cbn [merge]. fold (merge (y :: a)). destruct (fst y <=? fst z).
  { cbn [In]. rewrite IH. cbn [In]. tauto. }
  change (In x (z :: merge (y :: a) b) <-> In x (y :: a) \/ In x (z :: b)).
  cbn [In] in *. rewrite IHb. tauto.
Qed.

(* [l] with pointers instead of pairs of bytes *)
Fixpoint pointers (ptr : N -> N -> option N) (l : list (list N * list N)) : option (list (N * list N)) :=
  match l with
  | [] => Some []
  | ([x; y], u) :: l => match ptr x y, pointers ptr l with Some p, Some r => Some ((p, u) :: r) | _, _ => None end
  | _ => None
  end.

Lemma in_pointers ptr code : (forall x y p, ptr x y = Some p -> code p = [x; y]) -> forall l r, pointers ptr l = Some r ->
  forall w u, In (w, u) l <-> exists p, In (p, u) r /\ w = code p.
Proof.
  intros C. induction l as [|[v t] l IH]; intros r P w u; cbn [pointers] in P.
  { injection P as <-. split; [intros []|intros (p & [] & _)]. }
  destruct v as [|x [|y [|]]]; try discriminate P. destruct (ptr x y) as [q|] eqn:Q; [|discriminate P].
  destruct (pointers ptr l) as [r'|]; [|discriminate P]. injection P as <-. specialize (IH _ eq_refl w u). cbn [In]. rewrite IH. split.
  - intros [E|(p & I & ->)]; [injection E as <- <-; exists q; split; [auto|symmetry; apply C, Q]|exists p; auto].
  - intros (p & [E|I] & ->); [injection E as -> ->; left; f_equal; symmetry; apply C, Q|right; exists p; auto].
Qed.

Definition upto (a n : N) : list N := map N.of_nat (seq (N.to_nat a) (N.to_nat n)).
Lemma in_upto a n x : In x (upto a n) <-> a <= x < a + n.
Proof.
  unfold upto. rewrite in_map_iff. split.
  { intros (i & <- & H). apply in_seq in H. lia. }
  intros H. exists (N.to_nat x). split; [apply N2Nat.id|]. apply in_seq. lia.
Qed.
Fixpoint eudc (n : nat) (p c : N) : list (N * list N) := match n with O => [] | S n => (p, [c]) :: eudc n (p + 1) (c + 1) end.
Lemma in_eudc n : forall p c q u, In (q, u) (eudc n p c) <-> p <= q < p + N.of_nat n /\ u = [q - p + c].
Proof.
  induction n as [|n IH]; intros p c q u; cbn [eudc In]; [split; [intros []|lia]|]. rewrite IH. split.
  - intros [E|[G ->]]; [injection E as <- <-; rewrite N.sub_diag; split; [lia|reflexivity]|]. split; [lia|f_equal; lia].
  - intros [G ->]. destruct (N.eq_dec p q) as [->|D]; [left; rewrite N.sub_diag; reflexivity|right]. split; [lia|f_equal; lia].
Qed.

(** ** Shift JIS *)

Definition sjis_ptr (x y : N) : option N :=
  if (((0x81 <=? x) && (x <=? 0x9F)) || ((0xE0 <=? x) && (x <=? 0xFC))) && (((0x40 <=? y) && (y <=? 0x7E)) || ((0x80 <=? y) && (y <=? 0xFC)))
  then Some ((x - (if x <? 0xA0 then 0x81 else 0xC1)) * 188 + (y - (if y <? 0x7F then 0x40 else 0x41))) else None.

Lemma sjis_ptr_code x y p : sjis_ptr x y = Some p -> sjis_code p = [x; y].
Proof.
  unfold sjis_ptr. destruct (_ && _) eqn:E; [|discriminate]. intros H. injection H as <-.
  rewrite andb_true_iff, !orb_true_iff, !andb_true_iff, !N.leb_le in E.
  assert (D : forall l t, t < 188 -> (l * 188 + t) / 188 = l /\ (l * 188 + t) mod 188 = t).
  { intros l t T. split; [symmetry; apply (N.div_unique _ _ l t)|symmetry; apply (N.mod_unique _ _ l t)]; lia. }
  unfold sjis_code. destruct (x <? 0xA0) eqn:X; destruct (y <? 0x7F) eqn:Y; rewrite ?N.ltb_lt, ?N.ltb_ge in *;
    match goal with |- context [(?l * 188 + ?t) / 188] => destruct (D l t) as [-> ->]; [lia|] end;
    match goal with |- context [if ?a <? 0x1F then _ else _] => destruct (a <? 0x1F) eqn:A end;
    match goal with |- context [if ?a <? 0x3F then _ else _] => destruct (a <? 0x3F) eqn:B end;
    rewrite ?N.ltb_lt, ?N.ltb_ge in *; f_equal; try lia; f_equal; lia.
Qed.

Definition same (a b : list N) : bool := if list_eq_dec N.eq_dec a b then true else false.
Lemma same_iff a b : same a b = true <-> a = b.
Proof. unfold same. destruct (list_eq_dec N.eq_dec a b); split; congruence. Qed.

Lemma out_of l w : negb (existsb (same w) l) = true <-> ~ In w l.
Proof.
  rewrite negb_true_iff, <- not_true_iff_false, existsb_exists. split; intros H G; apply H.
  - exists w. split; [exact G|]. apply same_iff. reflexivity.
  - destruct G as (v & I & E). apply same_iff in E. subst v. exact I.
Qed.

Definition kept (x : list N * list N) : bool := negb (existsb (same (fst x)) [[0xA0]; [0xFD]; [0xFE]; [0xFF]]).

Lemma sjis_single : filter kept (byte_codes py_cp932_one) =
  map (fun b => ([b], [b])) (upto 0 0x81) ++ map (fun b => ([b], [b - 0xA1 + 0xFF61])) (upto 0xA1 63).
Proof. vm_compute. reflexivity. Qed.

Lemma sjis_double : pointers sjis_ptr (pair_codes py_cp932_two ++ seq_codes py_cp932_seq) =
  Some (merge (map (fun x => (fst x, [snd x])) jis0208_index) (eudc 1880 8836 0xE000)).
Proof. vm_compute. reflexivity. Qed.

Lemma glue (one1 one2 byt dbl all out d1 d2 : Prop) : (byt /\ out <-> one1 \/ one2) -> (dbl <-> all) -> (dbl -> out) -> (all <-> d1 \/ d2) ->
  (one1 \/ one2 \/ d1 \/ d2 <-> (byt \/ dbl) /\ out).
Proof. tauto. Qed.

Lemma sjis_codes w u : DecUnit ShiftJISWHATWG w u <-> sjis_by_codec w u.
Proof.
  unfold sjis_by_codec, cp932.
  assert (S : forall w u, In (w, u) (byte_codes py_cp932_one) /\ ~ In w [[0xA0]; [0xFD]; [0xFE]; [0xFF]] <->
    (exists b, b <= 0x80 /\ w = [b] /\ u = [b]) \/ (exists b, 0xA1 <= b <= 0xDF /\ w = [b] /\ u = [b - 0xA1 + 0xFF61])).
  { clear. intros w u. rewrite <- out_of. change (negb _) with (kept (w, u)). rewrite <- filter_In, sjis_single, in_app_iff, !in_map_iff. split.
    - intros [(b & E & H)|(b & E & H)]; injection E as <- <-; apply in_upto in H; [left|right]; exists b; (split; [lia|auto]).
    - intros [(b & H & -> & ->)|(b & H & -> & ->)]; [left|right]; exists b; (split; [reflexivity|]); apply in_upto; lia. }
  pose proof (in_pointers sjis_ptr sjis_code sjis_ptr_code _ _ sjis_double w u) as D.
  assert (X : In (w, u) (pair_codes py_cp932_two ++ seq_codes py_cp932_seq) -> ~ In w [[0xA0]; [0xFD]; [0xFE]; [0xFF]]).
  { intros H G. apply D in H. destruct H as (p & _ & ->). unfold sjis_code in G. cbn [In] in G. destruct G as [G|[G|[G|[G|[]]]]]; discriminate G. }
  specialize (S w u). rewrite in_app_iff. cbn [DecUnit].
  assert (D' : (exists p, In (p, u) (merge (map (fun x => (fst x, [snd x])) jis0208_index) (eudc 1880 8836 0xE000)) /\ w = sjis_code p) <->
    (exists p c, In (p, c) jis0208_index /\ w = sjis_code p /\ u = [c]) \/ (exists p, 8836 <= p <= 10715 /\ w = sjis_code p /\ u = [p - 8836 + 0xE000])).
  { clear. split.
    - intros (p & H & ->). apply in_merge in H. rewrite in_map_iff, in_eudc in H. destruct H as [([q c] & E & H)|[H ->]].
      + cbn [fst snd] in E. injection E as -> <-. left. exists p, c. auto.
      + right. exists p. split; [lia|auto].
    - intros [(p & c & H & -> & ->)|(p & H & -> & ->)]; exists p; (split; [|reflexivity]); apply in_merge.
      + left. apply in_map_iff. exists (p, c). auto.
      + right. apply in_eudc. split; [lia|reflexivity]. }
  exact (glue _ _ _ _ _ _ _ _ S D X D').
Qed.

(** ** Big5 *)

Definition big5_ptr (x y : N) : option N :=
  if ((0x81 <=? x) && (x <=? 0xFE)) && (((0x40 <=? y) && (y <=? 0x7E)) || ((0xA1 <=? y) && (y <=? 0xFE)))
  then Some ((x - 0x81) * 157 + (y - (if y <? 0x7F then 0x40 else 0x62))) else None.

Lemma big5_ptr_code x y p : big5_ptr x y = Some p -> big5_code p = [x; y].
Proof.
  unfold big5_ptr. destruct (_ && _) eqn:E; [|discriminate]. intros H. injection H as <-.
  rewrite !andb_true_iff, !orb_true_iff, !andb_true_iff, !N.leb_le in E.
  assert (D : forall l t, t < 157 -> (l * 157 + t) / 157 = l /\ (l * 157 + t) mod 157 = t).
  { intros l t T. split; [symmetry; apply (N.div_unique _ _ l t)|symmetry; apply (N.mod_unique _ _ l t)]; lia. }
  unfold big5_code. destruct (y <? 0x7F) eqn:Y; rewrite ?N.ltb_lt, ?N.ltb_ge in *;
    match goal with |- context [(?l * 157 + ?t) / 157] => destruct (D l t) as [-> ->]; [lia|] end;
    match goal with |- context [if ?a <? 0x3F then _ else _] => destruct (a <? 0x3F) eqn:B end;
    rewrite ?N.ltb_lt, ?N.ltb_ge in *; f_equal; try lia; f_equal; lia.
Qed.

(* without the pairs in [o] *)
Fixpoint hit (x y : N) (o : list (list N * list N)) : bool :=
  match o with [] => false | ([a; b], _) :: o => ((a =? x) && (b =? y)) || hit x y o | _ :: o => hit x y o end.
Definition keep (o : list (list N * list N)) (z : list N * list N) : bool := match fst z with [x; y] => negb (hit x y o) | _ => true end.

Lemma keep_iff o z : (forall w u, In (w, u) o -> length w = 2%nat) -> (keep o z = true <-> ~ In (fst z) (map fst o)).
Proof.
  intros L. destruct z as [w u]. unfold keep. cbn [fst].
  assert (H : forall x y, hit x y o = true <-> In [x; y] (map fst o)).
  { intros x y. clear u w. induction o as [|[v t] o IH]; [cbn; split; [discriminate|intros []]|].
    assert (V : length v = 2%nat) by (eapply L; left; reflexivity). destruct v as [|a [|b [|]]]; try discriminate V.
    cbn [hit map fst In]. rewrite orb_true_iff, andb_true_iff, !N.eqb_eq, IH by (intros; eapply L; right; eassumption).
    split; (intros [E|E]; [left|right; exact E]); [destruct E as [-> ->]; reflexivity|injection E as -> ->; auto]. }
  assert (N2 : length w <> 2%nat -> ~ In w (map fst o)).
  { intros K G. apply in_map_iff in G. destruct G as ([v t] & <- & G). apply K. eapply L, G. }
  destruct w as [|x [|y [|]]]; try (split; [intros _; apply N2; cbn; lia|reflexivity]).
  rewrite negb_true_iff, <- H. destruct (hit x y o); split; congruence.
Qed.

Definition other : list (list N * list N) := pair_codes big5_other.
Lemma other_pairs w u : In (w, u) other -> length w = 2%nat.
Proof.
  intros H. assert (K : forallb (fun x => Nat.eqb (length (fst x)) 2) other = true) by (vm_compute; reflexivity).
  rewrite forallb_forall in K. apply K in H. apply Nat.eqb_eq, H.
Qed.

Lemma big5_single : byte_codes py_big5hkscs_one = map (fun b => ([b], [b])) (upto 0 0x80).
Proof. vm_compute. reflexivity. Qed.

Definition merged (a b c d : option (list (N * list N))) : option (list (N * list N)) :=
  match a, b, c, d with Some a, Some b, Some c, Some d => Some (merge (merge a b) (merge c d)) | _, _, _, _ => None end.

Lemma merged_some a b c d r : merged a b c d = Some r ->
  exists ra rb rc rd, a = Some ra /\ b = Some rb /\ c = Some rc /\ d = Some rd /\ merge (merge ra rb) (merge rc rd) = r.
Proof.
  destruct a as [ra|], b as [rb|], c as [rc|], d as [rd|]; try discriminate. intros H. injection H as <-. exists ra, rb, rc, rd. auto.
Qed.

Lemma big5_double : merged (pointers big5_ptr (filter (keep other) (pair_codes py_big5hkscs_two))) (pointers big5_ptr (seq_codes py_big5hkscs_seq))
  (pointers big5_ptr other) (pointers big5_ptr (pair_codes big5_more)) =
  Some (merge (map (fun x => (fst x, [snd x])) big5_index) big5_sequences).
Proof. vm_compute. reflexivity. Qed.

Lemma big5_kept : forallb (keep other) (seq_codes py_big5hkscs_seq) = true.
Proof. vm_compute. reflexivity. Qed.

Lemma glue5 (byt one two sq oth more k nk all d1 d2 fl : Prop) : (byt <-> one) -> (byt -> k) -> (sq -> k) -> (fl <-> two /\ k) ->
  (all <-> fl \/ sq \/ oth \/ more) -> (all <-> d1 \/ d2) -> (k <-> nk) ->
  (one \/ d1 \/ d2 <-> ((byt \/ two \/ sq) /\ nk) \/ oth \/ more).
Proof. tauto. Qed.

Lemma big5_codes w u : DecUnit Big5WHATWG w u <-> big5_by_codec w u.
Proof.
  unfold big5_by_codec, big5hkscs. fold other. rewrite !in_app_iff.
  pose proof (keep_iff other (w, u) other_pairs) as K. cbn [fst] in K.
  assert (S : In (w, u) (byte_codes py_big5hkscs_one) <-> exists b, b < 0x80 /\ w = [b] /\ u = [b]).
  { rewrite big5_single, in_map_iff. split.
    - intros (b & E & H). injection E as <- <-. apply in_upto in H. exists b. split; [lia|auto].
    - intros (b & H & -> & ->). exists b. split; [reflexivity|]. apply in_upto. lia. }
  assert (S' : In (w, u) (byte_codes py_big5hkscs_one) -> keep other (w, u) = true).
  { intros H. apply S in H. destruct H as (b & _ & -> & _). reflexivity. }
  assert (Q : In (w, u) (seq_codes py_big5hkscs_seq) -> keep other (w, u) = true).
  { pose proof big5_kept as F. rewrite forallb_forall in F. apply F. }
  pose proof (filter_In (keep other) (w, u) (pair_codes py_big5hkscs_two)) as F.
  destruct (merged_some _ _ _ _ _ big5_double) as (ra & rb & rc & rd & A & B & C & D & M).
  pose proof (in_pointers _ _ big5_ptr_code _ _ A w u) as A'. pose proof (in_pointers _ _ big5_ptr_code _ _ B w u) as B'.
  pose proof (in_pointers _ _ big5_ptr_code _ _ C w u) as C'. pose proof (in_pointers _ _ big5_ptr_code _ _ D w u) as D'.
  assert (I : (exists p, In (p, u) (merge (merge ra rb) (merge rc rd)) /\ w = big5_code p) <->
    In (w, u) (filter (keep other) (pair_codes py_big5hkscs_two)) \/ In (w, u) (seq_codes py_big5hkscs_seq) \/ In (w, u) other \/ In (w, u) (pair_codes big5_more)).
  { rewrite A', B', C', D'. clear. split.
    - intros (p & H & ->). rewrite !in_merge in H. destruct H as [[H|H]|[H|H]]; [left|right; left|right; right; left|right; right; right]; exists p; auto.
    - intros [(p & H & ->)|[(p & H & ->)|[(p & H & ->)|(p & H & ->)]]]; exists p; rewrite !in_merge; auto. }
  assert (J : (exists p, In (p, u) (merge (merge ra rb) (merge rc rd)) /\ w = big5_code p) <->
    (exists p c, In (p, c) big5_index /\ w = big5_code p /\ u = [c]) \/ (exists p, In (p, u) big5_sequences /\ w = big5_code p)).
  { rewrite M. clear. split.
    - intros (p & H & ->). apply in_merge in H. rewrite in_map_iff in H. destruct H as [([q c] & E & H)|H].
      + cbn [fst snd] in E. injection E as -> <-. left. exists p, c. auto.
      + right. exists p. auto.
    - intros [(p & c & H & -> & ->)|(p & H & ->)]; exists p; (split; [|reflexivity]); apply in_merge; [left|right; exact H].
      apply in_map_iff. exists (p, c). auto. }
  exact (glue5 _ _ _ _ _ _ _ _ _ _ _ _ S S' Q F I J K).
Qed.

(** ** Theorems *)

Theorem C74_single_byte : forall m bs cs out, bytes bs -> (3 * length bs + 1 <= length out)%nat ->
  (exists buf, decode_to_str (Single m) bs out true = Ret (Ok (utf8 cs, length bs), buf) /\ text cs) <->
  Forall2 (fun b c => nth_error (py_table m) (N.to_nat b) = Some c /\ c <> 0xFFFE) bs cs.
Proof. intros m bs cs out B L. rewrite <- decoded_single. apply C15_exactly_valid_data_decodes; assumption. Qed.

Theorem C74_shift_jis : forall bs cs out, bytes bs -> (3 * length bs + 1 <= length out)%nat ->
  (exists buf, decode_to_str ShiftJISWHATWG bs out true = Ret (Ok (utf8 cs, length bs), buf) /\ text cs) <-> Pieces sjis_by_codec bs cs.
Proof. intros bs cs out B L. rewrite <- (decoded_pieces _ _ sjis_codes). apply C15_exactly_valid_data_decodes; assumption. Qed.

Theorem C74_big5 : forall bs cs out, bytes bs -> (3 * length bs + 1 <= length out)%nat ->
  (exists buf, decode_to_str Big5WHATWG bs out true = Ret (Ok (utf8 cs, length bs), buf) /\ text cs) <-> Pieces big5_by_codec bs cs.
Proof. intros bs cs out B L. rewrite <- (decoded_pieces _ _ big5_codes). apply C15_exactly_valid_data_decodes; assumption. Qed.

(* what the encoders write, the codecs read *)
Theorem C74_encode_single_byte : forall m is_end cs out s buf, text cs ->
  encode_from_str (Single m) (utf8 cs) out is_end = Ret (Ok (s, length (utf8 cs)), buf) ->
  Forall2 (fun b c => nth_error (py_table m) (N.to_nat b) = Some c) s cs.
Proof.
  intros m ie cs out s buf T H. apply encode_whole in H; [|exact T]. apply Encoded_Decoded in H; [|discriminate].
  apply decoded_single in H. induction H as [|b c s' cs' [X _] H IH]; constructor; auto. apply IH. inversion T; assumption.
Qed.

Theorem C74_encode_shift_jis : forall is_end cs out s buf, text cs ->
  encode_from_str ShiftJISWHATWG (utf8 cs) out is_end = Ret (Ok (s, length (utf8 cs)), buf) ->
  Pieces (fun w u => In (w, u) cp932) s (map (fun c => if c =? 0xA5 then 0x5C else if c =? 0x203E then 0x7E else if c =? 0x2212 then 0xFF0D else c) cs).
Proof.
  intros ie cs out s buf T H. apply encode_whole in H; [|exact T]. apply sjis_Encoded_Decoded in H.
  apply (decoded_pieces _ _ sjis_codes) in H. change (fun c : N => if c =? 0xA5 then _ else _) with sjis_fold.
  induction H as [|w u bs cs' [X _] H IH]; constructor; assumption.
Qed.

Theorem C74_encode_big5 : forall is_end cs out s buf, text cs ->
  encode_from_str Big5WHATWG (utf8 cs) out is_end = Ret (Ok (s, length (utf8 cs)), buf) -> Pieces big5_by_codec s cs.
Proof.
  intros ie cs out s buf T H. apply encode_whole in H; [|exact T]. apply Encoded_Decoded in H; [|discriminate].
  apply (decoded_pieces _ _ big5_codes), H.
Qed.

Example C74_example : (exists buf, decode_to_str ShiftJISWHATWG [0x88; 0x9F; 0xB1; 0xF0; 0x40; 0x80] (repeat 0 19) true =
    Ret (Ok (utf8 [0x4E9C; 0xFF71; 0xE000; 0x80], 6%nat), buf)) /\
  (exists buf, decode_to_str Big5WHATWG [0x88; 0x62; 0xA4; 0x51; 0xA1; 0x45] (repeat 0 19) true = Ret (Ok (utf8 [0xCA; 0x304; 0x5341; 0x2027], 6%nat), buf)) /\
  nth_error (py_table koi8_u) 0xA4 = Some 0x454 /\ In ([0x88; 0x9F], [0x4E9C]) cp932 /\ In ([0x88; 0x62], [0xCA; 0x304]) big5hkscs /\
  In ([0xA1; 0x45], [0x2027]) other /\ In ([0xA3; 0xE1], [0x20AC]) (pair_codes big5_more).
Proof.
  split; [eexists; vm_compute; reflexivity|]. split; [eexists; vm_compute; reflexivity|]. split; [reflexivity|].
  assert (X : forall w u l, existsb (fun x => same w (fst x) && same u (snd x)) l = true -> In (w, u) l).
  { intros w u l H. apply existsb_exists in H. destruct H as ([v t] & I & E). cbn [fst snd] in E. apply andb_true_iff in E.
    rewrite !same_iff in E. destruct E as [-> ->]. exact I. }
  repeat split; apply X; vm_compute; reflexivity.
Qed.

(** ** Big5-2003 *)

(* the file big5_2003.txt of the repository, which no code uses *)
Definition big5_2003 : list (list N * list N) := pair_codes big5_2003_txt.
(* its codes for characters not of private use that the crate maps to other characters: the latter *)
Definition big5_2003_other : list (N * N * list N) :=
  [((0xA1, 0x56), [0x2013]); ((0xA1, 0xC2), [0xAF]); ((0xA2, 0xA4), [0x2550; 0x255E; 0x256A; 0x2561]); ((0xA2, 0xCC), [0x5341; 0x5344; 0x5345]);
   ((0xC2, 0x55), [0x5F5D]); ((0xC6, 0xBF), [0x4E36; 0x4E3F; 0x4E85; 0x4EA0; 0x5182; 0x5196; 0x51AB; 0x52F9; 0x5338; 0x5369; 0x53B6; 0x590A; 0x5B80;
   0x5DDB]); ((0xC6, 0xCE), [0x5E7F; 0x5EF4; 0x5F50; 0x5F61; 0x6534; 0x65E0; 0x7592; 0x7676; 0x8FB5; 0x96B6]); ((0xC6, 0xD9), [0x2C6]); ((0xF9, 0xFA),
   [0x256D; 0x256E; 0x2570; 0x256F; 0xFFED])].
Definition private (c : N) : Prop := 0xE000 <= c <= 0xF8FF.

Fixpoint within (a : list (N * list N)) : list (N * list N) -> bool :=
  match a with
  | [] => fun _ => true
  | x :: a' => fix go b := match b with [] => false | y :: b' => if fst x =? fst y then same (snd x) (snd y) && within a' b' else go b' end
  end.

Lemma within_in : forall a b, within a b = true -> forall x, In x a -> In x b.
Proof.
  induction a as [|y a IH]; [intros b _ x []|]. induction b as [|z b IHb]; [intros H; discriminate H|].
  intros H x I. cbn [within] in H. fold (within (y :: a)) in H. destruct (fst y =? fst z) eqn:E.
  - apply N.eqb_eq in E. apply andb_true_iff in H. destruct H as [H1 H2]. apply same_iff in H1.
    destruct I as [<-|I]; [left; destruct y, z; cbn [fst snd] in *; congruence|right; exact (IH b H2 x I)].
  - right. exact (IHb H x I).
Qed.

Definition public (x : list N * list N) : bool := match snd x with [c] => (c <? 0xE000) || (0xF8FF <? c) | _ => true end.
Definition other_2003 : list (list N * list N) := pair_codes big5_2003_other.
Definition index_units : list (N * list N) := map (fun x => (fst x, [snd x])) big5_index.
Definition sub_index (o : option (list (N * list N))) : bool := match o with Some l => within l index_units | None => false end.

Lemma same_2003 : sub_index (pointers big5_ptr (filter (keep other_2003) (filter public big5_2003))) = true.
Proof. vm_compute. reflexivity. Qed.
Lemma others_2003 : sub_index (pointers big5_ptr other_2003) = true.
Proof. vm_compute. reflexivity. Qed.

Lemma sub_index_unit l : sub_index (pointers big5_ptr l) = true -> forall w u, In (w, u) l -> DecUnit Big5WHATWG w u.
Proof.
  unfold sub_index. intros H w u I. destruct (pointers big5_ptr l) as [r|] eqn:P; [|discriminate H].
  apply (in_pointers _ _ big5_ptr_code _ _ P) in I. destruct I as (p & I & ->). apply (within_in _ _ H) in I.
  apply in_map_iff in I. destruct I as ([q c] & E & I). cbn [fst snd] in E. injection E as -> <-. right; left. exists p, c. auto.
Qed.

Lemma pairs_2003 w u : In (w, u) other_2003 -> length w = 2%nat.
Proof.
  intros H. assert (K : forallb (fun x => Nat.eqb (length (fst x)) 2) other_2003 = true) by (vm_compute; reflexivity).
  rewrite forallb_forall in K. apply K in H. apply Nat.eqb_eq, H.
Qed.

Lemma unit_decodes w u out : DecUnit Big5WHATWG w u -> (length (utf8 u) <= length out)%nat ->
  exists buf, decode_to_str Big5WHATWG w out true = Ret (Ok (utf8 u, length w), buf).
Proof.
  intros U L. apply C15_decode_enough; [|exact L]. rewrite <- (app_nil_r w), <- (app_nil_r u). constructor; [exact U|constructor].
Qed.

Theorem C74_big5_2003 : forall w c out, In (w, [c]) big5_2003 -> ~ private c -> ~ In w (map fst (pair_codes big5_2003_other)) ->
  (length (utf8 [c]) <= length out)%nat -> exists buf, decode_to_str Big5WHATWG w out true = Ret (Ok (utf8 [c], length w), buf).
Proof.
  intros w c out I P O L. apply unit_decodes; [|exact L]. apply (sub_index_unit _ same_2003). apply filter_In. split.
  - apply filter_In. split; [exact I|]. cbn [public snd]. unfold private in P. apply orb_true_iff. rewrite !N.ltb_lt. lia.
  - apply (keep_iff other_2003 _ pairs_2003). exact O.
Qed.

Theorem C74_big5_2003_other : forall w c out, In (w, [c]) (pair_codes big5_2003_other) ->
  (length (utf8 [c]) <= length out)%nat -> exists buf, decode_to_str Big5WHATWG w out true = Ret (Ok (utf8 [c], length w), buf).
Proof. intros w c out I L. apply unit_decodes; [|exact L]. exact (sub_index_unit _ others_2003 _ _ I). Qed.

Lemma in_check w u l : existsb (fun x => same w (fst x) && same u (snd x)) l = true -> In (w, u) l.
Proof.
  intros H. apply existsb_exists in H. destruct H as ([v t] & I & E). cbn [fst snd] in E. apply andb_true_iff in E.
  rewrite !same_iff in E. destruct E as [-> ->]. exact I.
Qed.

Example C74_example_2003 : In ([0xA4; 0x51], [0x5341]) big5_2003 /\ ~ private 0x5341 /\ ~ In [0xA4; 0x51] (map fst (pair_codes big5_2003_other)) /\
  In ([0xA1; 0x56], [0x2015]) big5_2003 /\ In ([0xA1; 0x56], [0x2013]) (pair_codes big5_2003_other).
Proof.
  split; [apply in_check; vm_compute; reflexivity|]. split; [unfold private; lia|]. split; [apply out_of; vm_compute; reflexivity|].
  split; apply in_check; vm_compute; reflexivity.
Qed.

Definition all_C74 := (C74_single_byte, C74_shift_jis, C74_big5, C74_encode_single_byte, C74_encode_shift_jis, C74_encode_big5, C74_big5_2003, C74_big5_2003_other).
Print Assumptions all_C74.
