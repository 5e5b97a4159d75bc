(* Facts about the crate's tables and the reference data, by computation over all entries. *)
From Coq Require Import List NArith PArith Arith Bool Lia ZArith.
From Verif Require Import Tac Encodings Spec Search NextEnc NextDec ProofUtf8 RustCore.
From Verif Require Export Trie.
From Verif Require Import TabSingle TabBig5 TabSjis RefSingle RefBig5 RefSjis ModelSingleByte.
Import ListNotations.
Local Open Scope N_scope.

(** ** Tries ([Trie.v]) as lookup tables *)

Definition of_list {V} (t : list (N * V)) : trie V :=
  fold_right (fun kv acc => tset acc (N.succ_pos (fst kv)) (snd kv)) TLeaf t.

Lemma tget_of_list {V} (t : list (N * V)) k : tget (of_list t) (N.succ_pos k) = assoc t k.
Proof.
  induction t as [|[k' v] t IH]; [reflexivity|]. cbn [of_list fold_right fst snd assoc].
  fold (of_list t). rewrite tget_set, IH.
  destruct (Pos.eqb_spec (N.succ_pos k') (N.succ_pos k)); destruct (N.eqb_spec k' k); try reflexivity; lia.
Qed.

(** ** Decode tables: the pairs (index, entry) with an entry *)

Fixpoint entries (i : N) (t : list N) : list (N * N) :=
  match t with
  | [] => []
  | c :: r => if c =? 0xFFFD then entries (i + 1) r else (i, c) :: entries (i + 1) r
  end.

Lemma entries_In t : forall i p c, In (p, c) (entries i t) <-> i <= p /\ table_get t (p - i) = Some c.
Proof.
  induction t as [|x t IH]; intros i p c.
  - cbn. unfold table_get. destruct (N.to_nat (p - i)); cbn; split; try tauto; intros [_ H]; discriminate.
  - assert (E : i < p -> table_get (x :: t) (p - i) = table_get t (p - (i + 1))).
    { intros H. unfold table_get. replace (N.to_nat (p - i)) with (S (N.to_nat (p - (i + 1)))) by lia. reflexivity. }
    assert (E0 : table_get (x :: t) (i - i) = if x =? 0xFFFD then None else Some x).
    { unfold table_get. rewrite N.sub_diag. reflexivity. }
    cbn [entries]. destruct (x =? 0xFFFD) eqn:Ex.
    + rewrite IH. split.
      * intros [H1 H2]. split; [lia|]. rewrite E by lia. exact H2.
      * intros [H1 H2]. destruct (N.eq_dec i p) as [->|]; [rewrite E0 in H2; discriminate|].
        split; [lia|]. rewrite <- E by lia. exact H2.
    + cbn [In]. rewrite IH. split.
      * intros [H|[H1 H2]].
        -- injection H as <- <-. split; [lia|exact E0].
        -- split; [lia|]. rewrite E by lia. exact H2.
      * intros [H1 H2]. destruct (N.eq_dec i p) as [->|].
        -- left. rewrite E0 in H2. congruence.
        -- right. split; [lia|]. rewrite <- E by lia. exact H2.
Qed.

Lemma entries0_In t p c : In (p, c) (entries 0 t) <-> table_get t p = Some c.
Proof. rewrite entries_In. replace (p - 0) with p by lia. intuition lia. Qed.

Lemma forallb_scalar t : forallb is_char t = true -> table_scalar t.
Proof. intros H. apply Forall_forall. intros c Hc. rewrite forallb_forall in H. apply is_char_scalar, H, Hc. Qed.

(** ** Single-byte tables *)

Definition all_modules : list sb_module :=
  [ascii; ibm_866; iso_8859_1; iso_8859_2; iso_8859_3; iso_8859_4; iso_8859_5; iso_8859_6; iso_8859_7; iso_8859_8;
   iso_8859_9; iso_8859_10; iso_8859_11; iso_8859_13; iso_8859_14; iso_8859_15; iso_8859_16; koi8_r; koi8_u;
   mac_roman; mac_cyrillic; windows_874; windows_1250; windows_1251; windows_1252; windows_1253; windows_1254;
   windows_1255; windows_1256; windows_1257; windows_1258].

Lemma all_modules_In m : In m all_modules.
Proof. destruct m; cbn; tauto. Qed.

Lemma module_sweep (P : sb_module -> bool) : forallb P all_modules = true -> forall m, P m = true.
Proof. intros H m. rewrite forallb_forall in H. apply H, all_modules_In. Qed.

Fixpoint pairs_eqb (a b : list (N * N)) : bool :=
  match a, b with
  | [], [] => true
  | (x, y) :: a, (x', y') :: b => if (x =? x') && (y =? y') then pairs_eqb a b else false
  | _, _ => false
  end.

Lemma pairs_eqb_ok a b : pairs_eqb a b = true -> a = b.
Proof.
  revert b. induction a as [|[x y] a IH]; intros [|[x' y'] b] H; cbn [pairs_eqb] in H; try discriminate; [reflexivity|].
  destruct ((x =? x') && (y =? y')) eqn:E; [|discriminate].
  f_equal; [f_equal; lia|]. apply IH, H.
Qed.

Definition sb_check (m : sb_module) : bool :=
  let dec := sb_decode_table m in
  let enc := sb_encode_table m in
  increasingb enc
  && (length dec =? 128)%nat
  && forallb is_char dec
  && pairs_eqb (charset m) (ascii_pairs ++ entries 128 dec)
  && forallb (fun cb => (0x80 <=? snd cb) && (snd cb <? 256) && (0x80 <=? fst cb)
                        && match table_get dec (snd cb - 0x80) with Some c => c =? fst cb | None => false end) enc
  && forallb (fun bc => (0x80 <=? snd bc) && match assoc enc (snd bc) with Some b => b =? fst bc | None => false end) (entries 128 dec).

Lemma sb_check_all m : sb_check m = true.
Proof. revert m. apply module_sweep. vm_compute. reflexivity. Qed.

Lemma sb_facts m :
  increasing (sb_encode_table m) /\ length (sb_decode_table m) = 128%nat /\ table_scalar (sb_decode_table m) /\
  charset m = ascii_pairs ++ entries 128 (sb_decode_table m) /\
  (forall c b, assoc (sb_encode_table m) c = Some b <-> 0x80 <= b /\ In (b, c) (charset m)) /\
  (forall b c, 0x80 <= b -> In (b, c) (charset m) -> 0x80 <= c).
Proof.
  pose proof (sb_check_all m) as H. unfold sb_check in H.
  set (enc := sb_encode_table m) in *. set (dec := sb_decode_table m) in *.
  apply andb_prop in H. destruct H as [H H6]. apply andb_prop in H. destruct H as [H H5].
  apply andb_prop in H. destruct H as [H H4]. apply andb_prop in H. destruct H as [H H3].
  apply andb_prop in H. destruct H as [H1 H2].
  apply increasingb_ok in H1. apply Nat.eqb_eq in H2. apply forallb_scalar in H3. apply pairs_eqb_ok in H4.
  rewrite forallb_forall in H5, H6.
  assert (Hhigh : forall b c, 0x80 <= b -> In (b, c) (charset m) -> In (b, c) (entries 128 dec)).
  { intros b c Hb Hin. rewrite H4 in Hin. apply in_app_iff in Hin. destruct Hin as [Hin|Hin]; [|exact Hin].
    unfold ascii_pairs in Hin. apply in_map_iff in Hin. destruct Hin as (i & E & Hi). injection E as <- <-. apply in_seq in Hi. lia. }
  split; [exact H1|]. split; [exact H2|]. split; [exact H3|]. split; [exact H4|]. split.
  - intros c b. split.
    + intros Ha. apply assoc_In in Ha. specialize (H5 _ Ha). cbn [fst snd] in H5.
      destruct (table_get dec (b - 0x80)) as [c'|] eqn:E; [|rewrite andb_false_r in H5; discriminate].
      split; [lia|]. rewrite H4. apply in_app_iff. right. apply entries_In. replace c with c' by lia. split; [lia|exact E].
    + intros [Hb Hin]. specialize (H6 _ (Hhigh b c Hb Hin)). cbn [fst snd] in H6.
      destruct (assoc enc c) as [b'|]; [|rewrite andb_false_r in H6; discriminate]. f_equal. lia.
  - intros b c Hb Hin. specialize (H6 _ (Hhigh b c Hb Hin)). cbn [fst snd] in H6. lia.
Qed.

Lemma sb_bmp m b c : In (b, c) (charset m) -> c < 0x10000.
Proof.
  assert (H : forallb (fun m => forallb (fun bc => snd bc <? 0x10000) (charset m)) all_modules = true) by (vm_compute; reflexivity).
  intros Hin. pose proof (module_sweep _ H m) as Hm. cbv beta in Hm. rewrite forallb_forall in Hm. specialize (Hm _ Hin). cbn [snd] in Hm. lia.
Qed.

(** ** Big5 *)

Definition big5_ptr (p : N * N) : N := (fst p - 0x81) * 157 + (snd p - (if snd p <? 0x7F then 0x40 else 0x62)).

Definition pair_eqb (a b : list N) : bool :=
  match a, b with [x; y], [x'; y'] => (x =? x') && (y =? y') | _, _ => false end.

Lemma pair_eqb_ok a b : pair_eqb a b = true -> a = b.
Proof.
  destruct a as [|x [|y [|]]]; destruct b as [|x' [|y' [|]]]; cbn; try discriminate. intros H. f_equal; [|f_equal]; lia.
Qed.

Definition in_last (c : N) : bool := existsb (N.eqb c) big5_last.

Lemma in_last_spec {A} c (x y : A) : (if in_dec N.eq_dec c big5_last then x else y) = if in_last c then x else y.
Proof.
  unfold in_last. destruct (in_dec N.eq_dec c big5_last) as [H|H].
  - replace (existsb _ _) with true; [reflexivity|]. symmetry. apply existsb_exists. exists c. split; [exact H|apply N.eqb_refl].
  - replace (existsb _ _) with false; [reflexivity|]. symmetry. apply not_true_iff_false. intros E. apply H.
    apply existsb_exists in E. destruct E as (x' & Hx & E). apply N.eqb_eq in E. subst. exact Hx.
Qed.

Definition big5_check : bool :=
  let dec := of_list big5_index in
  let enc := of_list big5_encode_table in
  increasingb big5_encode_table
  && forallb is_char big5_decode_table
  && pairs_eqb big5_index (entries 0 big5_decode_table)
  && forallb (fun kv => let p := big5_ptr (snd kv) in
                (0x80 <=? fst kv) && pair_eqb (pair_bytes (snd kv)) (big5_code p)
                && match tget dec (N.succ_pos p) with Some c => c =? fst kv | None => false end) big5_encode_table
  && forallb (fun qc => match tget enc (N.succ_pos (snd qc)) with
                        | Some v => if in_last (snd qc) then fst qc <=? big5_ptr v else big5_ptr v <=? fst qc
                        | None => false end) big5_index
  && forallb (fun pc => match tget dec (N.succ_pos (fst pc)) with None => true | Some _ => false end) big5_sequences
  && forallb (fun qc => fst qc <? 19782) big5_index
  && match tget enc (N.succ_pos 0xCA), tget enc (N.succ_pos 0xEA) with Some _, Some _ => true | _, _ => false end.

Lemma big5_check_ok : big5_check = true.
Proof. vm_compute. reflexivity. Qed.

Global Opaque big5_index big5_encode_table big5_decode_table.

Lemma table_get_inj t p c c' : table_get t p = Some c -> table_get t p = Some c' -> c = c'.
Proof. congruence. Qed.

Lemma big5_facts :
  increasing big5_encode_table /\ table_scalar big5_decode_table /\
  (forall p c, In (p, c) big5_index <-> table_get big5_decode_table p = Some c) /\
  (forall c v, assoc big5_encode_table c = Some v <->
      exists p, big5_pointer c p /\ p < 19782 /\ pair_bytes v = big5_code p) /\
  (forall p c, In (p, c) big5_index -> 0x80 <= c /\ p < 19782 /\ exists v, assoc big5_encode_table c = Some v) /\
  (forall p cs, In (p, cs) big5_sequences -> table_get big5_decode_table p = None) /\
  (exists v, assoc big5_encode_table 0xCA = Some v) /\ (exists v, assoc big5_encode_table 0xEA = Some v).
Proof.
  pose proof big5_check_ok as H. unfold big5_check in H.
  apply andb_prop in H. destruct H as [H H8]. apply andb_prop in H. destruct H as [H H7].
  apply andb_prop in H. destruct H as [H H6]. apply andb_prop in H. destruct H as [H H5].
  apply andb_prop in H. destruct H as [H H4]. apply andb_prop in H. destruct H as [H H3].
  apply andb_prop in H. destruct H as [H1 H2].
  apply increasingb_ok in H1. apply forallb_scalar in H2. apply pairs_eqb_ok in H3.
  rewrite forallb_forall in H4, H5, H6, H7.
  assert (Hidx : forall p c, In (p, c) big5_index <-> table_get big5_decode_table p = Some c).
  { intros p c. rewrite H3. apply entries0_In. }
  assert (Hfwd : forall c v, assoc big5_encode_table c = Some v -> 0x80 <= c /\ big5_pointer c (big5_ptr v) /\ pair_bytes v = big5_code (big5_ptr v)).
  { intros c v Ha. pose proof (assoc_In _ _ _ Ha) as Hin. specialize (H4 _ Hin). cbn [fst snd] in H4.
    rewrite tget_of_list in H4.
    apply andb_prop in H4. destruct H4 as [H4 H4c]. apply andb_prop in H4. destruct H4 as [H4a H4b].
    apply pair_eqb_ok in H4b. split; [clear -H4a; lia|]. split; [|exact H4b].
    destruct (assoc big5_index (big5_ptr v)) as [c'|] eqn:E; [|discriminate H4c].
    apply N.eqb_eq in H4c. subst c'. apply assoc_In in E. split; [exact E|].
    intros q Hq. rewrite in_last_spec. specialize (H5 _ Hq). cbn [fst snd] in H5. rewrite tget_of_list, Ha in H5. clear -H5.
    destruct (in_last c); lia. }
  assert (Hin : forall p c, In (p, c) big5_index -> 0x80 <= c /\ p < 19782 /\ exists v, assoc big5_encode_table c = Some v).
  { intros p c Hp. specialize (H5 _ Hp). cbn [fst snd] in H5. rewrite tget_of_list in H5.
    destruct (assoc big5_encode_table c) as [v|] eqn:E; [|discriminate H5]. specialize (H7 _ Hp). cbn [fst] in H7.
    split; [apply (Hfwd _ _ E)|]. split; [lia|]. eauto. }
  split; [exact H1|]. split; [exact H2|]. split; [exact Hidx|]. split; [|split; [exact Hin|split]].
  - intros c v. split.
    + intros Ha. destruct (Hfwd c v Ha) as (_ & Hp & E). exists (big5_ptr v). split; [exact Hp|]. split; [|exact E].
      destruct Hp as [Hp _]. apply (Hin _ _ Hp).
    + intros (p & [Hp Hmin] & Hlt & E). destruct (Hin p c Hp) as (_ & _ & v' & Ha). rewrite Ha.
      destruct (Hfwd c v' Ha) as (_ & [Hp' Hmin'] & E').
      assert (big5_ptr v' = p).
      { specialize (Hmin _ Hp'). specialize (Hmin' _ Hp). rewrite in_last_spec in Hmin, Hmin'.
        clear -Hmin Hmin'. destruct (in_last c); lia. }
      subst p. assert (E2 : pair_bytes v' = pair_bytes v) by congruence. destruct v, v'. unfold pair_bytes in E2. cbn in E2. congruence.
  - intros p cs Hp. specialize (H6 _ Hp). cbn [fst] in H6. rewrite tget_of_list in H6.
    destruct (table_get big5_decode_table p) as [c|] eqn:E; [|reflexivity]. apply Hidx in E.
    destruct (assoc big5_index p) eqn:E2; [discriminate H6|]. exfalso.
    clear -E E2. induction big5_index as [|[k v] t IH]; [exact E|]. cbn in E, E2.
    destruct (N.eqb_spec k p); [discriminate|]. destruct E as [E|E]; [congruence|]. apply IH; assumption.
  - rewrite !tget_of_list in H8.
    destruct (assoc big5_encode_table 0xCA), (assoc big5_encode_table 0xEA); try discriminate H8. split; eexists; reflexivity.
Qed.

(** ** Shift JIS *)

Definition sjis_ptr (p : N * N) : N :=
  (fst p - (if fst p <? 0xA0 then 0x81 else 0xC1)) * 188 + (snd p - (if snd p <? 0x7F then 0x40 else 0x41)).

Definition eligible (p : N) : bool := negb ((8272 <=? p) && (p <=? 8835)).

(* chars that the encoder treats before looking into the table *)
Definition sjis_special (c : N) : bool :=
  (c <=? 128) || (c =? 0xA5) || (c =? 0x203E) || (c =? 0x2212)
  || ((0xFF61 <=? c) && (c <=? 0xFF9F)) || ((0xE000 <=? c) && (c <=? 0xE757)).

Definition sjis_check : bool :=
  let dec := of_list jis0208_index in
  let enc := of_list sjis_encode_table in
  increasingb sjis_encode_table
  && forallb is_char sjis_decode_table
  && pairs_eqb jis0208_index (entries 0 sjis_decode_table)
  && forallb (fun kv => let p := sjis_ptr (snd kv) in
                eligible p && pair_eqb (pair_bytes (snd kv)) (sjis_code p)
                && match tget dec (N.succ_pos p) with Some c => c =? fst kv | None => false end) sjis_encode_table
  && forallb (fun qc => negb (sjis_special (snd qc)) &&
                        match tget enc (N.succ_pos (snd qc)) with
                        | Some v => negb (eligible (fst qc)) || (sjis_ptr v <=? fst qc)
                        | None => false end) jis0208_index
  && forallb (fun qc => (fst qc <? 11104) && negb ((8836 <=? fst qc) && (fst qc <=? 10715))) jis0208_index
  && match tget enc (N.succ_pos 0xFF0D) with Some _ => true | _ => false end.

Lemma sjis_check_ok : sjis_check = true.
Proof. vm_compute. reflexivity. Qed.

Global Opaque jis0208_index sjis_encode_table sjis_decode_table.

Lemma eligible_spec p : eligible p = true <-> sjis_eligible p.
Proof. unfold eligible, sjis_eligible. lia. Qed.

Lemma sjis_facts :
  increasing sjis_encode_table /\ table_scalar sjis_decode_table /\
  (forall p c, In (p, c) jis0208_index <-> table_get sjis_decode_table p = Some c) /\
  (forall c v, assoc sjis_encode_table c = Some v <->
      exists p, sjis_pointer c p /\ pair_bytes v = sjis_code p) /\
  (forall p c, In (p, c) jis0208_index ->
      sjis_special c = false /\ p < 11104 /\ ~ (8836 <= p <= 10715) /\ exists v, assoc sjis_encode_table c = Some v) /\
  (exists v, assoc sjis_encode_table 0xFF0D = Some v).
Proof.
  pose proof sjis_check_ok as H. unfold sjis_check in H.
  apply andb_prop in H. destruct H as [H H7].
  apply andb_prop in H. destruct H as [H H6]. apply andb_prop in H. destruct H as [H H5].
  apply andb_prop in H. destruct H as [H H4]. apply andb_prop in H. destruct H as [H H3].
  apply andb_prop in H. destruct H as [H1 H2].
  apply increasingb_ok in H1. apply forallb_scalar in H2. apply pairs_eqb_ok in H3.
  rewrite forallb_forall in H4, H5, H6.
  assert (Hidx : forall p c, In (p, c) jis0208_index <-> table_get sjis_decode_table p = Some c).
  { intros p c. rewrite H3. apply entries0_In. }
  assert (Hfwd : forall c v, assoc sjis_encode_table c = Some v -> sjis_pointer c (sjis_ptr v) /\ pair_bytes v = sjis_code (sjis_ptr v)).
  { intros c v Ha. pose proof (assoc_In _ _ _ Ha) as Hin. specialize (H4 _ Hin). cbn [fst snd] in H4.
    rewrite tget_of_list in H4.
    apply andb_prop in H4. destruct H4 as [H4 H4c]. apply andb_prop in H4. destruct H4 as [H4a H4b].
    apply pair_eqb_ok in H4b. split; [|exact H4b].
    destruct (assoc jis0208_index (sjis_ptr v)) as [c'|] eqn:E; [|discriminate H4c].
    apply N.eqb_eq in H4c. subst c'. apply assoc_In in E. split; [exact E|]. split; [apply eligible_spec, H4a|].
    intros q Hq He. specialize (H5 _ Hq). cbn [fst snd] in H5. rewrite tget_of_list, Ha in H5.
    apply eligible_spec in He. rewrite He in H5. lia. }
  assert (Hin : forall p c, In (p, c) jis0208_index ->
      sjis_special c = false /\ p < 11104 /\ ~ (8836 <= p <= 10715) /\ exists v, assoc sjis_encode_table c = Some v).
  { intros p c Hp. specialize (H5 _ Hp). cbn [fst snd] in H5. rewrite tget_of_list in H5.
    apply andb_prop in H5. destruct H5 as [H5a H5].
    destruct (assoc sjis_encode_table c) as [v|] eqn:E; [|discriminate H5]. specialize (H6 _ Hp). cbn [fst] in H6.
    split; [destruct (sjis_special c); [discriminate H5a|reflexivity]|]. split; [lia|]. split; [lia|]. eauto. }
  split; [exact H1|]. split; [exact H2|]. split; [exact Hidx|]. split; [|split; [exact Hin|]].
  - intros c v. split.
    + intros Ha. exists (sjis_ptr v). apply Hfwd, Ha.
    + intros (p & (Hp & He & Hmin) & E). destruct (Hin p c Hp) as (_ & _ & _ & v' & Ha). rewrite Ha.
      destruct (Hfwd c v' Ha) as ((Hp' & He' & Hmin') & E').
      assert (sjis_ptr v' = p).
      { specialize (Hmin _ Hp' He'). specialize (Hmin' _ Hp He). clear -Hmin Hmin'. lia. }
      subst p. assert (E2 : pair_bytes v' = pair_bytes v) by congruence. destruct v, v'. unfold pair_bytes in E2. cbn in E2. congruence.
  - rewrite !tget_of_list in H7. destruct (assoc sjis_encode_table 0xFF0D); [eexists; reflexivity|discriminate H7].
Qed.
