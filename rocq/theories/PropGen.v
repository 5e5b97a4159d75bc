(* C44, C47, C48: the scripts that generate the tables. *)
From Coq Require Import List NArith Arith Bool Lia Permutation.
From Verif Require Import Encodings Spec RefSingle RefBig5 RefSjis TabSingle TabBig5 TabSjis ModelSingleByte ModelGen PropEndian.
From Verif Require Import Tac Search Tables ProofGen.
Import ListNotations.
Local Open Scope N_scope.

(** ** C44: the tables in the repository are the output of the scripts for the data files in the repository *)

Fixpoint list_eqb (a b : list N) : bool :=
  match a, b with [], [] => true | x :: a, y :: b => (x =? y) && list_eqb a b | _, _ => false end.
Lemma list_eqb_ok : forall a b, list_eqb a b = true -> a = b.
Proof. induction a as [|x a IH]; intros [|y b] H; cbn in H; try discriminate; [reflexivity|]. apply andb_prop in H. f_equal; [lia|apply IH, H]. Qed.
Fixpoint entries_eqb (a b : list (N * (N * N))) : bool :=
  match a, b with
  | [], [] => true
  | (c, (x, y)) :: a, (c', (x', y')) :: b => (c =? c') && (x =? x') && (y =? y') && entries_eqb a b
  | _, _ => false
  end.
Lemma entries_eqb_ok : forall a b, entries_eqb a b = true -> a = b.
Proof.
  induction a as [|[c [x y]] a IH]; intros [|[c' [x' y']] b] H; cbn in H; try discriminate; [reflexivity|].
  apply andb_prop in H. destruct H as [H Hr]. f_equal; [|apply IH, Hr]. f_equal; [lia|]. f_equal; lia.
Qed.

Lemma big5_regenerated : (let r := generate_big5_tables big5_index in
  list_eqb (fst r) big5_decode_table && entries_eqb (snd r) big5_encode_table) = true.
Proof. vm_compute. reflexivity. Qed.
Lemma sjis_regenerated : (let r := generate_shiftjis_tables jis0208_index in
  list_eqb (fst r) sjis_decode_table && entries_eqb (snd r) sjis_encode_table) = true.
Proof. vm_compute. reflexivity. Qed.
Definition regenerates (m : sb_module) : bool :=
  match m with
  | ascii => true
  | m => match generate_ascii_ext_encoding (charset m) with
         | Some (d, e) => list_eqb d (sb_decode_table m) && pairs_eqb e (sb_encode_table m)
         | None => false
         end
  end.
Lemma sb_regenerated : forallb regenerates all_modules = true.
Proof. vm_compute. reflexivity. Qed.

Theorem C44_big5_tables : generate_big5_tables big5_index = (big5_decode_table, big5_encode_table).
Proof.
  pose proof big5_regenerated as H. cbv zeta in H. apply andb_prop in H. destruct H as [H1 H2].
  destruct (generate_big5_tables big5_index) as [d e]. cbn [fst snd] in *. f_equal; [apply list_eqb_ok, H1|apply entries_eqb_ok, H2].
Qed.

Theorem C44_shift_jis_tables : generate_shiftjis_tables jis0208_index = (sjis_decode_table, sjis_encode_table).
Proof.
  pose proof sjis_regenerated as H. cbv zeta in H. apply andb_prop in H. destruct H as [H1 H2].
  destruct (generate_shiftjis_tables jis0208_index) as [d e]. cbn [fst snd] in *. f_equal; [apply list_eqb_ok, H1|apply entries_eqb_ok, H2].
Qed.

(* ascii has no tables *)
Theorem C44_single_byte_tables : forall m, m <> ascii ->
  generate_ascii_ext_encoding (charset m) = Some (sb_decode_table m, sb_encode_table m).
Proof.
  intros m Hm. pose proof (module_sweep regenerates sb_regenerated m) as H.
  assert (G : match generate_ascii_ext_encoding (charset m) with
         | Some (d, e) => list_eqb d (sb_decode_table m) && pairs_eqb e (sb_encode_table m)
         | None => false
         end = true) by (destruct m; [congruence|exact H..]).
  clear H. destruct (generate_ascii_ext_encoding (charset m)) as [[d e]|]; [|discriminate]. apply andb_prop in G. destruct G as [H1 H2].
  f_equal. f_equal; [apply list_eqb_ok, H1|apply pairs_eqb_ok, H2].
Qed.

(** ** C47: what the WHATWG scripts compute for any index *)

(* an index is given as (pointer, code point) pairs, in any order; no pointer occurs twice *)
Definition proper (index : list (N * N)) : Prop := NoDup (map fst index).

(* position p holds the code point of pointer p; the gaps hold U+FFFD; the table ends with the last pointer *)
Definition decode_table_of (index : list (N * N)) (dec : list N) : Prop :=
  (forall p c, In (p, c) index -> nth_error dec (N.to_nat p) = Some c) /\
  (forall n, (n < length dec)%nat -> (forall c, ~ In (N.of_nat n, c) index) -> nth_error dec n = Some 0xFFFD) /\
  (forall n, (n < length dec)%nat -> exists p c, In (p, c) index /\ N.of_nat n <= p).

(* strictly sorted by code point, with the codes of the chosen pointers *)
Definition encode_table_of (chosen : N -> N -> Prop) (code : N -> list N) (enc : list (N * (N * N))) : Prop :=
  strictly_increasing enc /\ forall c b1 b2, In (c, (b1, b2)) enc <-> exists p, chosen c p /\ code p = [b1; b2].

Lemma fill_decode_table_of index : proper index -> decode_table_of index (map written (dec_fill 0 (sort pair_leb index))).
Proof.
  intros H. destruct (sort_index index H) as [Hi Hin]. set (t := sort pair_leb index) in *. clearbody t.
  assert (Hge : Forall (fun e => 0 <= fst e) t) by (apply Forall_forall; intros; lia).
  pose proof (dec_fill_ok t 0 Hi Hge) as Hn. destruct (dec_fill_length t 0 Hi Hge) as [L1 L2].
  split; [|split].
  - intros p c Hp. rewrite nth_error_map. apply Hin in Hp. replace (0 + N.of_nat (N.to_nat p), c) with (p, c) in * by (f_equal; lia).
    specialize (Hn (N.to_nat p) c). replace (0 + N.of_nat (N.to_nat p)) with p in Hn by lia. rewrite (proj2 Hn Hp). reflexivity.
  - intros n L Hno. rewrite map_length in L. rewrite nth_error_map. destruct (nth_error (dec_fill 0 t) n) as [[c|]|] eqn:E.
    + exfalso. apply Hn in E. apply Hin in E. exact (Hno c E).
    + reflexivity.
    + apply nth_error_None in E. lia.
  - intros n L. rewrite map_length in L. destruct (L2 n L) as (p & c & Hp & Hle). exists p, c. split; [apply Hin, Hp|lia].
Qed.

Lemma increasing_strictly {V} (t : list (N * V)) : increasing t -> strictly_increasing t.
Proof. intros H i j x y L Hi Hj. exact (increasing_nth t H i j x y Hi Hj L). Qed.

(* the pointer for encoding: as big5_pointer and sjis_pointer in Spec.v, but for any index *)
Definition big5_choice (index : list (N * N)) (c p : N) : Prop :=
  In (p, c) index /\ forall q, In (q, c) index -> if in_dec N.eq_dec c big5_last then q <= p else p <= q.
Definition sjis_choice (index : list (N * N)) (c p : N) : Prop :=
  In (p, c) index /\ sjis_eligible p /\ forall q, In (q, c) index -> sjis_eligible q -> p <= q.

Theorem C47_big5_script : forall index, proper index ->
  decode_table_of index (fst (generate_big5_tables index)) /\
  encode_table_of (big5_choice index) big5_code (snd (generate_big5_tables index)).
Proof.
  intros index H. split; [apply fill_decode_table_of, H|]. unfold generate_big5_tables. cbn [snd].
  destruct (sort_index index H) as [Hi Hin]. set (t := sort pair_leb index) in *. clearbody t.
  destruct (enc_table_ok big5_index_to_bytes (big5_deduped_table t)) as [E1 E2]; [apply dedup_first_NoDup|].
  split; [apply increasing_strictly, E1|]. intros c b1 b2. rewrite E2.
  assert (D : forall p, In (p, c) (big5_deduped_table t) <-> big5_choice index c p).
  { intros p. rewrite (big5_deduped_ok t Hi). unfold big5_choice. rewrite Hin. change keep_last with big5_last.
    destruct (in_dec N.eq_dec c big5_last); (split; intros [H1 H2]; (split; [exact H1|]); intros q Hq; apply H2, Hin, Hq). }
  assert (W : forall p, (b1, b2) = big5_index_to_bytes p <-> big5_code p = [b1; b2]).
  { intros p. unfold big5_index_to_bytes, big5_code. cbv zeta. rewrite (N.add_comm 0x81). split; [intros E; injection E as -> ->; reflexivity|].
    intros E. apply cons_inj in E. destruct E as [E1' E]. apply cons_inj in E. destruct E as [E2' _]. congruence. }
  split; intros (p & A & B); exists p; (split; [apply D, A|apply W, B]).
Qed.

Theorem C47_shift_jis_script : forall index, proper index ->
  decode_table_of index (fst (generate_shiftjis_tables index)) /\
  encode_table_of (sjis_choice index) sjis_code (snd (generate_shiftjis_tables index)).
Proof.
  intros index H. split; [apply fill_decode_table_of, H|]. unfold generate_shiftjis_tables. cbn [snd].
  destruct (sort_index index H) as [Hi Hin]. set (t := sort pair_leb index) in *. clearbody t.
  destruct (enc_table_ok sjis_index_to_bytes (sjis_deduped_table t)) as [E1 E2]; [apply dedup_first_NoDup|].
  split; [apply increasing_strictly, E1|]. intros c b1 b2. rewrite E2.
  assert (D : forall p, In (p, c) (sjis_deduped_table t) <-> sjis_choice index c p).
  { intros p. rewrite (sjis_deduped_ok t Hi). unfold sjis_choice, sjis_eligible. rewrite Hin.
    split; intros (H1 & H2 & H3); (split; [exact H1|]); (split; [exact H2|]); intros q Hq; apply H3, Hin, Hq. }
  assert (W : forall p, (b1, b2) = sjis_index_to_bytes p <-> sjis_code p = [b1; b2]).
  { intros p. unfold sjis_index_to_bytes, sjis_code. cbv zeta. split; [intros E; injection E as -> ->; reflexivity|].
    intros E. apply cons_inj in E. destruct E as [E1' E]. apply cons_inj in E. destruct E as [E2' _]. congruence. }
  split; intros (p & A & B); exists p; (split; [apply D, A|apply W, B]).
Qed.

(* the order of the lines does not matter *)
Theorem C47_line_order : forall index index', Permutation index index' ->
  generate_big5_tables index = generate_big5_tables index' /\
  generate_shiftjis_tables index = generate_shiftjis_tables index' /\
  generate_ascii_ext_encoding index = generate_ascii_ext_encoding index'.
Proof.
  intros index index' P. unfold generate_big5_tables, generate_shiftjis_tables, generate_ascii_ext_encoding. rewrite (sort_perm_eq _ _ P). auto.
Qed.

(* the scripts' bytes_to_index undoes index_to_bytes, and looking up what the encode table says gives the character back *)
Theorem C47_big5_bytes_index : forall p, big5_bytes_to_index (fst (big5_index_to_bytes p)) (snd (big5_index_to_bytes p)) = p.
Proof.
  intros p. unfold big5_index_to_bytes, big5_bytes_to_index. cbv zeta. cbn [fst snd].
  pose proof (N.mod_lt p 157 ltac:(lia)). pose proof (N.div_mod p 157 ltac:(lia)).
  set (q := p / 157) in *. set (r := p mod 157) in *. clearbody q r.
  destruct (N.ltb_spec r 0x3f); match goal with |- context [?a <? 0x7F] => destruct (N.ltb_spec a 0x7F) end; lia.
Qed.
Theorem C47_shift_jis_bytes_index : forall p, sjis_bytes_to_index (fst (sjis_index_to_bytes p)) (snd (sjis_index_to_bytes p)) = p.
Proof.
  intros p. unfold sjis_index_to_bytes, sjis_bytes_to_index. cbv zeta. cbn [fst snd].
  pose proof (N.mod_lt p 188 ltac:(lia)). pose proof (N.div_mod p 188 ltac:(lia)).
  set (q := p / 188) in *. set (r := p mod 188) in *. clearbody q r.
  destruct (N.ltb_spec q 0x1F); match goal with |- context [?a <? 0xA0] => destruct (N.ltb_spec a 0xA0) end;
  destruct (N.ltb_spec r 0x3f); match goal with |- context [?a <? 0x7F] => destruct (N.ltb_spec a 0x7F) end; lia.
Qed.
Theorem C47_tables_agree : forall index, proper index ->
  (forall c b1 b2, In (c, (b1, b2)) (snd (generate_big5_tables index)) ->
     nth_error (fst (generate_big5_tables index)) (N.to_nat (big5_bytes_to_index b1 b2)) = Some c) /\
  (forall c b1 b2, In (c, (b1, b2)) (snd (generate_shiftjis_tables index)) ->
     nth_error (fst (generate_shiftjis_tables index)) (N.to_nat (sjis_bytes_to_index b1 b2)) = Some c).
Proof.
  intros index H. split; intros c b1 b2 Hin.
  - destruct (C47_big5_script index H) as [(D & _) [_ E]]. apply E in Hin. destruct Hin as (p & [Hp _] & W).
    rewrite <- (D p c Hp). f_equal. f_equal. rewrite <- (C47_big5_bytes_index p). unfold big5_code in W. cbv zeta in W. rewrite (N.add_comm 0x81) in W.
    apply cons_inj in W. destruct W as [W1 W]. apply cons_inj in W. destruct W as [W2 _]. rewrite <- W1, <- W2. reflexivity.
  - destruct (C47_shift_jis_script index H) as [(D & _) [_ E]]. apply E in Hin. destruct Hin as (p & [Hp _] & W).
    rewrite <- (D p c Hp). f_equal. f_equal. rewrite <- (C47_shift_jis_bytes_index p). unfold sjis_code in W. cbv zeta in W.
    apply cons_inj in W. destruct W as [W1 W]. apply cons_inj in W. destruct W as [W2 _]. rewrite <- W1, <- W2. reflexivity.
Qed.

(* an index with a gap and with a code point at two pointers, out of order *)
Example small_index : list (N * N) := [(3, 0x5341); (1, 0x42); (2, 0x5341); (5, 0x42)].
Example small_index_proper : proper small_index.
Proof. unfold proper, small_index. cbn. repeat constructor; cbn; intuition discriminate. Qed.
Example small_index_tables : generate_big5_tables small_index =
  ([0xFFFD; 0x42; 0x5341; 0x5341; 0xFFFD; 0x42], [(0x42, (0x81, 0x41)); (0x5341, (0x81, 0x43))]).
Proof. vm_compute. reflexivity. Qed.
Example small_index_sjis : snd (generate_shiftjis_tables ((8272, 0x43) :: small_index)) = [(0x42, (0x81, 0x41)); (0x5341, (0x81, 0x42))].
Proof. vm_compute. reflexivity. Qed.

(** ** C48: the script for the single-byte tables *)

(* the script accepts exactly the files that contain ASCII *)
Theorem C48_rejects_exactly : forall lines, proper lines ->
  (generate_ascii_ext_encoding lines = None <-> exists i, i < 128 /\ ~ In (i, i) lines).
Proof.
  intros lines H. unfold generate_ascii_ext_encoding. destruct (sort_index lines H) as [Hi Hin].
  assert (Hge : Forall (fun e => 0 <= fst e) (sort pair_leb lines)) by (apply Forall_forall; intros; lia).
  pose proof (check_ascii_ok 128 0 _ Hi Hge) as C. destruct (check_ascii 128 0 (sort pair_leb lines)).
  - split; [discriminate|]. intros (i & L & Hno). destruct C as [C _]. exfalso. apply Hno, Hin, C. lia.
  - split; [|reflexivity]. intros _. destruct C as (j & L & Hno). exists j. split; [lia|]. rewrite <- Hin. exact Hno.
Qed.

Theorem C48_decode_table : forall lines dec enc, proper lines -> (forall b c, In (b, c) lines -> b < 256) ->
  generate_ascii_ext_encoding lines = Some (dec, enc) ->
  length dec = 128%nat /\
  forall b, 128 <= b -> b < 256 ->
    (forall c, In (b, c) lines -> nth_error dec (N.to_nat (b - 128)) = Some c) /\
    ((forall c, ~ In (b, c) lines) -> nth_error dec (N.to_nat (b - 128)) = Some 0xFFFD).
Proof.
  intros lines dec enc H Hb G. unfold generate_ascii_ext_encoding in G. destruct (sort_index lines H) as [Hi Hin].
  assert (Hge : Forall (fun e => 0 <= fst e) (sort pair_leb lines)) by (apply Forall_forall; intros; lia).
  pose proof (check_ascii_ok 128 0 _ Hi Hge) as C. destruct (check_ascii 128 0 (sort pair_leb lines)) as [rest|]; [|discriminate].
  destruct C as (_ & Hr & Hrest).
  set (t := map (fun bc => (fst bc - 128, snd bc)) rest) in G.
  assert (Hrest128 : Forall (fun e => 128 <= fst e) rest) by (apply Forall_forall; intros x Hx; apply Hrest in Hx; lia).
  assert (Ht : increasing t) by (apply map_sub_increasing; assumption).
  assert (Hin' : forall p c, In (p, c) t <-> In (p + 128, c) lines).
  { intros p c. unfold t. rewrite in_map_iff. split.
    - intros ([b d] & E & Hx). cbn [fst snd] in E. injection E as <- <-. rewrite Forall_forall in Hrest128. specialize (Hrest128 _ Hx). cbn [fst] in Hrest128.
      replace (b - 128 + 128) with b by lia. apply Hin, Hrest, Hx.
    - intros Hx. exists (p + 128, c). cbn [fst snd]. split; [f_equal; lia|]. apply Hrest. split; [apply Hin, Hx|cbn [fst]; lia]. }
  clearbody t. assert (Hge' : Forall (fun e => 0 <= fst e) t) by (apply Forall_forall; intros; lia).
  pose proof (dec_fill_ok t 0 Ht Hge') as Hn. destruct (dec_fill_length t 0 Ht Hge') as [L1 L2].
  set (d := dec_fill 0 t) in *.
  assert (Ed : dec = map written (d ++ repeat None (128 - length d))) by congruence. subst dec. clear G. clearbody d.
  assert (Ld : (length d <= 128)%nat).
  { destruct (Nat.le_gt_cases (length d) 128) as [L|L]; [exact L|]. destruct (L2 128%nat L) as (p & c & Hp & Hle). apply Hin' in Hp.
    specialize (Hb _ _ Hp). lia. }
  split; [rewrite map_length, app_length, repeat_length; lia|].
  intros b B1 B2. rewrite nth_error_map.
  assert (Hlt : forall n, (n < length d)%nat -> nth_error (d ++ repeat None (128 - length d)) n = nth_error d n) by (intros n; apply nth_error_app1).
  specialize (Hn (N.to_nat (b - 128))).
  assert (Hnb : forall c, nth_error d (N.to_nat (b - 128)) = Some (Some c) <-> In (b, c) lines).
  { intros c. rewrite Hn, Hin'. replace (0 + N.of_nat (N.to_nat (b - 128)) + 128) with b by lia. reflexivity. }
  split.
  - intros c Hc. apply Hnb in Hc. rewrite Hlt; [rewrite Hc; reflexivity|]. apply nth_error_Some. congruence.
  - intros Hno. destruct (Nat.lt_ge_cases (N.to_nat (b - 128)) (length d)) as [L|L].
    + rewrite Hlt by exact L. destruct (nth_error d (N.to_nat (b - 128))) as [[c|]|] eqn:E.
      * exfalso. apply (Hno c), Hnb. reflexivity.
      * reflexivity.
      * apply nth_error_None in E. lia.
    + rewrite nth_error_app2 by exact L. rewrite nth_error_repeat by lia. reflexivity.
Qed.

(* every high byte gets an entry in the encode table, also those whose code point was seen before *)
Theorem C48_encode_entries : forall lines dec enc, proper lines -> generate_ascii_ext_encoding lines = Some (dec, enc) ->
  forall c b, In (c, b) enc <-> In (b, c) lines /\ 128 <= b.
Proof.
  intros lines dec enc H G. unfold generate_ascii_ext_encoding in G. destruct (sort_index lines H) as [Hi Hin].
  assert (Hge : Forall (fun e => 0 <= fst e) (sort pair_leb lines)) by (apply Forall_forall; intros; lia).
  pose proof (check_ascii_ok 128 0 _ Hi Hge) as C. destruct (check_ascii 128 0 (sort pair_leb lines)) as [rest|]; [|discriminate].
  destruct C as (_ & Hr & Hrest). injection G as _ <-. rewrite single_byte_enc_all.
  set (l := map (fun bc => (snd bc, fst bc)) rest).
  destruct (sort_ok pair_leb pair_leb_total pair_leb_trans l) as [_ P].
  assert (S : forall x, In x (sort pair_leb l) <-> In x l).
  { intros x. split; apply Permutation_in; [apply Permutation_sym, P|exact P]. }
  intros c b. rewrite S. unfold l. rewrite in_map_iff. split.
  - intros ([b' c'] & E & Hx). cbn [fst snd] in E. injection E as <- <-. apply Hrest in Hx. rewrite Hin in Hx. cbn [fst] in Hx. split; [apply Hx|lia].
  - intros [Hx L]. exists (b, c). split; [reflexivity|]. apply Hrest. rewrite Hin. cbn [fst]. split; [exact Hx|lia].
Qed.

(* so the table is what binary search needs when no code point occurs at two high bytes ... *)
Theorem C48_encode_table_sorted_partial : forall lines dec enc, proper lines ->
  (forall b b' c, In (b, c) lines -> In (b', c) lines -> 128 <= b -> 128 <= b' -> b = b') ->
  generate_ascii_ext_encoding lines = Some (dec, enc) -> strictly_increasing enc.
Proof.
  intros lines dec enc H Hd G. unfold generate_ascii_ext_encoding in G. destruct (sort_index lines H) as [Hi Hin].
  assert (Hge : Forall (fun e => 0 <= fst e) (sort pair_leb lines)) by (apply Forall_forall; intros; lia).
  pose proof (check_ascii_ok 128 0 _ Hi Hge) as C. destruct (check_ascii 128 0 (sort pair_leb lines)) as [rest|]; [|discriminate].
  destruct C as (_ & Hr & Hrest). injection G as _ <-. rewrite single_byte_enc_all.
  set (l := map (fun bc => (snd bc, fst bc)) rest).
  destruct (sort_ok pair_leb pair_leb_total pair_leb_trans l) as [S P].
  apply increasing_strictly. eapply sorted_increasing; [|exact S|].
  - intros a b. unfold pair_leb. lia.
  - eapply Permutation_NoDup; [apply Permutation_map, P|]. unfold l. rewrite map_map. cbn [fst].
    assert (Hd' : forall x y, In x rest -> In y rest -> snd x = snd y -> x = y).
    { intros [b c] [b' c'] Hx Hy E. cbn [snd] in E. subst c'. apply Hrest in Hx, Hy. rewrite Hin in Hx, Hy. cbn [fst] in Hx, Hy.
      f_equal. apply (Hd b b' c); [apply Hx|apply Hy|lia|lia]. }
    clear -Hr Hd'. apply increasing_NoDup in Hr. induction rest as [|x rest IH]; cbn [map] in *; [constructor|].
    inversion Hr as [|? ? Hni Hr']; subst. constructor.
    + intros Hx. apply in_map_iff in Hx. destruct Hx as (y & E & Hy). apply Hni.
      rewrite (Hd' x y (or_introl eq_refl) (or_intror Hy) (eq_sym E)). apply in_map, Hy.
    + apply IH; [exact Hr'|]. intros a b Ha Hb. apply Hd'; right; assumption.
Qed.

(* ... and is not when one does: the de-duplication has no effect *)
Theorem C48_removes_duplicates_refuted : exists lines dec enc, proper lines /\
  generate_ascii_ext_encoding lines = Some (dec, enc) /\ ~ strictly_increasing enc /\
  In (0xA0, 0x80) enc /\ In (0xA0, 0x81) enc.
Proof.
  exists (ascii_pairs ++ [(0x80, 0xA0); (0x81, 0xA0)]).
  exists (0xA0 :: 0xA0 :: repeat 0xFFFD 126), [(0xA0, 0x80); (0xA0, 0x81)].
  split; [|split; [vm_compute; reflexivity|split; [|split; [left; reflexivity|right; left; reflexivity]]]].
  - unfold proper. assert (E : map fst (ascii_pairs ++ [(0x80, 0xA0); (0x81, 0xA0)]) = map N.of_nat (seq 0 130)) by (vm_compute; reflexivity).
    rewrite E. apply FinFun.Injective_map_NoDup; [intros x y; apply Nnat.Nat2N.inj|apply seq_NoDup].
  - intros S. specialize (S 0%nat 1%nat (0xA0, 0x80) (0xA0, 0x81) (Nat.lt_succ_diag_r 0) eq_refl eq_refl). cbn [fst] in S. lia.
Qed.

Definition gen_theorems := (C44_big5_tables, C44_shift_jis_tables, C44_single_byte_tables,
  C47_big5_script, C47_shift_jis_script, C47_line_order, C47_big5_bytes_index, C47_shift_jis_bytes_index, C47_tables_agree,
  C48_rejects_exactly, C48_decode_table, C48_encode_entries, C48_encode_table_sorted_partial, C48_removes_duplicates_refuted).
Print Assumptions gen_theorems.
