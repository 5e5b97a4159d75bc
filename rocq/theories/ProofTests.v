(* Proofs for C52, C53: the crate's own tests pass. *)
From Coq Require Import List NArith Arith Bool Lia.
From Verif Require Import Encodings Spec RefBig5 RefSjis Prelude RustCore Types ModelApi ModelUtf8 ModelUtf16Le ModelUtf16Be EndianUtf16 ModelUtf32Le ModelUtf32Be EndianUtf32 ModelSingleByte ModelBig5 ModelShiftJis ModelGen ModelTests.
From Verif Require Import Tac ProofUtf8 Engine NextDec SpecErrors Units Decide Greedy ProofApi ProofSession ProofMore ProofRound PropRound.
Import ListNotations.

Lemma assert_eq_refl l : assert_eq l l = Ret tt.
Proof. unfold assert_eq. destruct (list_eq_dec N.eq_dec l l); [reflexivity|congruence]. Qed.

Lemma assert_eq_ret a b : assert_eq a b = Ret tt -> a = b.
Proof. unfold assert_eq. destruct (list_eq_dec N.eq_dec a b); [auto|discriminate]. Qed.

Lemma zeros_length n : length (zeros n) = n.
Proof. apply repeat_length. Qed.

Lemma str_from_app pre post : text post -> str_from (utf8 (pre ++ post)) (length (utf8 pre)) = Ret (utf8 post).
Proof. intros H. unfold str_from. rewrite boundary_true by exact H. rewrite utf8_app, skipn_len_app. reflexivity. Qed.

Lemma offsets_snd cs : forall off, map snd (offsets off cs) = cs.
Proof. induction cs as [|c cs IH]; intros off; [reflexivity|]. cbn [offsets map snd]. f_equal. apply IH. Qed.

Lemma extend_chars_text s cs : text cs -> extend_chars s (utf8 cs) = Ret (s ++ utf8 cs).
Proof.
  intros H. unfold extend_chars, char_indices. rewrite char_indices_offsets by exact H. cbn [bind]. f_equal. f_equal.
  rewrite <- (offsets_snd cs 0) at 2. unfold utf8. rewrite flat_map_concat_map, flat_map_concat_map, map_map. f_equal.
  assert (Hs : Forall scalar (map snd (offsets 0 cs))) by (rewrite offsets_snd; exact H).
  apply map_ext_in. intros [o c] Hin. cbn [snd]. apply utf8_char_encode.
  rewrite Forall_forall in Hs. apply Hs. apply in_map_iff. exists (o, c). auto.
Qed.

Lemma encode_call e cs all out : Encoded e cs all -> 4 <= length out -> cs <> [] ->
  exists pre post s s' buf, cs = pre ++ post /\ all = s ++ s' /\ Encoded e post s' /\ 1 <= length (utf8 pre) /\ length buf = length out /\
    encode_from_str e (utf8 cs) out true = Ret (Ok (s, length (utf8 pre)), buf).
Proof.
  intros HE Hl Hne. destruct (Encoded_text _ _ _ HE) as [Ht _]. destruct (encode_total e true cs out Ht) as (r & buf & H).
  destruct (encode_frame _ _ _ _ _ _ Ht H) as [Lb _]. destruct r as [[s n]|er].
  - pose proof (encode_progress _ _ _ _ _ _ _ Ht Hne Hl H) as [Hp|(E & _)]; [|discriminate].
    destruct (encode_ok_exact _ _ _ _ _ _ _ Ht H) as (pre & post & E & En & _ & _ & Hall).
    destruct (Hall all HE) as (s' & Ea & HE'). subst n. exists pre, post, s, s', buf. auto 10.
  - exfalso. destruct (encode_err_exact _ _ _ _ _ _ Ht H) as (? & ? & ? & _ & _ & _ & _ & _ & _ & Hno). exact (Hno all HE).
Qed.

Definition encode_all_body (enc : list N -> list N -> outcome (encode_result * list N)) (st : list N * list N * list N)
    : outcome (ctl (list N * list N * list N) Empty_set) :=
  let '(tmp, acc, buf) := st in
  match tmp with
  | [] => Ret (Break st)
  | _ =>
      let* r := enc tmp buf in
      match r with
      | (Ok (encoded, n), buf) => let* tmp := str_from tmp n in Ret (Continue (tmp, acc ++ encoded, buf))
      | (Err _, _) => Panic
      end
  end.

Lemma encode_all_loop e enc : (forall i o, enc i o = encode_from_str e i o true) ->
  forall fuel cs all acc buf, Encoded e cs all -> 4 <= length buf -> length (utf8 cs) < fuel ->
  exists buf', loop fuel (encode_all_body enc) (utf8 cs, acc, buf) = Ret (inl ([], acc ++ all, buf')) /\ length buf' = length buf.
Proof.
  intros He. induction fuel as [|fuel IH]; intros cs all acc buf HE Hl Hf; [lia|].
  destruct cs as [|c cs].
  - destruct (Encoded_inv _ _ _ HE) as [[-> _]|(u & w & x & y & E & -> & Hu & _)].
    + exists buf. rewrite app_nil_r. split; reflexivity.
    + exfalso. symmetry in E. apply app_eq_nil in E. destruct E as [-> _]. destruct (enc_unit_shape _ _ _ Hu) as (_ & L & _). cbn in L. lia.
  - destruct (encode_call e (c :: cs) all buf HE Hl) as (pre & post & s & s' & buf' & E & -> & HE' & Hp & Lb & H); [discriminate|].
    destruct (Encoded_text _ _ _ HE') as [Ht' _].
    destruct (IH post s' (acc ++ s) buf' HE') as (b2 & Hb2 & L2); [lia| |].
    { rewrite E, utf8_app, app_length in Hf. lia. }
    exists b2. split; [|lia]. cbn [loop].
    assert (Eb : encode_all_body enc (utf8 (c :: cs), acc, buf) = Ret (Continue (utf8 post, acc ++ s, buf'))).
    { unfold encode_all_body. destruct (utf8 (c :: cs)) as [|x y] eqn:Ex; [exfalso; exact (utf8_nonempty _ _ Ex)|].
      rewrite He, H. cbn [bind]. rewrite <- Ex, E, str_from_app by exact Ht'. reflexivity. }
    rewrite Eb. cbn [bind]. rewrite Hb2, app_assoc. reflexivity.
Qed.

Lemma encode_all_ok e enc cs all buf : (forall i o, enc i o = encode_from_str e i o true) -> Encoded e cs all -> 4 <= length buf ->
  exists buf', encode_all enc (utf8 cs) buf = Ret (all, buf') /\ length buf' = length buf.
Proof.
  intros He HE Hl. destruct (encode_all_loop e enc He (S (length (utf8 cs))) cs all [] buf HE Hl) as (b & Hb & L); [lia|].
  exists b. split; [|exact L]. unfold encode_all. fold (encode_all_body enc). change (fun st => encode_all_body enc st) with (encode_all_body enc).
  rewrite Hb. reflexivity.
Qed.

Lemma decode_call e bs all out : Decoded e bs all -> 4 <= length out -> bs <> [] ->
  exists pre post cs cs' buf, bs = pre ++ post /\ all = cs ++ cs' /\ text cs /\ Decoded e post cs' /\ 1 <= length pre /\ length buf = length out /\
    decode_to_str e bs out true = Ret (Ok (utf8 cs, length pre), buf).
Proof.
  intros HD Hl Hne. destruct (Decoded_text _ _ _ HD) as [_ Hb]. destruct (decode_total e true bs out Hb) as (r & buf & H).
  destruct (decode_frame _ _ _ _ _ _ Hb H) as [Lb _].
  destruct (decode_cases _ _ _ _ _ _ Hb H) as (pre & cs & rest & E & Hs & Hl' & -> & Hc).
  destruct (Decoded_after e bs pre cs rest all Hb Hs HD) as (cs' & -> & HD').
  destruct (dsteps_rest_bytes _ _ _ _ _ _ Hb Hs) as (_ & _ & Ht).
  destruct Hc as [(-> & _)|(n & En & _)].
  - pose proof (decode_progress _ _ _ _ _ _ _ Hb Hne Hl H) as [Hp|(F & _)]; [|discriminate].
    exists pre, rest, cs, cs'. eauto 10.
  - exfalso. destruct (Decoded_inv _ _ _ HD') as [[-> _]|(w & u & x & y & -> & _ & Hu & _)].
    + rewrite dec_next_nil in En. discriminate.
    + rewrite (dec_unit_next e w u x true Hu) in En. discriminate.
Qed.

Definition decode_all_body (dec : list N -> list N -> outcome (decode_result * list N)) (st : list N * list N * list N)
    : outcome (ctl (list N * list N * list N) Empty_set) :=
  let '(tmp, acc, buf) := st in
  match tmp with
  | [] => Ret (Break st)
  | _ =>
      let* r := dec tmp buf in
      match r with
      | (Ok (decoded, n), buf) =>
          let* tmp := slice_from tmp n in
          let* acc := extend_chars acc decoded in
          Ret (Continue (tmp, acc, buf))
      | (Err _, _) => Panic
      end
  end.

Lemma decode_all_loop e dec : (forall i o, dec i o = decode_to_str e i o true) ->
  forall fuel bs all acc buf, Decoded e bs all -> 4 <= length buf -> length bs < fuel ->
  exists buf', loop fuel (decode_all_body dec) (bs, acc, buf) = Ret (inl ([], acc ++ utf8 all, buf')) /\ length buf' = length buf.
Proof.
  intros He. induction fuel as [|fuel IH]; intros bs all acc buf HD Hl Hf; [lia|].
  destruct bs as [|b bs].
  - destruct (Decoded_inv _ _ _ HD) as [[_ ->]|(w & u & x & y & E & _ & Hu & _)].
    + exists buf. cbn [utf8 flat_map]. rewrite app_nil_r. split; reflexivity.
    + exfalso. symmetry in E. apply app_eq_nil in E. destruct E as [-> _]. destruct (dec_unit_shape _ _ _ Hu) as (_ & L & _). cbn in L. lia.
  - destruct (decode_call e (b :: bs) all buf HD Hl) as (pre & post & cs & cs' & buf' & E & -> & Ht & HD' & Hp & Lb & H); [discriminate|].
    destruct (IH post cs' (acc ++ utf8 cs) buf' HD') as (b2 & Hb2 & L2); [lia| |].
    { rewrite E, app_length in Hf. lia. }
    exists b2. split; [|lia]. cbn [loop].
    assert (Eb : decode_all_body dec (b :: bs, acc, buf) = Ret (Continue (post, acc ++ utf8 cs, buf'))).
    { unfold decode_all_body. rewrite He, H. cbn [bind]. unfold slice_from. rewrite E, app_length.
      btrue (length pre <=? length pre + length post). rewrite skipn_len_app. cbn [bind]. rewrite extend_chars_text by exact Ht. reflexivity. }
    rewrite Eb. cbn [bind]. rewrite Hb2, utf8_app, app_assoc. reflexivity.
Qed.

Lemma decode_all_ok e dec bs cs buf : (forall i o, dec i o = decode_to_str e i o true) -> Decoded e bs cs -> 4 <= length buf ->
  exists buf', decode_all dec bs buf = Ret (utf8 cs, buf') /\ length buf' = length buf.
Proof.
  intros He HD Hl. destruct (decode_all_loop e dec He (S (length bs)) bs cs [] buf HD Hl) as (b & Hb & L); [lia|].
  exists b. split; [|exact L]. unfold decode_all. fold (decode_all_body dec). change (fun st => decode_all_body dec st) with (decode_all_body dec).
  rewrite Hb. reflexivity.
Qed.

(** ** Round-trip tests *)

Lemma unicode_roundtrip_ok e enc dec cs : is_utf e -> text cs -> (forall i o, enc i o = encode_from_str e i o true) ->
  (forall i o, dec i o true = decode_to_str e i o true) -> unicode_roundtrip enc dec (utf8 cs) = Ret tt.
Proof.
  intros Hu Ht He Hd. destruct (utf_encodes e cs Hu Ht) as [all HE]. unfold unicode_roundtrip.
  destruct (encode_all_ok e enc cs all (zeros 32) He HE) as (b & -> & Lb); [rewrite zeros_length; lia|]. cbn [bind].
  destruct (decode_all_ok e (fun i o => dec i o true) all cs b Hd) as (b' & -> & _).
  - apply Encoded_Decoded; [apply utf_not_sjis, Hu|exact HE].
  - rewrite Lb, zeros_length. lia.
  - cbn [bind]. apply assert_eq_refl.
Qed.

Lemma utf8_roundtrip_ok cs : text cs -> pt_utf8_roundtrip (utf8 cs) = Ret tt.
Proof.
  intros Ht. unfold pt_utf8_roundtrip.
  assert (HE : Encoded Utf8 cs (utf8 cs)).
  { clear -Ht. induction Ht as [|c cs Hc Hcs IH]; [constructor|]. rewrite utf8_cons. change (c :: cs) with ([c] ++ cs). constructor; [exists c; auto| |exact IH].
    intros u w (d & _ & -> & _) _. cbn. lia. }
  destruct (encode_all_ok Utf8 utf8_encode_from_str cs (utf8 cs) (zeros 32)) as (b & -> & Lb); [reflexivity|exact HE|rewrite zeros_length; lia|].
  cbn [bind].
  destruct (decode_all_ok Utf8 (fun i o => utf8_decode_to_str i o true) (utf8 cs) cs b) as (b' & -> & _); [reflexivity| | |].
  - apply Encoded_Decoded; [discriminate|exact HE].
  - rewrite Lb, zeros_length. lia.
  - cbn [bind]. rewrite !assert_eq_refl. reflexivity.
Qed.

Definition defined (m : sb_module) (b : N) : Prop := exists c, In (b, c) (charset m).

Lemma sb_decoded m data : Forall (defined m) data -> exists cs, Decoded (Single m) data cs /\ Encoded (Single m) cs data.
Proof.
  induction 1 as [|b data [c Hb] Hd (cs & HD & HE)]; [exists []; split; constructor|].
  exists (c :: cs). split.
  - change (Decoded (Single m) ([b] ++ data) ([c] ++ cs)). constructor; [exists b, c; auto|exact HD].
  - change (Encoded (Single m) ([c] ++ cs) ([b] ++ data)). constructor; [exists b, c; auto| |exact HE].
    intros u w (b' & c' & _ & -> & _) _. cbn. lia.
Qed.

Lemma single_byte_roundtrip_ok m data : Forall (defined m) data -> single_byte_roundtrip m data = Ret tt.
Proof.
  intros H. destruct (sb_decoded m data H) as (cs & HD & HE). unfold single_byte_roundtrip.
  destruct (decode_all_ok (Single m) (sb_decode_to_str m) data cs (zeros 32)) as (b & -> & Lb); [reflexivity|exact HD|rewrite zeros_length; lia|].
  cbn [bind].
  destruct (encode_all_ok (Single m) (sb_encode_from_str m) cs data b) as (b' & -> & _); [reflexivity|exact HE|rewrite Lb, zeros_length; lia|].
  cbn [bind]. apply assert_eq_refl.
Qed.

(* which bytes are defined: computed *)
Definition undefined_bytes (m : sb_module) : list N :=
  filter (fun b => negb (existsb (fun bc => N.eqb (fst bc) b) (charset m))) (map N.of_nat (seq 0 256)).

Lemma undefined_bytes_ok m b : (b < 256)%N -> ~ In b (undefined_bytes m) -> defined m b.
Proof.
  intros Hb Hn. destruct (existsb (fun bc => N.eqb (fst bc) b) (charset m)) eqn:E.
  - apply existsb_exists in E. destruct E as ([b' c] & Hin & Heq). cbn [fst] in Heq. apply N.eqb_eq in Heq. subst b'. exists c. exact Hin.
  - exfalso. apply Hn. apply filter_In. rewrite E. split; [|reflexivity]. apply in_map_iff. exists (N.to_nat b). split; [lia|]. apply in_seq. lia.
Qed.

(** ** Tests that only call *)

Lemma decode_random_ok e dec data : (forall i o ie, dec i o ie = decode_to_str e i o ie) -> bytes data -> decode_random_bytes dec data = Ret tt.
Proof.
  intros He Hb. unfold decode_random_bytes. rewrite He. destruct (decode_total e false data (zeros 4096) Hb) as (r & buf & ->). cbn [bind snd].
  rewrite He. destruct (decode_total e true data buf Hb) as (r' & buf' & ->). reflexivity.
Qed.

Lemma sb_decode_random_ok m data : bytes data -> single_byte_decode_random_bytes m data = Ret tt.
Proof.
  intros Hb. unfold single_byte_decode_random_bytes. change (sb_decode_to_str m data (zeros 4096)) with (decode_to_str (Single m) data (zeros 4096) true).
  destruct (decode_total (Single m) true data (zeros 4096) Hb) as (r & buf & ->). reflexivity.
Qed.

Lemma encode_random_ok e enc cs : (forall i o, enc i o = encode_from_str e i o true) -> text cs -> encode_random_text enc (utf8 cs) = Ret tt.
Proof.
  intros He Ht. unfold encode_random_text. rewrite He. destruct (encode_total e true cs (zeros 4096) Ht) as (r & buf & ->). reflexivity.
Qed.

Lemma big5_encode_random_ok cs : text cs -> pt_big5_whatwg_encode_random_text (utf8 cs) = Ret tt.
Proof.
  intros Ht. unfold pt_big5_whatwg_encode_random_text.
  change (big5_encode_from_str (utf8 cs) (zeros 4096) false) with (encode_from_str Big5WHATWG (utf8 cs) (zeros 4096) false).
  destruct (encode_total Big5WHATWG false cs (zeros 4096) Ht) as (r & buf & ->). cbn [bind snd].
  change (big5_encode_from_str (utf8 cs) buf true) with (encode_from_str Big5WHATWG (utf8 cs) buf true).
  destruct (encode_total Big5WHATWG true cs buf Ht) as (r' & buf' & ->). reflexivity.
Qed.

(** ** The file-driven tests *)

Lemma newline_dec e : e = Big5WHATWG \/ e = ShiftJISWHATWG -> DecUnit e [10%N] [10%N].
Proof. intros [-> | ->]; left; exists 10%N; (split; [lia|auto]). Qed.

Lemma newline_enc e : e = Big5WHATWG \/ e = ShiftJISWHATWG -> EncUnit e [10%N] [10%N].
Proof. intros [-> | ->]; left; exists 10%N; (split; [lia|auto]). Qed.

(* an encoding unit followed by a newline is the longest *)
Lemma longest_newline e u w r : EncUnit e u w -> longest e u (u ++ 10%N :: r).
Proof.
  intros Hu u' w' Hu' [t Hp]. destruct (enc_unit_shape _ _ _ Hu) as (_ & L & _). destruct (enc_unit_shape _ _ _ Hu') as (_ & L' & _).
  assert (e = Big5WHATWG \/ e <> Big5WHATWG) as [->|Hne] by (destruct e; auto; right; discriminate).
  - destruct u as [|a [|b u]]; cbn [length] in *; [lia| |lia]. destruct u' as [|a' [|b' [|? u']]]; cbn [length] in *; try lia. exfalso.
    cbn [app] in Hp. apply cons_inj in Hp. destruct Hp as [_ Hp]. apply cons_inj in Hp. destruct Hp as [<- _].
    destruct Hu' as [(c & _ & E & _)|[(c & p & _ & E & _)|(p & Hin & _)]]; try discriminate E.
    cbn [big5_sequences In] in Hin. destruct Hin as [E|[E|[E|[E|[]]]]]; apply (f_equal (fun x => nth 1 (snd x) 0%N)) in E; cbn in E; discriminate E.
  - destruct (enc_unit_single e u' w' Hne Hu') as [c ->]. cbn [length]. lia.
Qed.

(* lines (coded bytes, UTF-8 bytes) *)
Lemma decode_lines e lines : e = Big5WHATWG \/ e = ShiftJISWHATWG ->
  Forall (fun l => exists u, DecUnit e (fst l) u /\ snd l = utf8 u) lines ->
  exists cs, Decoded e (in_file lines) cs /\ out_file lines = utf8 cs.
Proof.
  intros He. induction 1 as [|[w x] lines (u & Hu & E) Hl (cs & HD & Eo)]; [exists []; split; [constructor|reflexivity]|].
  cbn [fst snd] in *. subst x. exists (u ++ [10%N] ++ cs). split.
  - unfold in_file in *. cbn [flat_map fst]. rewrite <- app_assoc. constructor; [exact Hu|]. constructor; [apply newline_dec, He|exact HD].
  - unfold out_file in *. cbn [flat_map snd]. rewrite Eo, !utf8_app, <- app_assoc. reflexivity.
Qed.

Lemma encode_lines e lines : e = Big5WHATWG \/ e = ShiftJISWHATWG ->
  Forall (fun l => exists u, EncUnit e u (fst l) /\ snd l = utf8 u) lines ->
  exists cs, Encoded e cs (out_file (map swap lines)) /\ in_file (map swap lines) = utf8 cs.
Proof.
  intros He. induction 1 as [|[w x] lines (u & Hu & E) Hl (cs & HE & Eo)]; [exists []; split; [constructor|reflexivity]|].
  cbn [fst snd] in *. subst x. exists (u ++ [10%N] ++ cs). split.
  - unfold out_file in *. cbn [map swap flat_map snd fst]. rewrite <- app_assoc. constructor; [exact Hu|apply (longest_newline e u w), Hu|].
    constructor; [apply newline_enc, He| |exact HE].
    intros u' w' Hu' Hp. destruct (enc_unit_shape _ _ _ Hu') as (_ & L' & _). cbn [length]. destruct u' as [|a [|b u']]; cbn [length] in *; try lia. exfalso.
    destruct Hp as [t Hp]. cbn [app] in Hp. apply cons_inj in Hp. destruct Hp as [<- _].
    destruct He as [-> | ->].
    + destruct Hu' as [(c & _ & E & _)|[(c & p & _ & E & _)|(p & Hin & _)]]; try discriminate E.
      cbn [big5_sequences In] in Hin. destruct Hin as [E|[E|[E|[E|[]]]]]; apply (f_equal (fun x => nth 0 (snd x) 0%N)) in E; cbn in E; discriminate E.
    + destruct (enc_unit_single ShiftJISWHATWG _ w' ltac:(discriminate) Hu') as [c E]. discriminate E.
  - unfold in_file in *. cbn [map swap flat_map snd fst]. rewrite Eo, !utf8_app, <- app_assoc. reflexivity.
Qed.

Lemma decode_file_test_ok e dec lines : (forall i o, dec i o = decode_to_str e i o true) -> e = Big5WHATWG \/ e = ShiftJISWHATWG ->
  Forall (fun l => exists u, DecUnit e (fst l) u /\ snd l = utf8 u) lines ->
  decode_file_test dec (in_file lines) (out_file lines) = Ret tt.
Proof.
  intros Hd He Hl. destruct (decode_lines e lines He Hl) as (cs & HD & Eo). unfold decode_file_test. rewrite Hd.
  rewrite (decode_enough e true _ cs) by (rewrite ?zeros_length, ?Eo; auto; lia). cbn [bind fst]. rewrite Eo. apply assert_eq_refl.
Qed.

Lemma encode_file_test_ok e enc lines : (forall i o, enc i o = encode_from_str e i o true) -> e = Big5WHATWG \/ e = ShiftJISWHATWG ->
  Forall (fun l => exists u, EncUnit e u (fst l) /\ snd l = utf8 u) lines ->
  encode_file_test enc (in_file (map swap lines)) (out_file (map swap lines)) = Ret tt.
Proof.
  intros Hd He Hl. destruct (encode_lines e lines He Hl) as (cs & HE & Eo). unfold encode_file_test, from_utf8_unwrap.
  destruct (Encoded_text _ _ _ HE) as [Ht _]. rewrite Eo, (valid_up_to_text cs Ht), Nat.eqb_refl. cbn [bind]. rewrite Hd.
  rewrite (encode_enough e cs _ _ HE) by (rewrite zeros_length; lia). cbn [bind fst]. apply assert_eq_refl.
Qed.

Lemma big5_bytes p : pair_bytes (big5_index_to_bytes p) = big5_code p.
Proof. unfold pair_bytes, big5_index_to_bytes, big5_code. cbv zeta. cbn [fst snd]. rewrite N.add_comm. reflexivity. Qed.

Lemma sjis_bytes p : pair_bytes (sjis_index_to_bytes p) = sjis_code p.
Proof. reflexivity. Qed.

Lemma utf8_one c : scalar c -> encode_utf8 c = utf8 [c].
Proof. intros H. rewrite utf8_char_encode by exact H. cbn [utf8 flat_map]. rewrite app_nil_r. reflexivity. Qed.

Lemma range1_in n b : In b (range1 n) -> (1 <= b /\ b < N.of_nat n)%N.
Proof. unfold range1. intros H. apply in_map_iff in H. destruct H as (k & <- & Hk). apply in_seq in Hk. lia. Qed.

Lemma big5_sequence_bytes : Forall (fun ics => encode_utf8 (fst (snd ics)) ++ encode_utf8 (snd (snd ics)) = utf8 [fst (snd ics); snd (snd ics)] /\
  In (fst ics, [fst (snd ics); snd (snd ics)]) big5_sequences) big5_test_sequences.
Proof.
  unfold big5_test_sequences, big5_sequences. repeat apply Forall_cons; [..|constructor]; (split; [vm_compute; reflexivity|cbn [fst snd]; auto with datatypes]).
Qed.

Lemma big5_decode_lines table : (forall p c, In (p, c) table -> In (p, c) big5_index) ->
  Forall (fun l => exists u, DecUnit Big5WHATWG (fst l) u /\ snd l = utf8 u) (big5_test_lines table).
Proof.
  intros Ht. unfold big5_test_lines. apply Forall_app. split; [|apply Forall_app; split].
  - apply Forall_forall. intros l Hl. apply in_map_iff in Hl. destruct Hl as (b & <- & Hb). apply range1_in in Hb. cbn [fst snd].
    exists [b]. split; [left; exists b; split; [lia|auto]|]. rewrite <- utf8_one by (left; lia). unfold encode_utf8. btrue (b <? 0x80)%N. unfold as_u8. f_equal. lia.
  - apply Forall_forall. intros l Hl. apply in_map_iff in Hl. destruct Hl as ([p c] & <- & Hp). apply Ht in Hp. cbn [fst snd].
    assert (Hu : DecUnit Big5WHATWG (big5_code p) [c]) by (right; left; exists p, c; auto).
    exists [c]. rewrite big5_bytes. split; [exact Hu|]. apply utf8_one. destruct (dec_unit_shape _ _ _ Hu) as (_ & _ & Hx & _). inversion Hx. assumption.
  - apply Forall_map. eapply Forall_impl; [|exact big5_sequence_bytes]. intros [p [a b]] [E Hin]. cbn [fst snd] in *.
    exists [a; b]. rewrite big5_bytes. split; [right; right; exists p; auto|exact E].
Qed.

Lemma big5_encode_lines table : (forall p c, In (p, c) table -> big5_pointer c p) ->
  Forall (fun l => exists u, EncUnit Big5WHATWG u (fst l) /\ snd l = utf8 u) (big5_test_lines table).
Proof.
  intros Ht. unfold big5_test_lines. apply Forall_app. split; [|apply Forall_app; split].
  - apply Forall_forall. intros l Hl. apply in_map_iff in Hl. destruct Hl as (b & <- & Hb). apply range1_in in Hb. cbn [fst snd].
    exists [b]. split; [left; exists b; split; [lia|auto]|]. rewrite <- utf8_one by (left; lia). unfold encode_utf8. btrue (b <? 0x80)%N. unfold as_u8. f_equal. lia.
  - apply Forall_forall. intros l Hl. apply in_map_iff in Hl. destruct Hl as ([p c] & <- & Hp). apply Ht in Hp. cbn [fst snd].
    assert (Hu : EncUnit Big5WHATWG [c] (big5_code p)) by (right; left; exists c, p; auto).
    exists [c]. rewrite big5_bytes. split; [exact Hu|]. apply utf8_one. destruct (enc_unit_shape _ _ _ Hu) as (Hx & _). inversion Hx. assumption.
  - apply Forall_map. eapply Forall_impl; [|exact big5_sequence_bytes]. intros [p [a b]] [E Hin]. cbn [fst snd] in *.
    exists [a; b]. rewrite big5_bytes. split; [right; right; exists p; auto|exact E].
Qed.

Lemma sjis_decode_lines table : (forall p c, In (p, c) table -> In (p, c) jis0208_index) ->
  Forall (fun l => exists u, DecUnit ShiftJISWHATWG (fst l) u /\ snd l = utf8 u) (sjis_test_lines table).
Proof.
  intros Ht. unfold sjis_test_lines. apply Forall_app. split.
  - apply Forall_forall. intros l Hl. apply in_map_iff in Hl. destruct Hl as (b & <- & Hb). apply range1_in in Hb. cbn [fst snd].
    exists [b]. split; [left; exists b; split; [lia|auto]|]. apply utf8_one. left. lia.
  - apply Forall_forall. intros l Hl. apply in_map_iff in Hl. destruct Hl as ([p c] & <- & Hp). apply Ht in Hp. cbn [fst snd].
    assert (Hu : DecUnit ShiftJISWHATWG (sjis_code p) [c]) by (right; right; left; exists p, c; auto).
    exists [c]. rewrite sjis_bytes. split; [exact Hu|]. apply utf8_one. destruct (dec_unit_shape _ _ _ Hu) as (_ & _ & Hx & _). inversion Hx. assumption.
Qed.

Lemma sjis_encode_lines table : (forall p c, In (p, c) table -> sjis_pointer c p) ->
  Forall (fun l => exists u, EncUnit ShiftJISWHATWG u (fst l) /\ snd l = utf8 u) (sjis_test_lines table).
Proof.
  intros Ht. unfold sjis_test_lines. apply Forall_app. split.
  - apply Forall_forall. intros l Hl. apply in_map_iff in Hl. destruct Hl as (b & <- & Hb). apply range1_in in Hb. cbn [fst snd].
    exists [b]. split; [left; exists b; split; [lia|auto]|]. apply utf8_one. left. lia.
  - apply Forall_forall. intros l Hl. apply in_map_iff in Hl. destruct Hl as ([p c] & <- & Hp). apply Ht in Hp. cbn [fst snd].
    assert (Hu : EncUnit ShiftJISWHATWG [c] (sjis_code p)) by (do 6 right; exists c, p; auto).
    exists [c]. rewrite sjis_bytes. split; [exact Hu|]. apply utf8_one. destruct (enc_unit_shape _ _ _ Hu) as (Hx & _). inversion Hx. assumption.
Qed.
