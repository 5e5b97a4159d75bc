(* The Rust loops as greedy iterations of a decision function ("what is at the head of the input?").
   Everything here is independent of any particular encoding. *)
From Coq Require Import List NArith Arith Bool Lia ZArith.
From Verif Require Import Tac Encodings Spec Prelude RustCore Types ProofUtf8.
Import ListNotations.
Local Open Scope nat_scope.

(** ** Buffers *)

(* buffer contents after writing w at the start of out *)
Definition frame (w out : list N) : list N := w ++ skipn (length w) out.

Lemma frame_nil out : frame [] out = out.
Proof. reflexivity. Qed.

Lemma frame_length w out : length w <= length out -> length (frame w out) = length out.
Proof. intros. unfold frame. rewrite app_length, skipn_length. lia. Qed.

Lemma frame_prefix w out : firstn (length w) (frame w out) = w.
Proof. unfold frame. rewrite firstn_app, Nat.sub_diag, firstn_all. cbn. apply app_nil_r. Qed.

Lemma frame_tail w out : length w <= length out -> skipn (length w) (frame w out) = skipn (length w) out.
Proof. intros. unfold frame. rewrite skipn_app, Nat.sub_diag, skipn_all. reflexivity. Qed.

Lemma slice_frame w out : length w <= length out -> slice_to (frame w out) (length w) = Ret w.
Proof.
  intros. unfold slice_to. rewrite frame_length by assumption.
  destruct (Nat.leb_spec (length w) (length out)); [|lia]. rewrite frame_prefix. reflexivity.
Qed.

Lemma skipn_skipn {A} (l : list A) i j : skipn i (skipn j l) = skipn (j + i) l.
Proof.
  revert l. induction j as [|j IH]; intros l; [reflexivity|]. destruct l; [cbn; rewrite skipn_nil; reflexivity|]. cbn. apply IH.
Qed.

Lemma upd_frame w out i v : i = length w -> length w < length out ->
  upd (frame w out) i v = Ret (frame (w ++ [v]) out).
Proof.
  intros -> H. unfold upd. rewrite frame_length by lia.
  destruct (Nat.ltb_spec (length w) (length out)); [|lia]. f_equal.
  rewrite frame_prefix. unfold frame. rewrite skipn_app.
  replace (S (length w) - length w) with 1 by lia.
  rewrite skipn_all2 by lia. cbn [app]. rewrite skipn_skipn, <- app_assoc, app_length. reflexivity.
Qed.

Lemma copy_at_frame w out a b s : a = length w -> b = length w + length s -> length w + length s <= length out ->
  copy_at (frame w out) a b s = Ret (frame (w ++ s) out).
Proof.
  intros -> -> H. unfold copy_at. rewrite frame_length by lia.
  replace (length w + length s - length w) with (length s) by lia.
  destruct (Nat.leb_spec (length w) (length w + length s)); [|lia].
  destruct (Nat.leb_spec (length w + length s) (length out)); [|lia]. rewrite Nat.eqb_refl. cbn [andb]. f_equal.
  rewrite frame_prefix. unfold frame. rewrite skipn_app, skipn_all2 by lia.
  cbn [app]. rewrite skipn_skipn, <- app_assoc, app_length. f_equal. f_equal. f_equal. lia.
Qed.

(** ** Encoding *)

(* what is at the head of the text to encode *)
Inductive eact :=
| EEnd                        (* nothing left *)
| EHold                       (* must wait for more text *)
| EBad (c : N)                (* a char without representation *)
| EUnit (k : nat) (w : list N). (* the first k chars are represented by w *)

(* [esteps next cs pre bs rest]: taking units from cs consumes pre, yields bs and leaves rest *)
Inductive esteps (next : list N -> eact) : list N -> list N -> list N -> list N -> Prop :=
| esteps_nil cs : esteps next cs [] [] cs
| esteps_unit cs k w pre bs rest :
    next cs = EUnit k w -> esteps next (skipn k cs) pre bs rest ->
    esteps next cs (firstn k cs ++ pre) (w ++ bs) rest.

(* the result of an encoder: as many units as fit in [out], then a reason to stop.
   [thr] is the room that must be left for an error to be reported. *)
Definition enc_outcome (next : list N -> eact) (thr : nat) (cs out : list N)
    (res : outcome (encode_result * list N)) : Prop :=
  exists pre bs rest,
    cs = pre ++ rest /\ esteps next cs pre bs rest /\ length bs <= length out /\
    match next rest with
    | EEnd | EHold => res = Ret (Ok (bs, length (utf8 pre)), frame bs out)
    | EBad c =>
        (exists rest', rest = c :: rest') /\
        res = Ret (if length bs + thr <=? length out
                   then Err (EncodeError c (length (utf8 pre), length (utf8 pre) + length (utf8_char c)) (length bs))
                   else Ok (bs, length (utf8 pre)),
                   frame bs out)
    | EUnit k w =>
        length out < length bs + length w /\ res = Ret (Ok (bs, length (utf8 pre)), frame bs out)
    end.

(* a loop body that performs one step of [next] *)
Definition enc_body_ok (next : list N -> eact) (thr : nat)
    (body : enc_state -> outcome (ctl enc_state (encode_error * list N))) : Prop :=
  forall pre rest wr out input_i,
  text (pre ++ rest) -> length wr <= length out ->
  let o := length (utf8 pre) in
  let st := EncState (offsets o rest) input_i (length wr) (frame wr out) in
  let breaks := exists itr, body st = Ret (Break (EncState itr input_i (length wr) (frame wr out))) in
  match next rest with
  | EEnd | EHold => breaks
  | EBad c =>
      (exists rest', rest = c :: rest') /\
      if length wr + thr <=? length out
      then body st = Ret (Return (EncodeError c (o, o + length (utf8_char c)) (length wr), frame wr out))
      else breaks
  | EUnit k w =>
      1 <= k <= length rest /\
      if length wr + length w <=? length out
      then body st = Ret (Continue (EncState (offsets (length (utf8 (pre ++ firstn k rest))) (skipn k rest))
                                             (length (utf8 (pre ++ firstn (k - 1) rest)) + 1)
                                             (length (wr ++ w)) (frame (wr ++ w) out)))
      else breaks
  end.

Lemma firstn_S {A} (l : list A) k : k < length l -> exists x, nth_error l k = Some x /\ firstn (S k) l = firstn k l ++ [x]
   /\ skipn k l = x :: skipn (S k) l.
Proof.
  revert l. induction k as [|k IH]; intros [|a l] H; cbn in H; try lia.
  - exists a. auto.
  - destruct (IH l) as (x & H1 & H2 & H3); [lia|]. exists x.
    change (firstn (S (S k)) (a :: l)) with (a :: firstn (S k) l). rewrite H2. repeat split; auto.
Qed.

Lemma finish_input_unit cs pre rest k : text cs -> cs = pre ++ rest -> 1 <= k <= length rest ->
  finish_input (utf8 cs) (length (utf8 (pre ++ firstn (k - 1) rest)) + 1) = Ret (length (utf8 (pre ++ firstn k rest))).
Proof.
  intros Hcs -> Hk. destruct k as [|k]; [lia|]. replace (S k - 1) with k by lia.
  destruct (firstn_S rest k) as (x & Hx & Hf & Hs); [lia|].
  rewrite Hf, app_assoc.
  assert (E : pre ++ rest = (pre ++ firstn k rest) ++ x :: skipn (S k) rest).
  { rewrite <- app_assoc, <- Hs, firstn_skipn. reflexivity. }
  rewrite E. apply finish_input_char. rewrite <- E. exact Hcs.
Qed.

Lemma enc_loop next thr body : enc_body_ok next thr body ->
  forall cs out, text cs ->
  forall n rest pre wr input_i fuel,
  length rest <= n -> n < fuel -> cs = pre ++ rest -> length wr <= length out ->
  finish_input (utf8 cs) input_i = Ret (length (utf8 pre)) ->
  exists pre' bs rest', rest = pre' ++ rest' /\ esteps next rest pre' bs rest' /\ length (wr ++ bs) <= length out /\
    let st0 := EncState (offsets (length (utf8 pre)) rest) input_i (length wr) (frame wr out) in
    let leaves := exists itr i, loop fuel body st0 = Ret (inl (EncState itr i (length (wr ++ bs)) (frame (wr ++ bs) out)))
                    /\ finish_input (utf8 cs) i = Ret (length (utf8 (pre ++ pre'))) in
    match next rest' with
    | EEnd | EHold => leaves
    | EBad c =>
        (exists rest'', rest' = c :: rest'') /\
        if length (wr ++ bs) + thr <=? length out
        then loop fuel body st0 =
             Ret (inr (EncodeError c (length (utf8 (pre ++ pre')), length (utf8 (pre ++ pre')) + length (utf8_char c))
                          (length (wr ++ bs)), frame (wr ++ bs) out))
        else leaves
    | EUnit k w => length out < length (wr ++ bs) + length w /\ leaves
    end.
Proof.
  intros Hok cs out Hcs n. induction n as [n IH] using lt_wf_ind.
  intros rest pre wr input_i fuel Hn Hfuel Ecs Hwr Hfin.
  destruct fuel as [|fuel]; [lia|].
  assert (Htext : text (pre ++ rest)) by (rewrite <- Ecs; exact Hcs).
  pose proof (Hok pre rest wr out input_i Htext Hwr) as Hbody. cbv zeta in Hbody.
  destruct (next rest) as [| |c|k w] eqn:Enext.
  - exists [], [], rest. rewrite !app_nil_r. split; [reflexivity|]. split; [constructor|]. split; [assumption|].
    cbv zeta. rewrite Enext. destruct Hbody as [itr Hbody]. exists itr, input_i. cbn [loop]. rewrite Hbody.
    split; [reflexivity|assumption].
  - exists [], [], rest. rewrite !app_nil_r. split; [reflexivity|]. split; [constructor|]. split; [assumption|].
    cbv zeta. rewrite Enext. destruct Hbody as [itr Hbody]. exists itr, input_i. cbn [loop]. rewrite Hbody.
    split; [reflexivity|assumption].
  - exists [], [], rest. rewrite !app_nil_r. split; [reflexivity|]. split; [constructor|]. split; [assumption|].
    cbv zeta. rewrite Enext. destruct Hbody as [Hrest Hbody]. split; [exact Hrest|].
    destruct (length wr + thr <=? length out).
    + cbn [loop]. rewrite Hbody. reflexivity.
    + destruct Hbody as [itr Hbody]. exists itr, input_i. cbn [loop]. rewrite Hbody. split; [reflexivity|assumption].
  - destruct Hbody as [Hk Hbody].
    destruct (Nat.leb_spec (length wr + length w) (length out)) as [Hroom|Hroom].
    + destruct (IH (n - k)) with (rest := skipn k rest) (pre := pre ++ firstn k rest) (wr := wr ++ w)
        (input_i := length (utf8 (pre ++ firstn (k - 1) rest)) + 1) (fuel := fuel)
        as (pre' & bs & rest' & Erest & Hsteps & Hlen & Hres).
      * lia.
      * rewrite skipn_length. lia.
      * lia.
      * rewrite <- app_assoc, firstn_skipn. exact Ecs.
      * rewrite app_length. lia.
      * apply finish_input_unit; auto.
      * exists (firstn k rest ++ pre'), (w ++ bs), rest'. split.
        { rewrite <- app_assoc, <- Erest, firstn_skipn. reflexivity. }
        split; [econstructor; eassumption|]. rewrite !app_assoc. split; [exact Hlen|].
        cbv zeta in *. cbn [loop]. rewrite Hbody. cbn [bind]. exact Hres.
    + exists [], [], rest. rewrite !app_nil_r. split; [reflexivity|]. split; [constructor|]. split; [assumption|].
      cbv zeta. rewrite Enext. split; [lia|]. destruct Hbody as [itr Hbody]. exists itr, input_i. cbn [loop]. rewrite Hbody.
      split; [reflexivity|assumption].
Qed.

Lemma utf8_length_ge cs : length cs <= length (utf8 cs).
Proof.
  induction cs as [|c cs IH]; [cbn; lia|]. rewrite utf8_cons, app_length. pose proof (utf8_char_pos c). cbn [length]. lia.
Qed.

Lemma run_encoder_outcome next thr body : enc_body_ok next thr body ->
  forall cs out, text cs -> enc_outcome next thr cs out (run_encoder body (utf8 cs) out).
Proof.
  intros Hok cs out Hcs. unfold run_encoder, char_indices. rewrite char_indices_offsets by assumption. cbn [bind].
  destruct (enc_loop next thr body Hok cs out Hcs (length cs) cs [] [] 0 (S (length (utf8 cs))))
    as (pre & bs & rest & Ecs & Hsteps & Hlen & Hres);
    [ lia | pose proof (utf8_length_ge cs); lia | reflexivity | cbn; lia | apply finish_input_zero; assumption |].
  cbn [app] in *. cbv zeta in Hres. change (length (utf8 [])) with 0 in Hres. change (length (@nil N)) with 0 in Hres.
  rewrite frame_nil in Hres.
  exists pre, bs, rest. split; [exact Ecs|]. split; [exact Hsteps|]. split; [exact Hlen|].
  destruct (next rest) as [| |c|k w].
  - destruct Hres as (itr & i & Hl & Hf). rewrite Hl. cbn [bind es_in es_buf es_out]. rewrite Hf. cbn [bind].
    rewrite slice_frame by assumption. reflexivity.
  - destruct Hres as (itr & i & Hl & Hf). rewrite Hl. cbn [bind es_in es_buf es_out]. rewrite Hf. cbn [bind].
    rewrite slice_frame by assumption. reflexivity.
  - destruct Hres as [Hc Hres]. split; [exact Hc|]. destruct (length bs + thr <=? length out).
    + rewrite Hres. reflexivity.
    + destruct Hres as (itr & i & Hl & Hf). rewrite Hl. cbn [bind es_in es_buf es_out]. rewrite Hf. cbn [bind].
      rewrite slice_frame by assumption. reflexivity.
  - destruct Hres as [Hroom (itr & i & Hl & Hf)]. split; [exact Hroom|].
    rewrite Hl. cbn [bind es_in es_buf es_out]. rewrite Hf. cbn [bind].
    rewrite slice_frame by assumption. reflexivity.
Qed.

(** ** Decoding *)

(* what is at the head of the bytes to decode *)
Inductive dact :=
| DEnd                          (* nothing left *)
| DHold                         (* incomplete, more bytes may come *)
| DBad (n : nat)                (* n bytes of invalid data *)
| DUnit (k : nat) (u : list N). (* the first k bytes mean the text u *)

Inductive dsteps (next : list N -> dact) : list N -> list N -> list N -> list N -> Prop :=
| dsteps_nil bs : dsteps next bs [] [] bs
| dsteps_unit bs k u pre cs rest :
    next bs = DUnit k u -> dsteps next (skipn k bs) pre cs rest ->
    dsteps next bs (firstn k bs ++ pre) (u ++ cs) rest.

Definition dec_outcome (next : list N -> dact) (thr : nat) (bs out : list N)
    (res : outcome (decode_result * list N)) : Prop :=
  exists pre cs rest,
    bs = pre ++ rest /\ dsteps next bs pre cs rest /\ length (utf8 cs) <= length out /\
    match next rest with
    | DEnd | DHold => res = Ret (Ok (utf8 cs, length pre), frame (utf8 cs) out)
    | DBad n =>
        res = Ret (if length (utf8 cs) + thr <=? length out
                   then Err (DecodeError InvalidData (length pre, length pre + n) (length (utf8 cs)))
                   else Ok (utf8 cs, length pre),
                   frame (utf8 cs) out)
    | DUnit k u =>
        length out < length (utf8 cs) + length (utf8 u) /\
        res = Ret (Ok (utf8 cs, length pre), frame (utf8 cs) out)
    end.

(* a loop body that performs one step of [next]; the iterator over the rest of the input is [itr_of rest] *)
Definition dec_body_ok {T} (itr_of : list N -> list T) (next : list N -> dact) (thr : nat) (input : list N)
    (body : dec_state T -> outcome (ctl (dec_state T) (decode_error * list N))) : Prop :=
  forall pre rest wr out,
  bytes rest -> input = pre ++ rest -> length wr <= length out ->
  let st := DecState (itr_of rest) (length pre) (length wr) (frame wr out) in
  let breaks := exists itr, body st = Ret (Break (DecState itr (length pre) (length wr) (frame wr out))) in
  match next rest with
  | DEnd | DHold => breaks
  | DBad n =>
      if length wr + thr <=? length out
      then body st = Ret (Return (invalid_data (length pre) (length pre + n) (length wr), frame wr out))
      else breaks
  | DUnit k u =>
      1 <= k <= length rest /\ text u /\
      if length wr + length (utf8 u) <=? length out
      then body st = Ret (Continue (DecState (itr_of (skipn k rest)) (length pre + k)
                                             (length (wr ++ utf8 u)) (frame (wr ++ utf8 u) out)))
      else breaks
  end.

Lemma bytes_skipn k bs : bytes bs -> bytes (skipn k bs).
Proof. intros H. rewrite <- (firstn_skipn k bs) in H. apply Forall_app in H. apply H. Qed.

Lemma dec_loop {T} (itr_of : list N -> list T) next thr input body : dec_body_ok itr_of next thr input body ->
  forall out n rest pre wr fuel,
  length rest <= n -> n < fuel -> bytes rest -> input = pre ++ rest -> length wr <= length out ->
  exists pre' cs rest', rest = pre' ++ rest' /\ dsteps next rest pre' cs rest' /\ text cs /\
    length (wr ++ utf8 cs) <= length out /\
    let st0 := DecState (itr_of rest) (length pre) (length wr) (frame wr out) in
    let leaves := exists itr, loop fuel body st0 =
                    Ret (inl (DecState itr (length (pre ++ pre')) (length (wr ++ utf8 cs)) (frame (wr ++ utf8 cs) out))) in
    match next rest' with
    | DEnd | DHold => leaves
    | DBad m =>
        if length (wr ++ utf8 cs) + thr <=? length out
        then loop fuel body st0 =
             Ret (inr (invalid_data (length (pre ++ pre')) (length (pre ++ pre') + m) (length (wr ++ utf8 cs)),
                       frame (wr ++ utf8 cs) out))
        else leaves
    | DUnit k u => length out < length (wr ++ utf8 cs) + length (utf8 u) /\ leaves
    end.
Proof.
  intros Hok out n. induction n as [n IH] using lt_wf_ind.
  intros rest pre wr fuel Hn Hfuel Hb Ein Hwr.
  destruct fuel as [|fuel]; [lia|].
  pose proof (Hok pre rest wr out Hb Ein Hwr) as Hbody. cbv zeta in Hbody.
  assert (Hstop : forall P : list N -> list N -> list N -> Prop,
     P [] [] rest -> exists pre' cs rest', P pre' cs rest') by eauto.
  destruct (next rest) as [| |m|k u] eqn:Enext.
  - exists [], [], rest. cbn [utf8 flat_map]. rewrite !app_nil_r.
    split; [reflexivity|]. split; [constructor|]. split; [constructor|]. split; [assumption|].
    cbv zeta. rewrite Enext. destruct Hbody as [itr Hbody]. exists itr. cbn [loop]. rewrite Hbody. reflexivity.
  - exists [], [], rest. cbn [utf8 flat_map]. rewrite !app_nil_r.
    split; [reflexivity|]. split; [constructor|]. split; [constructor|]. split; [assumption|].
    cbv zeta. rewrite Enext. destruct Hbody as [itr Hbody]. exists itr. cbn [loop]. rewrite Hbody. reflexivity.
  - exists [], [], rest. cbn [utf8 flat_map]. rewrite !app_nil_r.
    split; [reflexivity|]. split; [constructor|]. split; [constructor|]. split; [assumption|].
    cbv zeta. rewrite Enext. destruct (length wr + thr <=? length out).
    + cbn [loop]. rewrite Hbody. reflexivity.
    + destruct Hbody as [itr Hbody]. exists itr. cbn [loop]. rewrite Hbody. reflexivity.
  - destruct Hbody as (Hk & Hu & Hbody).
    destruct (Nat.leb_spec (length wr + length (utf8 u)) (length out)) as [Hroom|Hroom].
    + destruct (IH (n - k)) with (rest := skipn k rest) (pre := pre ++ firstn k rest) (wr := wr ++ utf8 u) (fuel := fuel)
        as (pre' & cs & rest' & Erest & Hsteps & Hcs & Hlen & Hres).
      * lia.
      * rewrite skipn_length. lia.
      * lia.
      * apply bytes_skipn, Hb.
      * rewrite <- app_assoc, firstn_skipn. exact Ein.
      * rewrite app_length. lia.
      * exists (firstn k rest ++ pre'), (u ++ cs), rest'. split.
        { rewrite <- app_assoc, <- Erest, firstn_skipn. reflexivity. }
        split; [econstructor; eassumption|]. split; [apply Forall_app; auto|].
        rewrite utf8_app, !app_assoc. split; [exact Hlen|].
        cbv zeta in *. cbn [loop]. rewrite Hbody. cbn [bind]. rewrite app_length, firstn_length_le in Hres by lia.
        exact Hres.
    + exists [], [], rest. cbn [utf8 flat_map]. rewrite !app_nil_r.
      split; [reflexivity|]. split; [constructor|]. split; [constructor|]. split; [assumption|].
      cbv zeta. rewrite Enext. split; [lia|]. destruct Hbody as [itr Hbody]. exists itr. cbn [loop]. rewrite Hbody.
      reflexivity.
Qed.

Lemma run_decoder_outcome {T} (itr_of : list N -> list T) next thr body bs :
  dec_body_ok itr_of next thr bs body -> bytes bs ->
  forall out, dec_outcome next thr bs out (run_decoder body (S (length bs)) (itr_of bs) out).
Proof.
  intros Hok Hb out. unfold run_decoder.
  destruct (dec_loop itr_of next thr bs body Hok out (length bs) bs [] [] (S (length bs)))
    as (pre & cs & rest & Ebs & Hsteps & Hcs & Hlen & Hres); auto; try (cbn; lia).
  cbn [app] in *. cbv zeta in Hres. change (length (@nil N)) with 0 in Hres. rewrite frame_nil in Hres.
  exists pre, cs, rest. split; [exact Ebs|]. split; [exact Hsteps|]. split; [exact Hlen|].
  assert (Hok' : forall itr, (let* s := slice_to (ds_buf (DecState (T := T) itr (length pre) (length (utf8 cs)) (frame (utf8 cs) out)))
                                (ds_out (DecState (T := T) itr (length pre) (length (utf8 cs)) (frame (utf8 cs) out))) in
       let* s := from_utf8_unchecked s in
       Ret (Ok (E := decode_error) (s, length pre), frame (utf8 cs) out)) = Ret (Ok (utf8 cs, length pre), frame (utf8 cs) out)).
  { intros itr. cbn [ds_buf ds_out]. rewrite slice_frame by assumption. cbn [bind].
    rewrite from_utf8_unchecked_text by assumption. reflexivity. }
  destruct (next rest) as [| |m|k u].
  - destruct Hres as (itr & Hl). rewrite Hl. apply (Hok' itr).
  - destruct Hres as (itr & Hl). rewrite Hl. apply (Hok' itr).
  - destruct (length (utf8 cs) + thr <=? length out).
    + rewrite Hres. reflexivity.
    + destruct Hres as (itr & Hl). rewrite Hl. apply (Hok' itr).
  - destruct Hres as [Hroom (itr & Hl)]. split; [exact Hroom|]. rewrite Hl. apply (Hok' itr).
Qed.

(* copying one decoded piece *)
Lemma copy_string_frame {T} (itr0 itr : list T) i wr out s k : length wr <= length out ->
  copy_string (DecState itr0 i (length wr) (frame wr out)) itr s k =
  if length wr + length s <=? length out
  then Ret (Continue (DecState itr (i + k) (length (wr ++ s)) (frame (wr ++ s) out)))
  else Ret (Break (DecState itr i (length wr) (frame wr out))).
Proof.
  intros H. unfold copy_string. cbn [ds_buf ds_out ds_in]. rewrite frame_length by assumption.
  destruct (Nat.ltb_spec (length out) (length wr + length s)); destruct (Nat.leb_spec (length wr + length s) (length out)); try lia.
  - reflexivity.
  - rewrite copy_at_frame by (auto; lia). cbn [bind]. rewrite app_length. reflexivity.
Qed.
