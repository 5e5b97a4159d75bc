(* Error recovery compared with the Encoding Standard's decoders; encoders compared with its encoders. *)
From Coq Require Import List NArith Arith Bool Lia ZArith.
From Verif Require Import Tac Encodings RefBig5 RefSjis Spec SpecErrors SpecWhatwg Prelude RustCore Types ProofUtf8 Engine Search NextEnc NextDec NextUtf8
  TabBig5 TabSjis Tables Units Decide Greedy ModelSingleByte ModelApi ProofApi Session ProofSession ProofMore ProofRound.
Import ListNotations.
Local Open Scope N_scope.

(** ** Lookups *)

Lemma index_lookup_assoc {V} (l : list (N * V)) p : index_lookup l p = assoc l p.
Proof. induction l as [|[k v] l IH]; [reflexivity|]. cbn. rewrite IH. reflexivity. Qed.

Lemma assoc_fun {V} (l : list (N * V)) f : (forall p v, In (p, v) l <-> f p = Some v) -> forall p, assoc l p = f p.
Proof.
  intros H p. destruct (assoc l p) as [v|] eqn:E.
  - apply assoc_In in E. apply H in E. auto.
  - destruct (f p) as [v|] eqn:F; [|reflexivity]. apply H in F. exfalso.
    clear -E F. induction l as [|[k w] l IH]; [exact F|]. cbn in *. destruct (N.eqb_spec k p); [discriminate|].
    destruct F as [F|F]; [congruence|auto].
Qed.

Lemma big5_lookup p : index_lookup big5_index p = table_get big5_decode_table p.
Proof. rewrite index_lookup_assoc. destruct big5_facts as (_ & _ & F & _). apply (assoc_fun _ (table_get big5_decode_table) F). Qed.

Lemma sjis_lookup p : index_lookup jis0208_index p = table_get sjis_decode_table p.
Proof. rewrite index_lookup_assoc. destruct sjis_facts as (_ & _ & F & _). apply (assoc_fun _ (table_get sjis_decode_table) F). Qed.

(** ** The replacement decoders follow the decision functions *)

Definition follows (W : list N -> list N) (next : list N -> dact) : Prop := forall bs, bytes bs ->
  match next bs with
  | DEnd => W bs = []
  | DHold => False
  | DBad n => W bs = replacement :: W (skipn n bs)
  | DUnit k u => W bs = u ++ W (skipn k bs)
  end.

Lemma utf16_follows big : follows (utf16_decoder big None None) (utf16_dec_next big true).
Proof.
  intros bs Hb. destruct bs as [|b0 [|b1 r]]; [reflexivity|reflexivity|].
  cbn [utf16_dec_next utf16_decoder length]. rewrite (value16_u16 big b0 b1).
  apply bytes_head in Hb. destruct Hb as [H0 Hb]. apply bytes_head in Hb. destruct Hb as [H1 Hb].
  set (x := u16_from_bytes big b0 b1). assert (Hx : x < 65536) by (apply u16_bytes_lt; assumption). clearbody x.
  destruct ((x <? 0xD800) || (0xDFFF <? x)) eqn:E1.
  { replace (within 0xD800 x 0xDBFF) with false by (unfold within; lia). replace (within 0xDC00 x 0xDFFF) with false by (unfold within; lia). reflexivity. }
  destruct (N.leb_spec 0xDC00 x).
  { replace (within 0xD800 x 0xDBFF) with false by (unfold within; lia). replace (within 0xDC00 x 0xDFFF) with true by (unfold within; lia). reflexivity. }
  replace (within 0xD800 x 0xDBFF) with true by (unfold within; lia).
  destruct r as [|b2 [|b3 r]]; [reflexivity|reflexivity|]. cbn [utf16_decoder skipn]. 
  set (y := u16_from_bytes big b2 b3). assert (Ey : value16 big b2 b3 = y) by apply value16_u16. clearbody y. rewrite Ey.
  replace (within 0xDC00 y 0xDFFF) with ((0xDC00 <=? y) && (y <? 0xE000)) by (unfold within; lia).
  destruct ((0xDC00 <=? y) && (y <? 0xE000)) eqn:E2.
  - cbn [app skipn]. f_equal. lia.
  - cbn [skipn utf16_decoder]. rewrite Ey. replace (within 0xDC00 y 0xDFFF) with false by (unfold within; lia). reflexivity.
Qed.

Lemma utf32_follows big : follows (utf32_decoder big) (utf32_dec_next big true).
Proof.
  intros bs Hb. destruct bs as [|b0 [|b1 [|b2 [|b3 r]]]]; [reflexivity|reflexivity|reflexivity|reflexivity|].
  cbn [utf32_dec_next utf32_decoder].
  apply bytes_head in Hb. destruct Hb as [H0 Hb]. apply bytes_head in Hb. destruct Hb as [H1 Hb].
  apply bytes_head in Hb. destruct Hb as [H2 Hb]. apply bytes_head in Hb. destruct Hb as [H3 Hb].
  replace (if big then ((b0 * 256 + b1) * 256 + b2) * 256 + b3 else ((b3 * 256 + b2) * 256 + b1) * 256 + b0)
    with (u32_from_bytes big b0 b1 b2 b3) by (unfold u32_from_bytes, u32_from_be_bytes, u32_from_le_bytes; destruct big; lia).
  set (c := u32_from_bytes big b0 b1 b2 b3). clearbody c.
  replace ((c <? 0xD800) || within 0xE000 c 0x10FFFF) with (is_char c) by (unfold is_char, within; lia).
  destruct (is_char c); reflexivity.
Qed.

Lemma big5_follows : follows (big5_decoder 0) (big5_dec_next big5_decode_table true).
Proof.
  intros bs Hb. destruct bs as [|b1 r]; [reflexivity|]. apply bytes_head in Hb. destruct Hb as [H1 Hb].
  cbn [big5_dec_next big5_decoder]. change (0 =? 0) with true. cbv iota.
  change 0x7F with 127. destruct (N.leb_spec b1 127); [reflexivity|].
  destruct ((b1 =? 0x80) || (b1 =? 0xFF)) eqn:E1.
  { replace (within 0x81 b1 0xFE) with false by (unfold within; lia). reflexivity. }
  replace (within 0x81 b1 0xFE) with true by (unfold within; lia).
  destruct r as [|b2 r].
  { cbn [big5_decoder length skipn]. bfalse (b1 =? 0). reflexivity. }
  apply bytes_head in Hb. destruct Hb as [H2 Hb].
  assert (E : big5_decoder b1 (b2 :: r) =
    match big5_pair b1 b2 with
    | Some cs => cs ++ big5_decoder 0 r
    | None => if b2 <=? 127 then replacement :: big5_decoder 0 (b2 :: r) else replacement :: big5_decoder 0 r
    end).
  { cbn [big5_decoder]. bfalse (b1 =? 0). change 0x7F with 127. destruct (big5_pair b1 b2); [reflexivity|]. destruct (b2 <=? 127); reflexivity. }
  rewrite E. clear E.
  assert (Hbad : (if b2 <=? 127 then replacement :: big5_decoder 0 (b2 :: r) else replacement :: big5_decoder 0 r) =
                 replacement :: big5_decoder 0 (skipn (if b2 <=? 127 then 1 else 2) (b1 :: b2 :: r))).
  { destruct (b2 <=? 127); reflexivity. }
  unfold big5_pair. cbv zeta.
  destruct ((b2 <? 0x40) || (0xFE <? b2) || ((0x7E <? b2) && (b2 <? 0xA1))) eqn:E2.
  { replace (within 0x40 b2 0x7E || within 0xA1 b2 0xFE) with false by (unfold within; lia). exact Hbad. }
  replace (within 0x40 b2 0x7E || within 0xA1 b2 0xFE) with true by (unfold within; lia).
  set (p := (b1 - 0x81) * 157 + (b2 - (if b2 <? 0x7F then 0x40 else 0x62))).
  rewrite (big5_lookup p), (index_lookup_assoc big5_sequences p).
  destruct (assoc big5_sequences p) as [cs|] eqn:Eq.
  - assert (Hn : table_get big5_decode_table p = None).
    { destruct big5_facts as (_ & _ & _ & _ & _ & F & _). apply (F p cs). apply assoc_In, Eq. }
    rewrite Hn. reflexivity.
  - destruct (table_get big5_decode_table p) as [c|]; [reflexivity|exact Hbad].
Qed.

Lemma sjis_follows : follows (sjis_decoder 0) (sjis_dec_next sjis_decode_table true).
Proof.
  intros bs Hb. destruct bs as [|b1 r]; [reflexivity|]. apply bytes_head in Hb. destruct Hb as [H1 Hb].
  cbn [sjis_dec_next sjis_decoder]. change (0 =? 0) with true. cbv iota.
  change 0x80 with 128 at 2. destruct (N.leb_spec b1 128); [reflexivity|].
  replace (within 0xA1 b1 0xDF) with ((0xA1 <=? b1) && (b1 <=? 0xDF)) by reflexivity.
  destruct ((0xA1 <=? b1) && (b1 <=? 0xDF)) eqn:E0; [cbn [app skipn]; f_equal; lia|].
  destruct ((0x9F <? b1) && (b1 <? 0xE0) || (0xFC <? b1)) eqn:E1.
  { replace (within 0x81 b1 0x9F || within 0xE0 b1 0xFC) with false by (unfold within; lia). reflexivity. }
  replace (within 0x81 b1 0x9F || within 0xE0 b1 0xFC) with true by (unfold within; lia).
  destruct r as [|b2 r].
  { cbn [sjis_decoder length skipn]. bfalse (b1 =? 0). reflexivity. }
  apply bytes_head in Hb. destruct Hb as [H2 Hb].
  assert (E : sjis_decoder b1 (b2 :: r) =
    match sjis_pair b1 b2 with
    | Some c => c :: sjis_decoder 0 r
    | None => if b2 <=? 127 then replacement :: sjis_decoder 0 (b2 :: r) else replacement :: sjis_decoder 0 r
    end).
  { cbn [sjis_decoder]. bfalse (b1 =? 0). change 0x7F with 127. destruct (sjis_pair b1 b2); [reflexivity|]. destruct (b2 <=? 127); reflexivity. }
  rewrite E. clear E.
  assert (Hbad : (if b2 <=? 127 then replacement :: sjis_decoder 0 (b2 :: r) else replacement :: sjis_decoder 0 r) =
                 replacement :: sjis_decoder 0 (skipn (if b2 <=? 127 then 1 else 2) (b1 :: b2 :: r))).
  { destruct (b2 <=? 127); reflexivity. }
  unfold sjis_pair. cbv zeta.
  destruct ((b2 <? 0x40) || (b2 =? 0x7F) || (0xFC <? b2)) eqn:E2.
  { replace (within 0x40 b2 0x7E || within 0x80 b2 0xFC) with false by (unfold within; lia). exact Hbad. }
  replace (within 0x40 b2 0x7E || within 0x80 b2 0xFC) with true by (unfold within; lia).
  set (p := (b1 - (if b1 <? 0xA0 then 0x81 else 0xC1)) * 188 + (b2 - (if b2 <? 0x7F then 0x40 else 0x41))).
  replace (within 8836 p 10715) with ((8836 <=? p) && (p <=? 10715)) by reflexivity.
  destruct ((8836 <=? p) && (p <=? 10715)) eqn:E3; [cbn [app skipn]; f_equal; lia|].
  rewrite sjis_lookup. destruct (table_get sjis_decode_table p) as [c|]; [reflexivity|exact Hbad].
Qed.

Lemma charset_lookup m b : index_lookup (charset m) b =
  if b <? 0x80 then Some b else table_get (sb_decode_table m) (b - 0x80).
Proof.
  rewrite index_lookup_assoc. apply (assoc_fun _ (fun b => if b <? 0x80 then Some b else table_get (sb_decode_table m) (b - 0x80))).
  intros p v. destruct (N.ltb_spec p 0x80).
  - rewrite charset_low by assumption. split; congruence.
  - rewrite charset_high by assumption. reflexivity.
Qed.

Lemma single_follows m : follows (single_byte_decoder m) (sb_dec_next (sb_decode_table m)).
Proof.
  intros bs Hb. destruct bs as [|b r]; [reflexivity|]. cbn [sb_dec_next single_byte_decoder map].
  rewrite charset_lookup. destruct (b <? 0x80); [reflexivity|]. destruct (table_get _ _); reflexivity.
Qed.

Lemma replacement_follows e : e <> Utf8 -> follows (replacement_decode e) (dec_next e true).
Proof.
  intros He. destruct e; [congruence| | | | | | |]; unfold replacement_decode, dec_next; cbv iota.
  - apply utf16_follows.
  - apply utf16_follows.
  - apply utf32_follows.
  - apply utf32_follows.
  - apply big5_follows.
  - apply sjis_follows.
  - apply single_follows.
Qed.

Lemma follows_steps W next bs pre cs rest : follows W next -> bytes bs -> dsteps next bs pre cs rest -> W bs = cs ++ W rest.
Proof.
  intros HW Hb H. induction H as [|bs k u pre cs rest Hn Hs IH]; [reflexivity|].
  pose proof (HW bs Hb) as F. rewrite Hn in F. rewrite F, IH by (apply bytes_skipn, Hb). rewrite app_assoc. reflexivity.
Qed.

(* a recovering client gets the replacement decoding, whatever buffers it uses *)
Lemma recovered_whatwg e : e <> Utf8 -> forall bs s, Recovered e bs s -> bytes bs -> s = utf8 (replacement_decode e bs).
Proof.
  intros He bs s H. pose proof (replacement_follows e He) as HW.
  induction H as [|bs out s n buf s' Hc HR IH|bs out er buf s' Hc HR IH]; intros Hb.
  - specialize (HW [] Hb). rewrite dec_next_nil in HW. rewrite HW. reflexivity.
  - destruct (decode_cases _ _ _ _ _ _ Hb Hc) as (pre & cs & rest & E0 & Hs & _ & _ & [(E & _)|(m & _ & _ & E)]); [|discriminate E].
    injection E as -> ->. assert (Hr : bytes rest) by (eapply dsteps_rest_bytes; eassumption).
    rewrite (follows_steps _ _ _ _ _ _ HW Hb Hs), utf8_app. f_equal.
    rewrite E0, skipn_len_app in IH. apply IH, Hr.
  - destruct (decode_cases _ _ _ _ _ _ Hb Hc) as (pre & cs & rest & E0 & Hs & _ & -> & [(E & _)|(m & Hbad & _ & E)]); [discriminate E|].
    injection E as ->. cbn [de_range de_written snd] in *. rewrite frame_prefix.
    assert (Hr : bytes rest) by (eapply dsteps_rest_bytes; eassumption).
    rewrite (follows_steps _ _ _ _ _ _ HW Hb Hs), utf8_app. f_equal.
    pose proof (HW rest Hr) as F. rewrite Hbad in F. rewrite F, utf8_cons. f_equal.
    assert (Es : skipn (length pre + m) bs = skipn m rest).
    { rewrite E0, <- skipn_skipn, skipn_len_app. reflexivity. }
    rewrite Es in IH. apply IH, bytes_skipn, Hr.
Qed.

(* and it always gets there: with buffers of 4 bytes or more, at most one call per input byte is needed *)
Lemma recover_loop_done e : forall outs bs, bytes bs -> Forall (fun out => 4 <= length out)%nat outs -> (length bs <= length outs)%nat ->
  snd (recover_loop e bs outs) = [] /\ Recovered e bs (fst (recover_loop e bs outs)).
Proof.
  induction outs as [|out outs IH]; intros bs Hb Ho Hl.
  - destruct bs; [split; [reflexivity|constructor]|cbn [length] in Hl; lia].
  - destruct bs as [|b bs]; [split; [reflexivity|constructor]|]. remember (b :: bs) as t eqn:Et.
    assert (Hne : t <> []) by congruence.
    assert (El : recover_loop e t (out :: outs) =
      match decode_to_str e t out true with
      | Ret (Ok (s, n), _) => let (em, r) := recover_loop e (skipn n t) outs in (s ++ em, r)
      | Ret (Err er, buf) =>
          let (em, r) := recover_loop e (skipn (snd (de_range er)) t) outs in
          (firstn (de_written er) buf ++ utf8_char 0xFFFD ++ em, r)
      | _ => ([], t)
      end) by (rewrite Et; reflexivity).
    rewrite El. clear El. destruct (decode_total e true t out Hb) as (r & buf & H). rewrite H.
    pose proof (Forall_inv Ho) as Ho1. pose proof (Forall_inv_tail Ho) as Ho2. cbv beta in Ho1.
    destruct r as [[s n]|er].
    + assert (Hn : (1 <= n)%nat) by (destruct (decode_progress _ _ _ _ _ _ _ Hb Hne Ho1 H) as [?|(? & _)]; [assumption|discriminate]).
      destruct (IH (skipn n t)) as [IH1 IH2]; [apply bytes_skipn, Hb|exact Ho2|rewrite skipn_length; cbn [length] in Hl; lia|].
      destruct (recover_loop e (skipn n t) outs) as [em rest]. cbn [fst snd] in *. split; [exact IH1|]. eapply rec_ok; eassumption.
    + pose proof (decode_err_exact _ _ _ _ _ _ Hb H) as X. destruct (de_range er) as [a b'] eqn:Er. destruct X as (Hab & _). cbn [snd].
      destruct (IH (skipn b' t)) as [IH1 IH2]; [apply bytes_skipn, Hb|exact Ho2|rewrite skipn_length; cbn [length] in Hl; lia|].
      destruct (recover_loop e (skipn b' t) outs) as [em rest]. cbn [fst snd] in *. split; [exact IH1|].
      eapply rec_err; [exact H|]. rewrite Er. exact IH2.
Qed.

(** ** Shift_JIS encoder *)

Lemma sjis_EncUnit_whatwg u w : EncUnit ShiftJISWHATWG u w <-> exists c, u = [c] /\ (whatwg_sjis_encode c w \/ sjis_encode_eudc c w).
Proof.
  destruct sjis_facts as (_ & _ & _ & _ & F & _).
  assert (Hsp : forall c p, sjis_pointer c p -> sjis_special c = false) by (intros c p (Hp & _); apply (F p c Hp)).
  unfold EncUnit, whatwg_sjis_encode, sjis_encode_eudc. split.
  - intros [(c & Hc & -> & ->)|[(-> & ->)|[(-> & ->)|[(c & Hc & -> & ->)|[(c & Hc & -> & ->)|[(p & Hp & -> & ->)|(c & p & Hp & -> & ->)]]]]]].
    + exists c. split; [reflexivity|]. left. btrue (c <=? 0x80). reflexivity.
    + exists 0xA5. split; [reflexivity|]. left. reflexivity.
    + exists 0x203E. split; [reflexivity|]. left. reflexivity.
    + exists c. split; [reflexivity|]. left. bfalse (c <=? 0x80). bfalse (c =? 0xA5). bfalse (c =? 0x203E).
      replace (within 0xFF61 c 0xFF9F) with true by (unfold within; lia). reflexivity.
    + exists c. split; [reflexivity|]. right. auto.
    + exists 0x2212. split; [reflexivity|]. left. change (exists q, whatwg_sjis_pointer 0xFF0D q /\ sjis_code p = sjis_code q). exists p. auto.
    + exists c. split; [reflexivity|]. left. pose proof (Hsp c p Hp) as Hs. unfold sjis_special in Hs.
      bfalse (c <=? 0x80). bfalse (c =? 0xA5). bfalse (c =? 0x203E).
      replace (within 0xFF61 c 0xFF9F) with false by (unfold within; lia). bfalse (c =? 0x2212). exists p. auto.
  - intros (c & -> & [H|(Hc & ->)]).
    + destruct (N.leb_spec c 0x80); [left; exists c; auto|].
      destruct (N.eqb_spec c 0xA5) as [E|_]; [right; left; rewrite E; auto|].
      destruct (N.eqb_spec c 0x203E) as [E|_]; [do 2 right; left; rewrite E; auto|].
      destruct (within 0xFF61 c 0xFF9F) eqn:Ew; [do 3 right; left; exists c; unfold within in Ew; split; [lia|auto]|].
      destruct H as (p & Hp & ->). destruct (N.eqb_spec c 0x2212) as [E|_].
      * rewrite E. do 5 right. left. exists p. auto.
      * do 6 right. exists c, p. auto.
    + do 4 right. left. exists c. auto.
Qed.

(** ** Big5 encoder *)

(* every character that also has a pointer of at least 5024, but is encoded with a smaller one, is listed,
   and for the listed characters both pointers are right *)
Definition deviations_check : bool :=
  let enc := of_list big5_encode_table in
  let dev := of_list big5_deviations in
  forallb (fun qc => (fst qc <? 5024) ||
     match tget enc (N.succ_pos (snd qc)) with
     | Some v => (5024 <=? big5_ptr v) ||
                 match tget dev (N.succ_pos (snd qc)) with Some d => snd d <=? fst qc | None => false end
     | None => false
     end) big5_index
  && forallb (fun d => match d with (c, (k, p)) =>
       (k <? 5024) && (5024 <=? p) && (p <? 19782) && negb (if in_dec N.eq_dec c big5_last then true else false) &&
       match tget enc (N.succ_pos c) with Some v => big5_ptr v =? k | None => false end &&
       match table_get big5_decode_table p with Some c' => c' =? c | None => false end
     end) big5_deviations
  && increasingb big5_deviations.

Lemma deviations_check_ok : deviations_check = true.
Proof. vm_compute. reflexivity. Qed.

Lemma big5_code_inj p q : p < 19782 -> q < 19782 -> big5_code p = big5_code q -> p = q.
Proof.
  intros Hp Hq. unfold big5_code. intros E. apply cons_inj in E. destruct E as [E1 E2]. apply cons_inj in E2. destruct E2 as [E2 _].
  assert (p / 157 = q / 157) by lia. assert (p mod 157 = q mod 157); [|rewrite (N.div_mod' p 157), (N.div_mod' q 157); lia].
  assert (p mod 157 < 157) by (apply N.mod_lt; lia). assert (q mod 157 < 157) by (apply N.mod_lt; lia).
  destruct (N.ltb_spec (p mod 157) 0x3F), (N.ltb_spec (q mod 157) 0x3F); lia.
Qed.

Lemma big5_pointer_fun c p q : big5_pointer c p -> big5_pointer c q -> p = q.
Proof.
  intros [Hp Mp] [Hq Mq]. specialize (Mp q Hq). specialize (Mq p Hp). destruct (in_dec N.eq_dec c big5_last); lia.
Qed.

Lemma whatwg_big5_pointer_fun c p q : whatwg_big5_pointer c p -> whatwg_big5_pointer c q -> p = q.
Proof.
  intros (Hp & Lp & Mp) (Hq & Lq & Mq). specialize (Mp q Hq Lq). specialize (Mq p Hp Lp). destruct (in_dec N.eq_dec c big5_last); lia.
Qed.

Lemma big5_chosen c p : big5_pointer c p -> exists v, assoc big5_encode_table c = Some v /\ big5_ptr v = p /\ p < 19782 /\ 0x80 <= c.
Proof.
  intros Hp. destruct big5_facts as (_ & _ & _ & F & G & _). destruct (G p c (proj1 Hp)) as (Hc & Hlt & v & Hv).
  exists v. split; [exact Hv|]. split; [|auto]. destruct (proj1 (F c v) Hv) as (q & Hq & Hql & E).
  rewrite (big5_pointer_fun c p q Hp Hq). destruct (big5_code_ptr q Hql) as (b1 & b2 & Eq & Hb1 & X).
  rewrite Eq in E. unfold pair_bytes in E. apply cons_inj in E. destruct E as [E1 E2]. apply cons_inj in E2. destruct E2 as [E2 _].
  unfold big5_ptr. rewrite E1, E2. apply X.
Qed.

Lemma big5_has_pointer c q : In (q, c) big5_index -> exists p, big5_pointer c p.
Proof.
  intros Hq. destruct big5_facts as (_ & _ & _ & F & G & _). destruct (G q c Hq) as (_ & _ & v & Hv).
  apply F in Hv. destruct Hv as (p & Hp & _). eauto.
Qed.

(* what is in the list of deviations *)
Lemma deviation_true c k p : In (c, (k, p)) big5_deviations ->
  big5_pointer c k /\ whatwg_big5_pointer c p /\ k < 5024 /\ 5024 <= p /\ p < 19782.
Proof.
  intros Hin. pose proof deviations_check_ok as H. unfold deviations_check in H.
  apply andb_prop in H. destruct H as [H H3]. apply andb_prop in H. destruct H as [H1 H2].
  rewrite forallb_forall in H1, H2. apply increasingb_ok in H3. pose proof (H2 _ Hin) as Hd. cbv beta iota in Hd.
  apply andb_prop in Hd. destruct Hd as [Hd Hp]. apply andb_prop in Hd. destruct Hd as [Hd Hk].
  apply andb_prop in Hd. destruct Hd as [Hd Hl]. apply andb_prop in Hd. destruct Hd as [Hd Hlt].
  apply andb_prop in Hd. destruct Hd as [Hk1 Hp1].
  rewrite tget_of_list in Hk. destruct (assoc big5_encode_table c) as [v|] eqn:Ev; [|discriminate Hk].
  destruct (table_get big5_decode_table p) as [c'|] eqn:Ep; [|discriminate Hp]. apply N.eqb_eq in Hp. subst c'.
  assert (Hpin : In (p, c) big5_index) by (destruct big5_facts as (_ & _ & F & _); apply F, Ep).
  destruct (big5_has_pointer c p Hpin) as (k' & Hk').
  destruct (big5_chosen c k' Hk') as (v' & Ev' & <- & _). rewrite Ev in Ev'. injection Ev' as <-. apply N.eqb_eq in Hk. rewrite Hk in *.
  split; [exact Hk'|]. split; [|lia]. split; [exact Hpin|]. split; [lia|].
  intros q Hq Hq5. destruct (in_dec N.eq_dec c big5_last); [discriminate Hl|].
  specialize (H1 _ Hq). cbn [fst snd] in H1. rewrite !tget_of_list, Ev in H1.
  assert (Ed : assoc big5_deviations c = Some (k, p)) by (apply In_assoc; assumption).
  rewrite Ed in H1. cbn [snd] in H1. rewrite Hk in H1. lia.
Qed.

(* and that nothing else deviates *)
Lemma deviation_complete c k p : big5_pointer c k -> whatwg_big5_pointer c p -> k = p \/ In (c, (k, p)) big5_deviations.
Proof.
  intros Hk Hp. pose proof Hp as (Hin & H5 & Mp). change ((0xA1 - 0x81) * 157) with 5024 in *.
  destruct (N.leb_spec 5024 k) as [L|L].
  - left. destruct Hk as [Hkin Mk]. specialize (Mp k Hkin L). specialize (Mk p Hin). destruct (in_dec N.eq_dec c big5_last); lia.
  - right. destruct (big5_chosen c k Hk) as (v & Ev & Ek & _).
    pose proof deviations_check_ok as H. unfold deviations_check in H.
    apply andb_prop in H. destruct H as [H _]. apply andb_prop in H. destruct H as [H1 _]. rewrite forallb_forall in H1.
    specialize (H1 _ Hin). cbn [fst snd] in H1. rewrite !tget_of_list, Ev, Ek in H1.
    destruct (assoc big5_deviations c) as [[k' p']|] eqn:Ed; [|lia]. apply assoc_In in Ed.
    destruct (deviation_true c k' p' Ed) as (Hk' & Hp' & _).
    rewrite (big5_pointer_fun c k k' Hk Hk'), (whatwg_big5_pointer_fun c p p' Hp Hp'). exact Ed.
Qed.

(** ** Encoding character by character *)

Lemma Encoded_esteps_more e ie cs bs rest : e <> Big5WHATWG -> Encoded e cs bs -> esteps (enc_next e ie) (cs ++ rest) cs bs rest.
Proof.
  intros He. induction 1 as [|u w cs bs Hu Hl HE IH]; [constructor|].
  pose proof (enc_unit_next e u w (cs ++ rest) Hu (longest_e e u _ w He Hu)) as Hn.
  assert (Hn' : enc_next e ie (u ++ cs ++ rest) = EUnit (length u) w).
  { destruct ie; [exact Hn|]. destruct (enc_next_final e (u ++ cs ++ rest)) as [E|E]; [congruence|].
    pose proof (enc_next_facts e false (u ++ cs ++ rest)) as F. rewrite E in F. destruct F as (_ & F & _). congruence. }
  rewrite <- app_assoc. rewrite <- (firstn_app_exact u (cs ++ rest)) at 2. econstructor; [exact Hn'|].
  rewrite skipn_app, Nat.sub_diag, skipn_all. exact IH.
Qed.

Lemma enc_bad_char e ie c post : e <> Big5WHATWG -> text (c :: post) -> (forall w, ~ EncUnit e [c] w) -> enc_next e ie (c :: post) = EBad c.
Proof.
  intros He Ht Hno. pose proof (enc_next_facts e ie (c :: post)) as F. destruct (enc_next e ie (c :: post)) as [| |c'|k w] eqn:E.
  - discriminate F.
  - destruct F as (_ & F & _). congruence.
  - destruct F as (r & F). apply cons_inj in F. destruct F as [-> _]. reflexivity.
  - exfalso. destruct (enc_next_unit e ie _ k w Ht E) as (Hk & Hu & _). destruct (enc_unit_single e _ w He Hu) as [d Ed].
    destruct k as [|k]; [lia|]. cbn [firstn] in *. rewrite Ed in Hu. apply cons_inj in Ed. destruct Ed as [<- _]. exact (Hno w Hu).
Qed.

Lemma encode_char_error e ie pre bs c post out : e <> Big5WHATWG -> Encoded e pre bs -> text (c :: post) -> (forall w, ~ EncUnit e [c] w) ->
  (length bs + encode_room e <= length out)%nat ->
  encode_from_str e (utf8 (pre ++ c :: post)) out ie =
  Ret (Err (EncodeError c (length (utf8 pre), length (utf8 pre) + length (utf8_char c))%nat (length bs)), frame bs out).
Proof.
  intros He HE Ht Hno Hl. assert (Htt : text (pre ++ c :: post)) by (apply Forall_app; split; [apply (Encoded_text _ _ _ HE)|exact Ht]).
  pose proof (encode_from_steps e ie (pre ++ c :: post) pre bs (c :: post) out Htt (Encoded_esteps_more e ie pre bs _ He HE)) as X.
  rewrite (enc_bad_char e ie c post He Ht Hno) in X. rewrite X; [|lia|exact I].
  destruct (Nat.leb_spec (length bs + encode_room e) (length out)); [reflexivity|lia].
Qed.

Lemma encode_enough_flag e ie cs bs out : e <> Big5WHATWG -> Encoded e cs bs -> (length bs <= length out)%nat ->
  encode_from_str e (utf8 cs) out ie = Ret (Ok (bs, length (utf8 cs)), frame bs out).
Proof.
  intros He HE Hl. rewrite <- (encode_enough e cs out bs HE Hl). destruct ie; [reflexivity|].
  destruct (encode_flag e cs out) as [E|(? & ? & ? & ? & ? & ? & _ & E & _)]; [apply (Encoded_text _ _ _ HE)|auto|congruence].
Qed.

Lemma sjis_Encoded_chars cs bs : Encoded ShiftJISWHATWG cs bs <->
  exists ws, Forall2 (fun c w => whatwg_sjis_encode c w \/ sjis_encode_eudc c w) cs ws /\ bs = concat ws.
Proof.
  split.
  - induction 1 as [|u w cs bs Hu Hl HE (ws & Hw & ->)]; [exists []; split; [constructor|reflexivity]|].
    apply sjis_EncUnit_whatwg in Hu. destruct Hu as (c & -> & Hc). exists (w :: ws). split; [constructor; assumption|reflexivity].
  - intros (ws & H & ->). induction H as [|c w cs ws Hc H IH]; [constructor|]. cbn [concat].
    assert (Hu : EncUnit ShiftJISWHATWG [c] w) by (apply sjis_EncUnit_whatwg; eauto).
    apply (Encoded_unit ShiftJISWHATWG [c] w cs (concat ws)); [exact Hu| |exact IH]. eapply longest_e; [discriminate|exact Hu].
Qed.

(* the standard's Big5 encoder produces a representation in the sense of Spec.v, except for the listed characters *)
Lemma whatwg_big5_unit c w : whatwg_big5_encode c w -> ~ In c (map fst big5_deviations) -> EncUnit Big5WHATWG [c] w.
Proof.
  intros [(Hc & ->)|(Hc & p & Hp & ->)] Hn.
  - left. exists c. split; [lia|auto].
  - right. left. destruct (big5_has_pointer c p (proj1 Hp)) as (k & Hk).
    destruct (deviation_complete c k p Hk Hp) as [->|Hd]; [eauto|].
    exfalso. apply Hn. apply in_map_iff. exists (c, (k, p)). auto.
Qed.

Lemma whatwg_big5_mark c w : whatwg_big5_encode c w -> ~ mark c.
Proof.
  intros [(Hc & _)|(_ & p & (Hp & _) & _)] Hm; [unfold mark in Hm; lia|]. exact (marks_not_in_index c p Hm Hp).
Qed.

Lemma whatwg_big5_Encoded cs ws : Forall2 whatwg_big5_encode cs ws -> Forall (fun c => ~ In c (map fst big5_deviations)) cs ->
  Encoded Big5WHATWG cs (concat ws).
Proof.
  intros H. induction H as [|c w cs ws Hc H IH]; intros Hn; [constructor|]. cbn [concat].
  pose proof (whatwg_big5_unit c w Hc (Forall_inv Hn)) as Hu.
  apply (Encoded_unit Big5WHATWG [c] w cs (concat ws)); [exact Hu| |apply IH, (Forall_inv_tail Hn)].
  apply (big5_longest [c] w cs Hu). intros d r E. rewrite E in H.
  inversion H as [|? w' ? ? Hd]. exact (whatwg_big5_mark d w' Hd).
Qed.

(* one character *)
Lemma big5_one c w : EncUnit Big5WHATWG [c] w -> Encoded Big5WHATWG [c] w.
Proof.
  intros Hu. rewrite <- (app_nil_r w). apply (Encoded_unit Big5WHATWG [c] w [] []); [exact Hu| |constructor].
  apply (big5_longest [c] w [] Hu). discriminate.
Qed.

Lemma big5_one_inv c w : Encoded Big5WHATWG [c] w -> EncUnit Big5WHATWG [c] w.
Proof.
  intros H. inversion H as [|u w' cs bs Hu Hl HE Eu Ew]; subst. destruct (enc_unit_shape _ _ _ Hu) as (_ & L & _).
  destruct u as [|d [|d' u]]; [cbn in L; lia| |discriminate Eu]. cbn [app] in Eu. apply cons_inj in Eu. destruct Eu as [-> ->].
  inversion HE as [|u2 w2 cs2 bs2 Hu2 Hl2 HE2 Eu2 Ew2]; [rewrite (app_nil_r w'); exact Hu|].
  destruct (enc_unit_shape _ _ _ Hu2) as (_ & L2 & _). destruct u2; [cbn in L2; lia|discriminate Eu2].
Qed.

(* a single character encodes with the pointer [big5_pointer] *)
Lemma big5_one_unit c w : EncUnit Big5WHATWG [c] w <-> (c < 0x80 /\ w = [c]) \/ exists p, big5_pointer c p /\ w = big5_code p.
Proof.
  split.
  - intros [(d & Hd & E & ->)|[(d & p & Hp & E & ->)|(p & Hp & ->)]].
    + apply cons_inj in E. destruct E as [-> _]. auto.
    + apply cons_inj in E. destruct E as [-> _]. eauto.
    + destruct (sequences_pairs p _ Hp) as (x & y & E). discriminate E.
  - intros [(Hc & ->)|(p & Hp & ->)]; [left; eauto|right; left; eauto].
Qed.

(** ** Byte pairs *)

Lemma big5_pair_next ie b1 b2 r : 0x81 <= b1 <= 0xFE -> b2 < 256 ->
  dec_next Big5WHATWG ie (b1 :: b2 :: r) = match big5_pair b1 b2 with Some u => DUnit 2 u | None => DBad (if b2 <=? 127 then 1 else 2) end.
Proof.
  intros H1 H2. cbn [dec_next big5_dec_next]. bfalse (b1 <=? 127). replace ((b1 =? 0x80) || (b1 =? 0xFF)) with false by lia.
  unfold big5_pair. cbv zeta.
  destruct ((b2 <? 0x40) || (0xFE <? b2) || ((0x7E <? b2) && (b2 <? 0xA1))) eqn:E2.
  { replace (within 0x40 b2 0x7E || within 0xA1 b2 0xFE) with false by (unfold within; lia). reflexivity. }
  replace (within 0x40 b2 0x7E || within 0xA1 b2 0xFE) with true by (unfold within; lia).
  set (p := (b1 - 0x81) * 157 + (b2 - (if b2 <? 0x7F then 0x40 else 0x62))).
  rewrite (big5_lookup p), (index_lookup_assoc big5_sequences p).
  destruct (assoc big5_sequences p) as [cs|] eqn:Eq.
  - assert (Hn : table_get big5_decode_table p = None).
    { destruct big5_facts as (_ & _ & _ & _ & _ & F & _). apply (F p cs). apply assoc_In, Eq. }
    rewrite Hn. reflexivity.
  - destruct (table_get big5_decode_table p) as [c|]; reflexivity.
Qed.

Lemma sjis_pair_next ie b1 b2 r : 0x81 <= b1 <= 0x9F \/ 0xE0 <= b1 <= 0xFC -> b2 < 256 ->
  dec_next ShiftJISWHATWG ie (b1 :: b2 :: r) = match sjis_pair b1 b2 with Some c => DUnit 2 [c] | None => DBad (if b2 <=? 127 then 1 else 2) end.
Proof.
  intros H1 H2. cbn [dec_next sjis_dec_next]. bfalse (b1 <=? 128). replace ((0xA1 <=? b1) && (b1 <=? 0xDF)) with false by lia.
  replace ((0x9F <? b1) && (b1 <? 0xE0) || (0xFC <? b1)) with false by lia.
  unfold sjis_pair. cbv zeta.
  destruct ((b2 <? 0x40) || (b2 =? 0x7F) || (0xFC <? b2)) eqn:E2.
  { replace (within 0x40 b2 0x7E || within 0x80 b2 0xFC) with false by (unfold within; lia). reflexivity. }
  replace (within 0x40 b2 0x7E || within 0x80 b2 0xFC) with true by (unfold within; lia).
  set (p := (b1 - (if b1 <? 0xA0 then 0x81 else 0xC1)) * 188 + (b2 - (if b2 <? 0x7F then 0x40 else 0x41))).
  replace (within 8836 p 10715) with ((8836 <=? p) && (p <=? 10715)) by reflexivity.
  destruct ((8836 <=? p) && (p <=? 10715)) eqn:E3; [do 2 f_equal; lia|].
  rewrite sjis_lookup. destruct (table_get sjis_decode_table p) as [c|]; reflexivity.
Qed.
