(* Conversion from one encoding to another. *)
From Coq Require Import List NArith Arith Bool Lia.
From Verif Require Import Encodings Spec SpecErrors SpecWhatwg SpecRecover SpecSubst SpecConvert Prelude RustCore Types ModelApi Session.
From Verif Require Import Tac Engine Units Decide Greedy ProofUtf8 ProofApi ProofSpec ProofSession ProofSubst ProofWhatwg ProofRecover PropStream PropRecover PropSubst.
Import ListNotations.
Local Open Scope nat_scope.

(** * Lemmas *)

Lemma rec_session_facts e fed ended n em : RecSession e fed ended n em -> bytes fed /\ n <= length fed.
Proof. intros H. destruct (stream_reads _ _ _ _ _ H) as (Hb & Hn & _). auto. Qed.

(* the two halves of a conversion *)
Lemma converting_inv e1 e2 sub fed ended n mid m em : Converting e1 e2 sub fed ended n mid m em ->
  RecSession e1 fed ended n mid /\
  exists fl, SubSession e2 sub mid fl m em /\ (fl = true -> ended = true /\ n = length fed).
Proof.
  induction 1 as [|bs fed n mid m em H IH Hb|fed n mid m em H IH|fed ended n mid m em out s k buf H IH Hc|fed ended n mid m em out er buf H IH Hc
                 |fed ended n mid m em out s k buf H IH Hc|fed ended n mid m em out er buf H IH Hc].
  - split; [constructor|]. exists false. split; [constructor|discriminate].
  - destruct IH as (R & fl & S & F). split; [constructor; assumption|]. exists fl. split; [exact S|]. intros X. destruct (F X). discriminate.
  - destruct IH as (R & fl & S & F). split; [constructor; assumption|]. exists fl. split; [exact S|]. intros X. destruct (F X). discriminate.
  - destruct IH as (R & fl & S & F). destruct (rec_session_facts _ _ _ _ _ R) as [Hf Hn].
    split; [eapply rs_ok; eassumption|]. destruct (decode_cases _ _ _ _ _ _ (bytes_skipn _ _ Hf) Hc) as (pre & cs & rest & E & Hs & _ & _ & C).
    assert (Ht : text cs) by (eapply (dsteps_rest_bytes e1 ended (skipn n fed)); [apply bytes_skipn, Hf|exact Hs]).
    destruct C as [[C _]|(k' & _ & _ & C)]; [|discriminate C]. injection C as -> ->.
    destruct fl.
    + destruct (F eq_refl) as [-> ->]. rewrite skipn_all in E. symmetry in E. apply app_eq_nil in E. destruct E as [-> ->].
      rewrite skipn_all in Hs. destruct (dsteps_nonempty _ _ _ _ _ Hs) as [(_ & -> & _)|(k & u & En & _)]; [|rewrite dec_next_nil in En; discriminate En].
      exists true. rewrite app_nil_r. split; [exact S|]. intros _. split; [reflexivity|cbn; lia].
    + exists false. split; [apply ss_feed; assumption|discriminate].
  - destruct IH as (R & fl & S & F). destruct (rec_session_facts _ _ _ _ _ R) as [Hf Hn].
    split; [eapply rs_err; eassumption|]. destruct (decode_cases _ _ _ _ _ _ (bytes_skipn _ _ Hf) Hc) as (pre & cs & rest & E & Hs & _ & -> & C).
    assert (Ht : text cs) by (eapply (dsteps_rest_bytes e1 ended (skipn n fed)); [apply bytes_skipn, Hf|exact Hs]).
    destruct C as [[C _]|(k' & En & _ & C)]; [discriminate C|]. injection C as ->. cbn [de_written de_range snd]. rewrite frame_prefix.
    destruct fl.
    + destruct (F eq_refl) as [-> ->]. rewrite skipn_all in E. symmetry in E. apply app_eq_nil in E. destruct E as [-> ->].
      rewrite dec_next_nil in En. discriminate En.
    + exists false. split; [|discriminate]. rewrite <- utf8_single, <- utf8_app. apply ss_feed; [exact S|].
      apply text_app. split; [exact Ht|]. repeat constructor; unfold scalar; lia.
  - destruct IH as (R & fl & S & F). split; [exact R|].
    assert (S' : SubSession e2 sub mid (ended && (n =? length fed)) m em).
    { destruct fl.
      - destruct (F eq_refl) as [-> ->]. rewrite Nat.eqb_refl. exact S.
      - destruct (ended && (n =? length fed)); [apply ss_finish|]; exact S. }
    exists (ended && (n =? length fed)). split; [eapply ss_ok; eassumption|].
    intros X. apply andb_true_iff in X. destruct X as [-> X]. apply Nat.eqb_eq in X. auto.
  - destruct IH as (R & fl & S & F). split; [exact R|].
    assert (S' : SubSession e2 sub mid (ended && (n =? length fed)) m em).
    { destruct fl.
      - destruct (F eq_refl) as [-> ->]. rewrite Nat.eqb_refl. exact S.
      - destruct (ended && (n =? length fed)); [apply ss_finish|]; exact S. }
    exists (ended && (n =? length fed)). split; [eapply ss_err; eassumption|].
    intros X. apply andb_true_iff in X. destruct X as [-> X]. apply Nat.eqb_eq in X. auto.
Qed.

Lemma converting_done e1 e2 sub fed mid em : Converting e1 e2 sub fed true (length fed) mid (length mid) em ->
  RecSession e1 fed true (length fed) mid /\ SubSession e2 sub mid true (length mid) em.
Proof.
  intros H. destruct (converting_inv _ _ _ _ _ _ _ _ _ H) as (R & fl & S & _). split; [exact R|]. destruct fl; [exact S|apply ss_finish, S].
Qed.

(* a recovering client that is given the data of a text meets no error *)
Lemma rec_session_no_error e fed ended n em : RecSession e fed ended n em ->
  forall more cs, (ended = true -> more = []) -> Decoded e (fed ++ more) cs -> DecSession e fed ended n em.
Proof.
  induction 1 as [|bs fed n em H IH Hb|fed n em H IH|fed ended n em out s k buf H IH Hc|fed ended n em out er buf H IH Hc]; intros more cs Hm HD.
  - constructor.
  - constructor; [|exact Hb]. rewrite <- app_assoc in HD. apply (IH (bs ++ more) cs); [discriminate|exact HD].
  - constructor. apply (IH more cs); [discriminate|exact HD].
  - eapply dec_call; [|exact Hc]. apply (IH more cs Hm HD).
  - exfalso. specialize (IH more cs Hm HD).
    assert (Hb : bytes more) by (pose proof (Decoded_text e _ _ HD) as [_ X]; apply bytes_app in X; apply X).
    set (out' := repeat 0%N (length em + de_written er + decode_room e + length (utf8 cs))).
    assert (L : length out' = length em + de_written er + decode_room e + length (utf8 cs)) by apply repeat_length.
    destruct (C23_streaming_decode_error e fed ended n em out er buf more out' IH Hc Hb Hm ltac:(lia)) as (b & buf' & E & _).
    pose proof (decode_enough e true (fed ++ more) cs out' HD ltac:(lia)) as E'. rewrite E in E'. discriminate E'.
Qed.

Lemma rec_session_valid e fed cs em : Decoded e fed cs -> RecSession e fed true (length fed) em -> em = utf8 cs.
Proof.
  intros HD R. assert (X : DecSession e fed true (length fed) em).
  { apply (rec_session_no_error e fed true _ em R [] cs); [auto|rewrite app_nil_r; exact HD]. }
  destruct (dec_session_done e fed em X) as (cs' & -> & HD'). f_equal. eapply Decoded_det; eassumption.
Qed.

(** * C61 *)

(* However the data arrives, in whatever order the calls are made, and whatever buffers are used: what comes out is
   the standard's reading of the data, represented in the other encoding *)
Theorem C61_conversion : forall e1 e2 sub fed mid em, e1 <> Utf8 ->
  Converting e1 e2 sub fed true (length fed) mid (length mid) em -> Substituted e2 sub (replacement_decode e1 fed) em.
Proof.
  intros e1 e2 sub fed mid em He H. destruct (converting_done _ _ _ _ _ _ H) as [R S].
  destruct (C57_substitution e2 sub mid em S) as (cs & Ht & E & HS).
  destruct (stream_reads_done e1 fed mid R) as (Hb & cs' & all & E' & Ht' & HR & _ & X). rewrite (X He) in HR.
  assert (cs = cs') by (apply utf8_inj; [assumption|assumption|congruence]). subst cs'.
  rewrite (reads_follows _ _ _ _ (replacement_follows e1 He) Hb HR). exact HS.
Qed.

(* UTF-8 as source: the same, up to the number of U+FFFD in a row *)
Theorem C61_conversion_from_utf8 : forall e2 sub fed mid em,
  Converting Utf8 e2 sub fed true (length fed) mid (length mid) em ->
  exists cs whole, Utf8Replaced fed whole /\ squeeze cs = squeeze whole /\ Substituted e2 sub cs em.
Proof.
  intros e2 sub fed mid em H. destruct (converting_done _ _ _ _ _ _ H) as [R S].
  destruct (C57_substitution e2 sub mid em S) as (cs & Ht & E & HS).
  destruct (C51_streaming_recovery_utf8 fed mid R) as (cs2 & whole & Ht2 & E2 & HU & HQ).
  assert (cs = cs2) by (apply utf8_inj; [assumption|assumption|congruence]). subst cs2. exists cs, whole. auto.
Qed.

(* valid data: the text is the one that the data means, whatever the source encoding *)
Theorem C61_conversion_of_valid_data : forall e1 e2 sub fed cs mid em, Decoded e1 fed cs ->
  Converting e1 e2 sub fed true (length fed) mid (length mid) em -> Substituted e2 sub cs em.
Proof.
  intros e1 e2 sub fed cs mid em HD H. destruct (converting_done _ _ _ _ _ _ H) as [R S].
  destruct (C57_substitution e2 sub mid em S) as (cs' & Ht & E & HS).
  assert (X : mid = utf8 cs) by exact (rec_session_valid e1 fed cs mid HD R).
  assert (cs' = cs) by (apply utf8_inj; [assumption|apply (Decoded_text e1 fed cs HD)|congruence]). subst cs'. exact HS.
Qed.

(* and if the target encoding can represent all of it, this is its representation there *)
Theorem C61_conversion_without_loss : forall e1 e2 sub fed cs bs mid em, Decoded e1 fed cs -> Encoded e2 cs bs ->
  Converting e1 e2 sub fed true (length fed) mid (length mid) em -> em = bs.
Proof.
  intros e1 e2 sub fed cs bs mid em HD HE H. pose proof (C61_conversion_of_valid_data _ _ _ _ _ _ _ HD H) as HS.
  destruct (C57_substitution_unique e2 sub cs) as (x & _ & U); [apply (Decoded_text e1 fed cs HD)|].
  rewrite <- (U em HS). apply U, C57_nothing_to_substitute, HE.
Qed.

(* the client is never stuck: as long as something is left to do, a call with a buffer of 4 bytes or more makes progress *)
Theorem C61_progress : forall e1 e2 sub fed n mid m em out, Converting e1 e2 sub fed true n mid m em -> 4 <= length out ->
  (n < length fed ->
     (exists s k buf, decode_to_str e1 (skipn n fed) out true = Ret (Ok (s, k), buf) /\ 1 <= k) \/
     (exists er buf, decode_to_str e1 (skipn n fed) out true = Ret (Err er, buf) /\ 1 <= snd (de_range er))) /\
  (n = length fed -> m < length mid ->
     (exists s k buf, encode_from_str e2 (skipn m mid) out true = Ret (Ok (s, k), buf) /\ 1 <= k) \/
     (exists er buf, encode_from_str e2 (skipn m mid) out true = Ret (Err er, buf) /\ 1 <= snd (ee_range er))).
Proof.
  intros e1 e2 sub fed n mid m em out H Hl. destruct (converting_inv _ _ _ _ _ _ _ _ _ H) as (R & fl & S & _).
  destruct (rec_session_facts _ _ _ _ _ R) as [Hb _]. split.
  - intros Hn. destruct (decode_total e1 true (skipn n fed) out (bytes_skipn _ _ Hb)) as ([[s k]|er] & buf & E).
    + left. exists s, k, buf. split; [exact E|].
      destruct (decode_progress _ _ _ _ _ _ _ (bytes_skipn n _ Hb) ltac:(intros X; apply (f_equal (@length N)) in X; rewrite skipn_length in X; cbn in X; lia) Hl E)
        as [X|(X & _)]; [exact X|discriminate X].
    + right. exists er, buf. split; [exact E|]. pose proof (decode_err_exact _ _ _ _ _ _ (bytes_skipn n _ Hb) E) as X.
      destruct (de_range er) as [a b]. cbn. lia.
  - intros _ Hm. destruct (sub_session_inv _ _ _ _ _ _ S) as (pre & rest & Ht & -> & -> & _). rewrite utf8_app, skipn_len_app.
    apply text_app in Ht. destruct Ht as [_ Ht].
    assert (Hne : rest <> []) by (intros ->; rewrite app_nil_r in Hm; lia).
    destruct (encode_total e2 true rest out Ht) as ([[s k]|er] & buf & E).
    + left. exists s, k, buf. split; [exact E|].
      destruct (encode_progress _ _ _ _ _ _ _ Ht Hne Hl E) as [X|(X & _)]; [exact X|discriminate X].
    + right. exists er, buf. split; [exact E|]. destruct (encode_boundaries _ _ _ _ _ _ Ht E) as (p & c & post & _ & _ & ->). cbn [snd].
      rewrite utf8_app, utf8_single, app_length. pose proof (utf8_char_pos c). lia.
Qed.

(* Shift JIS [82 A0 FF] [41] to Big5, the encoder being called before the data is complete *)
Example C61_example : Converting ShiftJISWHATWG Big5WHATWG (fun _ => [0x3F]%N) [0x82; 0xA0; 0xFF; 0x41]%N true 4 (utf8 [0x3042; 0xFFFD; 0x41]%N) 7 [0xC6; 0xE8; 0x3F; 0x41]%N.
Proof.
  change [0xC6; 0xE8; 0x3F; 0x41]%N with (([] ++ firstn 2 [0xC6; 0xE8; 0; 0] ++ [0x3F]) ++ [0x41])%N.
  apply (cv_encode ShiftJISWHATWG Big5WHATWG (fun _ => [0x3F]%N) _ true 4 _ 6 _ [0;0;0;0]%N [0x41]%N 1 [0x41;0;0;0]%N); [|vm_compute; reflexivity].
  change (utf8 [0x3042; 0xFFFD; 0x41])%N with (([] ++ utf8 [0x3042] ++ utf8_char 0xFFFD) ++ [0x41])%N.
  apply (cv_decode ShiftJISWHATWG Big5WHATWG (fun _ => [0x3F]%N) _ true 3 _ 6 _ [0;0;0;0]%N [0x41]%N 1 [0x41;0;0;0]%N); [|vm_compute; reflexivity].
  apply cv_finish. change [0x82; 0xA0; 0xFF; 0x41]%N with (([] ++ [0x82; 0xA0; 0xFF]) ++ [0x41])%N. apply cv_feed; [|repeat constructor].
  apply (cv_encode_error ShiftJISWHATWG Big5WHATWG (fun _ => [0x3F]%N) _ false 3 _ 0 [] [0;0;0;0]%N (EncodeError 0xFFFD (3, 6) 2) [0xC6;0xE8;0;0]%N); [|vm_compute; reflexivity].
  apply (cv_decode_error ShiftJISWHATWG Big5WHATWG (fun _ => [0x3F]%N) _ false 0 [] 0 [] [0;0;0;0]%N (DecodeError InvalidData (2, 3) 3) (utf8 [0x3042] ++ [0])%N); [|vm_compute; reflexivity].
  apply cv_feed; [constructor|repeat constructor].
Qed.

Definition convert_theorems := (C61_conversion, C61_conversion_from_utf8, C61_conversion_of_valid_data, C61_conversion_without_loss, C61_progress).
Print Assumptions convert_theorems.
