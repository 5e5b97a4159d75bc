(* Encoding with substitution of characters that have no representation. *)
From Coq Require Import List NArith Arith Bool Lia.
From Verif Require Import Encodings Spec SpecErrors SpecWhatwg SpecSubst RefBig5 RefSjis Prelude RustCore Types ModelApi.
From Verif Require Import Tac Engine Search Tables Units Decide Greedy ProofUtf8 ProofApi ProofSession ProofRound ProofWhatwg ProofSubst.
Import ListNotations.
Local Open Scope nat_scope.

(** * C57: substituting characters that have no representation *)

(* However the text arrives and whatever buffers are used *)
Theorem C57_substitution : forall e sub fed em, SubSession e sub fed true (length fed) em ->
  exists cs, text cs /\ fed = utf8 cs /\ Substituted e sub cs em.
Proof. intros e sub fed em H. exact (sub_session_done sub e fed em H). Qed.

(* and this determines what is emitted *)
Theorem C57_substitution_unique : forall e sub cs, text cs -> exists! bs, Substituted e sub cs bs.
Proof. intros e sub cs Ht. exact (Substituted_unique sub e cs Ht). Qed.

(* with buffers of 4 bytes or more the client gets to the end, one call per input byte being enough *)
Theorem C57_substitution_loop : forall e sub cs outs bs, text cs -> Substituted e sub cs bs ->
  Forall (fun out => 4 <= length out) outs -> length (utf8 cs) <= length outs ->
  substitute_loop e sub (utf8 cs) outs = (bs, []).
Proof.
  intros e sub cs outs bs Ht Hb Ho Hl. destruct (substitute_loop_done sub e outs cs Ht Ho Hl) as (em & E & Hs).
  apply (Substituted_ssteps sub e cs bs Ht) in Hb. rewrite (ssteps_done sub _ _ _ _ _ _ Hb Hs). exact E.
Qed.

(* nothing to substitute: the usual result *)
Theorem C57_nothing_to_substitute : forall e sub cs bs, Encoded e cs bs -> Substituted e sub cs bs.
Proof. intros e sub cs bs H. induction H; [constructor|apply Substituted_unit; assumption]. Qed.

(* If what is put in place of c is the representation of some text [r c] (perhaps empty), the result is the representation
   of the rewritten text *)
Theorem C57_substitutes_are_text : forall e r sub fed em, (forall c, Encoded e (r c) (sub c)) ->
  SubSession e sub fed true (length fed) em ->
  exists cs cs', text cs /\ fed = utf8 cs /\ Rewritten e r cs cs' /\ (forall cs2, Rewritten e r cs cs2 -> cs2 = cs') /\ Encoded e cs' em.
Proof.
  intros e r sub fed em Hr H. destruct (C57_substitution e sub fed em H) as (cs & Ht & -> & HS).
  destruct (Substituted_text e r sub cs em Hr Ht HS) as (cs' & HR & HE). exists cs, cs'.
  split; [exact Ht|]. split; [reflexivity|]. split; [exact HR|]. split; [|exact HE].
  destruct (Rewritten_unique e r cs Ht) as (x & _ & U). intros cs2 H2. rewrite <- (U cs' HR), <- (U cs2 H2). reflexivity.
Qed.

(* and decoding it gives the rewritten text back, except in Shift JIS (see C20, C45) *)
Theorem C57_substituted_decodes : forall e r sub fed em out, e <> ShiftJISWHATWG -> (forall c, Encoded e (r c) (sub c)) ->
  SubSession e sub fed true (length fed) em -> 3 * length em <= length out ->
  exists cs cs' buf, fed = utf8 cs /\ Rewritten e r cs cs' /\ decode_to_str e em out true = Ret (Ok (utf8 cs', length em), buf).
Proof.
  intros e r sub fed em out He Hr H Hl. destruct (C57_substitutes_are_text e r sub fed em Hr H) as (cs & cs' & _ & E & HR & _ & HE).
  exists cs, cs'. eexists. split; [exact E|]. split; [exact HR|]. pose proof (Encoded_Decoded e cs' em He HE) as HD.
  apply decode_enough; [exact HD|]. pose proof (Decoded_size e em cs' HD). lia.
Qed.

(* "?" for what ISO 8859-5 lacks *)
Example C57_example : substitute_loop (Single iso_8859_5) (fun _ => [0x3F]%N) (utf8 [0x416; 0x20AC; 0x41; 0x1F600; 0x44F]%N) (repeat (repeat 0%N 4) 20)
  = ([0xB6; 0x3F; 0x41; 0x3F; 0xEF]%N, []).
Proof. vm_compute. reflexivity. Qed.
Example C57_example_text : forall c : N, Encoded ShiftJISWHATWG [0x3013]%N [0x81; 0xAC]%N.
Proof.
  intros _. pose proof (esteps_Encoded_pre ShiftJISWHATWG [0x3013]%N) as X. apply (X [0x3013]%N [0x81; 0xAC]%N []); [repeat constructor; unfold scalar; lia|].
  apply (esteps_unit _ [0x3013]%N 1 [0x81; 0xAC]%N [] []); [vm_compute; reflexivity|constructor].
Qed.
(* the text arrives in two pieces; leaving out U+1F600 does not put the combining mark behind U+00CA, it is left out as well *)
Example C57_example_session : SubSession Big5WHATWG (fun _ => []) (utf8 [0xCA; 0x1F600; 0x304]%N) true 8 [0x88; 0x66]%N.
Proof.
  change [0x88; 0x66]%N with ((([] ++ firstn 2 [0x88; 0x66; 0; 0] ++ []) ++ firstn 0 [0; 0; 0; 0] ++ [])%N).
  apply (ss_err Big5WHATWG (fun _ => []) _ true 6 _ [0;0;0;0]%N (EncodeError 0x304 (0, 2) 0) [0;0;0;0]%N); [|vm_compute; reflexivity].
  apply ss_finish. change (utf8 [0xCA; 0x1F600; 0x304]%N) with (([] ++ utf8 [0xCA; 0x1F600]) ++ utf8 [0x304])%N.
  apply ss_feed; [|repeat constructor; unfold scalar; lia].
  apply (ss_err Big5WHATWG (fun _ => []) _ false 0 _ [0;0;0;0]%N (EncodeError 0x1F600 (2, 6) 2) [0x88;0x66;0;0]%N); [|vm_compute; reflexivity].
  apply ss_feed; [constructor|repeat constructor; unfold scalar; lia].
Qed.

(** * C58: substitution compared with the Encoding Standard's encoders *)

(* Shift JIS, for text without private use characters U+E000..U+E757, which the standard's encoder rejects *)
Theorem C58_shift_jis_substitution : forall sub cs em,
  SubSession ShiftJISWHATWG sub (utf8 cs) true (length (utf8 cs)) em -> text cs ->
  Forall (fun c => ~ (0xE000 <= c <= 0xE757)%N) cs ->
  exists ws, Forall2 (fun c w => whatwg_sjis_encode c w \/ ((forall w', ~ whatwg_sjis_encode c w') /\ w = sub c)) cs ws /\ em = concat ws.
Proof.
  intros sub cs em H Ht Hno. destruct (C57_substitution _ _ _ _ H) as (cs' & Ht' & E & HS). apply utf8_inj in E; [|assumption|assumption]. subst cs'.
  rewrite Forall_forall in Hno. eapply Substituted_chars; [| |exact HS].
  - intros u w Hu Hin. apply sjis_EncUnit_whatwg in Hu. destruct Hu as (c & -> & [Hc|(Hc & _)]); [eauto|].
    inversion Hin as [|? ? X]; subst. exfalso. exact (Hno c X Hc).
  - intros c w Hin Hc. apply sjis_EncUnit_whatwg. eauto.
Qed.

(* Big5, for text whose characters have no pointer below 5024 (those the standard's encoder ignores) *)
Theorem C58_big5_substitution : forall sub cs em,
  SubSession Big5WHATWG sub (utf8 cs) true (length (utf8 cs)) em -> text cs ->
  Forall (fun c => forall p, In (p, c) big5_index -> (5024 <= p)%N) cs ->
  exists ws, Forall2 (fun c w => whatwg_big5_encode c w \/ ((forall w', ~ whatwg_big5_encode c w') /\ w = sub c)) cs ws /\ em = concat ws.
Proof.
  intros sub cs em H Ht Hno. destruct (C57_substitution _ _ _ _ H) as (cs' & Ht' & E & HS). apply utf8_inj in E; [|assumption|assumption]. subst cs'.
  rewrite Forall_forall in Hno.
  assert (Hsame : forall c p, In c cs -> big5_pointer c p <-> whatwg_big5_pointer c p).
  { intros c p Hc. unfold big5_pointer, whatwg_big5_pointer. specialize (Hno c Hc). change ((0xA1 - 0x81) * 157)%N with 5024%N. split.
    - intros [H1 H2]. split; [exact H1|]. split; [apply Hno, H1|]. intros q Hq _. apply H2, Hq.
    - intros (H1 & _ & H2). split; [exact H1|]. intros q Hq. apply H2; [exact Hq|apply Hno, Hq]. }
  eapply Substituted_chars; [| |exact HS].
  - intros u w Hu Hin. cbn [EncUnit] in Hu. destruct Hu as [(c & Hc & -> & ->)|[(c & p & Hp & -> & ->)|(p & Hp & _)]].
    + exists c. split; [reflexivity|]. left. split; [lia|reflexivity].
    + exists c. split; [reflexivity|]. inversion Hin as [|? ? X]; subst. right. destruct (big5_chosen c p Hp) as (_ & _ & _ & _ & Hge).
      split; [lia|]. exists p. split; [apply Hsame; assumption|reflexivity].
    + exfalso. destruct u as [|c u].
      * unfold big5_sequences in Hp. cbn [In] in Hp. destruct Hp as [X|[X|[X|[X|[]]]]]; discriminate X.
      * inversion Hin as [|? ? X]; subst. specialize (Hno c X).
        assert (Hlow : c = 0xCA%N \/ c = 0xEA%N).
        { unfold big5_sequences in Hp. cbn [In] in Hp. destruct Hp as [Y|[Y|[Y|[Y|[]]]]]; apply (f_equal snd) in Y; cbn [snd] in Y;
            apply cons_inj in Y; destruct Y as [<- _]; auto. }
        assert (L : exists p, In (p, c) big5_index /\ (p < 5024)%N).
        { destruct big5_facts as (_ & _ & F & _). destruct Hlow as [->| ->].
          - exists 1137%N. split; [apply F; vm_compute; reflexivity|lia].
          - exists 1168%N. split; [apply F; vm_compute; reflexivity|lia]. }
        destruct L as (q & Hq & Hq5). specialize (Hno q Hq). lia.
  - intros c w Hin [(Hc & ->)|(Hc & p & Hp & ->)]; cbn [EncUnit].
    + left. exists c. split; [lia|auto].
    + right. left. exists c, p. split; [apply Hsame; assumption|auto].
Qed.

Theorem C58_single_byte_substitution : forall m sub cs em,
  SubSession (Single m) sub (utf8 cs) true (length (utf8 cs)) em -> text cs ->
  exists ws, Forall2 (fun c w => (exists b, In (b, c) (charset m) /\ w = [b]) \/ ((forall b, ~ In (b, c) (charset m)) /\ w = sub c)) cs ws /\ em = concat ws.
Proof.
  intros m sub cs em H Ht. destruct (C57_substitution _ _ _ _ H) as (cs' & Ht' & E & HS). apply utf8_inj in E; [|assumption|assumption]. subst cs'.
  destruct (Substituted_chars (Single m) sub (fun c w => exists b, In (b, c) (charset m) /\ w = [b]) cs em) as (ws & HF & E); [| |exact HS|].
  - intros u w (b & c & Hb & -> & ->) _. exists c. eauto.
  - intros c w _ (b & Hb & ->). exists b, c. auto.
  - exists ws. split; [|exact E]. clear -HF. induction HF as [|c w cs ws [X|(X & ->)] HF IH]; constructor; [left; exact X|exact IH| |exact IH].
    right. split; [|reflexivity]. intros b Hb. apply (X [b]). eauto.
Qed.

(* numeric character references, as in the standard's error mode "html" *)
Example C58_example : substitute_loop ShiftJISWHATWG (fun _ => [0x26; 0x23; 0x38; 0x33; 0x36; 0x34; 0x3B]%N) (utf8 [0x3042; 0x20AC]%N) (repeat (repeat 0%N 4) 6)
  = ([0x82; 0xA0; 0x26; 0x23; 0x38; 0x33; 0x36; 0x34; 0x3B]%N, []) /\ (forall w, ~ whatwg_sjis_encode 0x20AC w).
Proof.
  split; [vm_compute; reflexivity|]. intros w H.
  assert (Hu : EncUnit ShiftJISWHATWG [0x20AC%N] w) by (apply sjis_EncUnit_whatwg; eauto).
  refine (enc_next_bad ShiftJISWHATWG true [0x20AC]%N 0x20AC _ _ _ _ Hu _); [repeat constructor; unfold scalar; lia|vm_compute; reflexivity|].
  exists []. reflexivity.
Qed.

Definition subst_theorems := (C57_substitution, C57_substitution_unique, C57_substitution_loop, C57_nothing_to_substitute,
  C57_substitutes_are_text, C57_substituted_decodes, C58_shift_jis_substitution, C58_big5_substitution, C58_single_byte_substitution).
Print Assumptions subst_theorems.
