(* Error replacement in UTF-8, and while data is still arriving. *)
From Coq Require Import List NArith Arith Bool Lia ZArith.
From Verif Require Import Tac Encodings Spec SpecErrors SpecWhatwg SpecRecover Prelude RustCore Types ProofUtf8 Engine Search NextEnc NextDec NextUtf8
  Tables Units Decide Greedy ModelApi ProofApi Session ProofSession ProofMore ProofRound ProofWhatwg.
Import ListNotations.
Local Open Scope N_scope.

(** ** Reading with replacement, by decisions *)

Inductive Reads (next : list N -> dact) : list N -> list N -> Prop :=
| rd_end bs : next bs = DEnd -> Reads next bs []
| rd_unit bs k u cs : next bs = DUnit k u -> Reads next (skipn k bs) cs -> Reads next bs (u ++ cs)
| rd_bad bs n cs : next bs = DBad n -> Reads next (skipn n bs) cs -> Reads next bs (replacement :: cs).

Lemma Reads_det next bs c1 c2 : Reads next bs c1 -> Reads next bs c2 -> c1 = c2.
Proof.
  intros H. revert c2. induction H as [bs E|bs k u cs E H IH|bs n cs E H IH]; intros c2 H2;
    inversion H2 as [? E'|? k' u' cs' E' H'|? n' cs' E' H']; subst; rewrite E in E'; try discriminate E'.
  - reflexivity.
  - injection E' as <- <-. f_equal. apply IH, H'.
  - injection E' as <-. f_equal. apply IH, H'.
Qed.

Lemma Reads_steps next bs pre cs rest cs' : dsteps next bs pre cs rest -> Reads next rest cs' -> Reads next bs (cs ++ cs').
Proof.
  intros H. induction H as [|bs k u pre cs rest Hn Hs IH]; intros HR; [exact HR|].
  rewrite <- app_assoc. eapply rd_unit; [exact Hn|]. apply IH, HR.
Qed.

Lemma Reads_after next bs pre cs rest all : dsteps next bs pre cs rest -> Reads next bs all ->
  exists cs', all = cs ++ cs' /\ Reads next rest cs'.
Proof.
  intros H. revert all. induction H as [|bs k u pre cs rest Hn Hs IH]; intros all HR; [exists all; auto|].
  inversion HR as [? E'|? k' u' cs' E' H'|? n' cs' E' H']; subst; rewrite Hn in E'; try discriminate E'.
  injection E' as <- <-. destruct (IH _ H') as (tl & -> & Ht). exists tl. rewrite app_assoc. auto.
Qed.

Lemma dec_bad_pos e bs n is_end : bytes bs -> dec_next e is_end bs = DBad n -> (1 <= n <= length bs)%nat.
Proof. intros Hb H. pose proof (dec_next_facts e is_end bs Hb) as F. rewrite H in F. apply F. Qed.

Lemma dec_no_hold e bs : bytes bs -> dec_next e true bs <> DHold.
Proof. intros Hb H. pose proof (dec_next_facts e true bs Hb) as F. rewrite H in F. destruct F; discriminate. Qed.

Lemma Reads_total e bs : bytes bs -> exists cs, Reads (dec_next e true) bs cs.
Proof.
  remember (length bs) as n eqn:E. revert bs E. induction n as [n IH] using lt_wf_ind. intros bs -> Hb.
  destruct (dec_next e true bs) as [| |m|k u] eqn:En.
  - exists []. apply rd_end, En.
  - exfalso. exact (dec_no_hold _ _ Hb En).
  - pose proof (dec_bad_pos _ _ _ _ Hb En). destruct (IH (length (skipn m bs))) with (bs := skipn m bs) as (cs & H1); auto.
    { rewrite skipn_length. lia. } { apply bytes_skipn, Hb. }
    exists (replacement :: cs). eapply rd_bad; eassumption.
  - destruct (dec_next_unit e bs k u true Hb En) as (Hk & _). destruct (IH (length (skipn k bs))) with (bs := skipn k bs) as (cs & H1); auto.
    { rewrite skipn_length. lia. } { apply bytes_skipn, Hb. }
    exists (u ++ cs). eapply rd_unit; eassumption.
Qed.

Lemma recovered_reads e bs s : Recovered e bs s -> bytes bs -> exists cs, s = utf8 cs /\ Reads (dec_next e true) bs cs.
Proof.
  intros H. induction H as [|bs out s n buf s' Hc HR IH|bs out er buf s' Hc HR IH]; intros Hb.
  - exists []. split; [reflexivity|]. apply rd_end, dec_next_nil.
  - destruct (decode_cases _ _ _ _ _ _ Hb Hc) as (pre & cs & rest & E0 & Hs & _ & _ & [(E & _)|(m & _ & _ & E)]); [|discriminate E].
    injection E as -> ->. assert (Hr : bytes rest) by (eapply dsteps_rest_bytes; eassumption).
    rewrite E0, skipn_len_app in IH. destruct (IH Hr) as (cs' & -> & HR').
    exists (cs ++ cs'). rewrite utf8_app. split; [reflexivity|]. eapply Reads_steps; eassumption.
  - destruct (decode_cases _ _ _ _ _ _ Hb Hc) as (pre & cs & rest & E0 & Hs & _ & -> & [(E & _)|(m & Hbad & _ & E)]); [discriminate E|].
    injection E as ->. cbn [de_range de_written snd] in *. rewrite frame_prefix.
    assert (Hr : bytes rest) by (eapply dsteps_rest_bytes; eassumption).
    assert (Es : skipn (length pre + m) bs = skipn m rest).
    { rewrite E0, <- skipn_skipn, skipn_len_app. reflexivity. }
    rewrite Es in IH. destruct (IH (bytes_skipn _ _ Hr)) as (cs' & -> & HR').
    exists (cs ++ replacement :: cs'). rewrite utf8_app, utf8_cons. split; [reflexivity|].
    eapply Reads_steps; [exact Hs|]. eapply rd_bad; eassumption.
Qed.

(** ** UTF-8 *)

Lemma undecodable8 bs : bytes bs -> Undecodable Utf8 bs <-> utf8_valid_up_to bs = 0%nat.
Proof.
  intros Hb. split.
  - intros H. destruct (valid_up_to_step bs Hb) as [(c & r & Hc & E)|E]; [|exact E].
    exfalso. apply (H (utf8_char c) [c]); [exists c; auto|]. exists r. exact E.
  - intros H w u (c & Hc & -> & ->) (r & ->). rewrite valid_up_to_char in H by exact Hc.
    pose proof (utf8_char_pos c). lia.
Qed.

Lemma incomplete8 b r : Incomplete Utf8 (b :: r) <-> looks_truncated b (length (b :: r)) = true.
Proof.
  rewrite looks_truncated_spec by (cbn; lia). cbn [Incomplete]. split.
  - intros (x & y & E & H). apply cons_inj in E. destruct E as [-> ->]. exact H.
  - intros H. exists b, r. auto.
Qed.

Lemma run_len_split r : Forall not_a_start (firstn (run_len r) r) /\ (forall x rest, skipn (run_len r) r = x :: rest -> ~ not_a_start x).
Proof.
  induction r as [|b r [IH1 IH2]]; cbn [run_len]; [split; [constructor|discriminate]|].
  destruct (extends_error b) eqn:E; cbn [firstn skipn].
  - split; [constructor; [apply extends_spec, E|exact IH1]|exact IH2].
  - split; [constructor|]. intros x rest H. apply cons_inj in H. destruct H as [<- _]. rewrite <- extends_spec, E. discriminate.
Qed.

Lemma run_len_app run bs : Forall not_a_start run -> (forall x rest, bs = x :: rest -> ~ not_a_start x) -> run_len (run ++ bs) = length run.
Proof.
  intros H Hs. induction H as [|b run Hb Hr IH]; cbn [app run_len length].
  - destruct bs as [|x bs]; [reflexivity|]. cbn [run_len]. specialize (Hs x bs eq_refl). rewrite <- extends_spec in Hs.
    destruct (extends_error x); [congruence|reflexivity].
  - apply extends_spec in Hb. rewrite Hb, IH. reflexivity.
Qed.

Lemma reads_replaced bs cs : bytes bs -> Reads (utf8_dec_next true) bs cs -> Utf8Replaced bs cs.
Proof.
  intros Hb H. induction H as [bs E|bs k u cs E H IH|bs n cs E H IH].
  - destruct bs as [|b r]; [constructor|]. cbn [utf8_dec_next] in E. destruct (_ =? 0)%nat; [destruct (looks_truncated _ _)|]; discriminate E.
  - destruct (dec_next_unit Utf8 bs k u true Hb E) as (Hk & c & Hc & Ef & ->).
    rewrite <- (firstn_skipn k bs), Ef. apply (ur_char c); [exact Hc|]. apply IH, bytes_skipn, Hb.
  - destruct bs as [|b r]; [discriminate E|].
    assert (Hu : Undecodable Utf8 (b :: r)).
    { apply (dec_bad_undecodable Utf8 true). intros k u. cbn [dec_next]. rewrite E. discriminate. }
    pose proof (incomplete8 b r) as Hi. cbn [utf8_dec_next] in E. destruct (_ =? 0)%nat; [|discriminate E].
    destruct (looks_truncated b (length (b :: r))) eqn:El.
    + injection E as <-. cbn [skipn] in *. rewrite skipn_all in *. inversion H; subst; try discriminate.
      apply ur_cut; [exact Hu|]. apply Hi. reflexivity.
    + injection E as <-. cbn [skipn] in *. destruct (run_len_split r) as [R1 R2].
      rewrite <- (firstn_skipn (run_len r) r) in Hu, Hi |- *.
      apply ur_bad; [exact Hu| |exact R1|exact R2|].
      * rewrite Hi. discriminate.
      * apply IH. apply bytes_skipn. inversion Hb; assumption.
Qed.

Lemma replaced_reads bs cs : bytes bs -> Utf8Replaced bs cs -> Reads (utf8_dec_next true) bs cs.
Proof.
  intros Hb H. induction H as [|c bs cs Hc H IH|bs Hu Hi|b run bs cs Hu Hi Hr Hs H IH].
  - apply rd_end. reflexivity.
  - change (c :: cs) with ([c] ++ cs). eapply rd_unit; [apply utf8_dec_next_char, Hc|].
    rewrite skipn_app, Nat.sub_diag, skipn_all. apply IH. apply bytes_app in Hb. apply Hb.
  - pose proof Hi as (b & r & -> & _). apply (rd_bad _ _ (length (b :: r))).
    + cbn [utf8_dec_next]. rewrite (proj1 (undecodable8 _ Hb) Hu). apply incomplete8 in Hi. rewrite Hi. reflexivity.
    + rewrite skipn_all. apply rd_end. reflexivity.
  - apply (rd_bad _ _ (1 + length run)).
    + cbn [utf8_dec_next]. rewrite (proj1 (undecodable8 _ Hb) Hu). rewrite incomplete8 in Hi.
      destruct (looks_truncated _ _); [congruence|]. rewrite run_len_app by assumption. reflexivity.
    + cbn [Nat.add skipn]. rewrite skipn_app, Nat.sub_diag, skipn_all. cbn [skipn app]. apply IH.
      inversion Hb as [|? ? _ Hb']; subst. apply bytes_app in Hb'. apply Hb'.
Qed.

(** ** Runs of U+FFFD *)

Lemma squeeze_true cs : squeeze_after true cs =
  match squeeze_after false cs with c :: r => if c =? replacement then r else c :: r | [] => [] end.
Proof.
  destruct cs as [|c cs]; [reflexivity|]. cbn [squeeze_after]. destruct (N.eqb_spec c replacement) as [E|E]; cbn [app].
  - rewrite (proj2 (N.eqb_eq c replacement) E). reflexivity.
  - rewrite (proj2 (N.eqb_neq c replacement) E). reflexivity.
Qed.

Lemma squeeze_tail a x y : squeeze x = squeeze y -> forall b, squeeze_after b (a ++ x) = squeeze_after b (a ++ y).
Proof.
  intros E. induction a as [|c a IH]; intros b.
  - cbn [app]. destruct b; [|exact E]. rewrite !squeeze_true. unfold squeeze in E. rewrite E. reflexivity.
  - cbn [app squeeze_after]. destruct (c =? replacement); rewrite IH; reflexivity.
Qed.

Lemma squeeze_app a x y : squeeze x = squeeze y -> squeeze (a ++ x) = squeeze (a ++ y).
Proof. intros E. exact (squeeze_tail a x y E false). Qed.

Lemma squeeze_cons c x y : squeeze x = squeeze y -> squeeze (c :: x) = squeeze (c :: y).
Proof. apply (squeeze_app [c]). Qed.

Lemma squeeze_dup x : squeeze (replacement :: replacement :: x) = squeeze (replacement :: x).
Proof. reflexivity. Qed.

Lemma squeeze_repeat n x : squeeze (repeat replacement (S n) ++ x) = squeeze (replacement :: x).
Proof.
  induction n as [|n IH]; [reflexivity|]. cbn [repeat app] in *. rewrite squeeze_dup. exact IH.
Qed.

(** ** The standard's UTF-8 decoder *)

Definition W := whatwg_utf8.

Lemma W_run run : Forall not_a_start run -> forall bs, W (run ++ bs) = repeat replacement (length run) ++ W bs.
Proof.
  intros H bs. induction H as [|b run Hb Hr IH]; [reflexivity|]. unfold not_a_start in Hb.
  cbn [app length repeat]. rewrite <- IH. unfold W, whatwg_utf8. cbn [utf8_decoder]. unfold within.
  bfalse (b <=? 0x7F). bfalse ((0xC2 <=? b) && (b <=? 0xDF)). bfalse ((0xE0 <=? b) && (b <=? 0xEF)).
  bfalse ((0xF0 <=? b) && (b <=? 0xF4)). reflexivity.
Qed.

(* a byte that is no continuation resets the decoder *)
Lemma W_reset more p lo up x bs : 0x80 <= lo -> up <= 0xBF -> ~ not_a_start x ->
  utf8_decoder (S more) p lo up (x :: bs) = replacement :: W (x :: bs).
Proof.
  intros Hl Hu Hx. unfold not_a_start in Hx. assert (E : within lo x up = false) by (unfold within; lia).
  cbn [utf8_decoder]. rewrite E. reflexivity.
Qed.

(* inside a code sequence: either the bytes that follow complete it, or it is given up *)
Lemma W_inside run : Forall not_a_start run -> forall bs, (forall x rest, bs = x :: rest -> ~ not_a_start x) ->
  forall more p lo up, 0x80 <= lo -> up <= 0xBF ->
  (exists j, utf8_decoder (S more) p lo up (run ++ bs) = repeat replacement (S j) ++ W bs) \/
  (exists y ys r, run = y :: ys ++ r /\ length ys = more /\ lo <= y <= up /\ Forall (fun z => 0x80 <= z <= 0xBF) ys).
Proof.
  intros H bs Hs. induction H as [|b run Hb Hr IH]; intros more p lo up Hl Hu.
  - left. exists 0%nat. destruct bs as [|x bs]; [reflexivity|]. cbn [app repeat]. apply W_reset; auto. apply (Hs x bs eq_refl).
  - cbn [app utf8_decoder]. destruct (within lo b up) eqn:Ew.
    + assert (Hbb : lo <= b <= up) by (unfold within in Ew; lia). destruct more as [|more].
      * right. exists b, [], run. repeat split; auto; lia.
      * destruct (IH more (p * 64 + b mod 64) 0x80 0xBF ltac:(lia) ltac:(lia)) as [(j & E)|(y & ys & r & -> & El & Hy & Hys)].
        -- left. exists j. exact E.
        -- right. exists b, (y :: ys), r. split; [reflexivity|]. split; [cbn; lia|]. split; [exact Hbb|]. constructor; assumption.
    + left. exists (length (b :: run)). change (repeat replacement (S (length (b :: run))) ++ W bs)
        with (replacement :: repeat replacement (length (b :: run)) ++ W bs). f_equal.
      rewrite <- (W_run (b :: run) ltac:(constructor; assumption) bs). reflexivity.
Qed.

Lemma W_bad b run bs : bytes (b :: run ++ bs) -> Undecodable Utf8 (b :: run ++ bs) -> Forall not_a_start run ->
  (forall x rest, bs = x :: rest -> ~ not_a_start x) -> exists j, W (b :: run ++ bs) = repeat replacement (S j) ++ W bs.
Proof.
  intros Hb Hu Hr Hs. apply (undecodable8 _ Hb) in Hu.
  unfold W, whatwg_utf8. cbn [utf8_decoder]. unfold within. fold whatwg_utf8.
  destruct (N.leb_spec b 0x7F).
  { exfalso. cbn [utf8_valid_up_to] in Hu. unfold utf8_char_width in Hu. replace (b <? 0x80) with true in Hu by lia. discriminate Hu. }
  destruct ((0xC2 <=? b) && (b <=? 0xDF)) eqn:E2.
  { destruct (W_inside run Hr bs Hs 0 (b mod 0x20) 0x80 0xBF ltac:(lia) ltac:(lia)) as [X|(y & ys & r & -> & El & Hy & Hys)]; [exact X|].
    exfalso. destruct ys; [|discriminate El]. cbn [utf8_valid_up_to app] in Hu. unfold utf8_char_width in Hu.
    replace (b <? 0x80) with false in Hu by lia. replace (b <? 0xC2) with false in Hu by lia. replace (b <? 0xE0) with true in Hu by lia.
    replace (is_cont y) with true in Hu by (unfold is_cont, between; lia). discriminate Hu. }
  destruct ((0xE0 <=? b) && (b <=? 0xEF)) eqn:E3.
  { destruct (W_inside run Hr bs Hs 1 (b mod 0x10) (if b =? 0xE0 then 0xA0 else 0x80) (if b =? 0xED then 0x9F else 0xBF)) as [X|(y & ys & r & -> & El & Hy & Hys)];
      [destruct (b =? 0xE0); lia|destruct (b =? 0xED); lia|exact X|].
    exfalso. destruct ys as [|z [|]]; try discriminate El. inversion Hys as [|? ? Hz _]; subst.
    cbn [utf8_valid_up_to app] in Hu. unfold utf8_char_width in Hu.
    replace (b <? 0x80) with false in Hu by lia. replace (b <? 0xC2) with false in Hu by lia. replace (b <? 0xE0) with false in Hu by lia.
    replace (b <? 0xF0) with true in Hu by lia. 
    match type of Hu with (if ?c then _ else _) = _ => assert (Ec : c = true) end.
    { unfold is_cont, between. destruct (N.eqb_spec b 0xE0), (N.eqb_spec b 0xED); lia. }
    rewrite Ec in Hu. discriminate Hu. }
  destruct ((0xF0 <=? b) && (b <=? 0xF4)) eqn:E4.
  { destruct (W_inside run Hr bs Hs 2 (b mod 0x8) (if b =? 0xF0 then 0x90 else 0x80) (if b =? 0xF4 then 0x8F else 0xBF)) as [X|(y & ys & r & -> & El & Hy & Hys)];
      [destruct (b =? 0xF0); lia|destruct (b =? 0xF4); lia|exact X|].
    exfalso. destruct ys as [|z [|w [|]]]; try discriminate El. inversion Hys as [|? ? Hz Hys']; subst. inversion Hys' as [|? ? Hw _]; subst.
    cbn [utf8_valid_up_to app] in Hu. unfold utf8_char_width in Hu.
    replace (b <? 0x80) with false in Hu by lia. replace (b <? 0xC2) with false in Hu by lia. replace (b <? 0xE0) with false in Hu by lia.
    replace (b <? 0xF0) with false in Hu by lia. replace (b <? 0xF5) with true in Hu by lia.
    match type of Hu with (if ?c then _ else _) = _ => assert (Ec : c = true) end.
    { unfold is_cont, between. destruct (N.eqb_spec b 0xF0), (N.eqb_spec b 0xF4); lia. }
    rewrite Ec in Hu. discriminate Hu. }
  exists (length run). cbn [repeat app]. f_equal. exact (W_run run Hr bs).
Qed.

Lemma W_char c bs : scalar c -> W (utf8_char c ++ bs) = c :: W bs.
Proof.
  intros Hc. unfold scalar in Hc. unfold utf8_char, W, whatwg_utf8.
  destruct (N.ltb_spec c 0x80).
  { cbn [app utf8_decoder]. btrue (c <=? 0x7F). reflexivity. }
  destruct (N.ltb_spec c 0x800).
  { cbn [app]. assert (exists a b, c = a * 64 + b /\ b < 64 /\ 2 <= a < 32) as (a & b & E & Hb & Ha).
    { exists (c / 64), (c mod 64). lia. }
    replace (c / 64) with a by lia. replace (c mod 64) with b by lia.
    cbn [utf8_decoder]. unfold within. bfalse (0xC0 + a <=? 0x7F). btrue ((0xC2 <=? 0xC0 + a) && (0xC0 + a <=? 0xDF)).
    btrue ((0x80 <=? 0x80 + b) && (0x80 + b <=? 0xBF)). f_equal. lia. }
  destruct (N.ltb_spec c 0x10000).
  { cbn [app]. assert (exists a b d, c = a * 4096 + b * 64 + d /\ b < 64 /\ d < 64 /\ a < 16) as (a & b & d & E & Hb & Hd & Ha).
    { exists (c / 4096), ((c / 64) mod 64), (c mod 64). lia. }
    replace (c / 4096) with a by lia. replace ((c / 64) mod 64) with b by lia. replace (c mod 64) with d by lia.
    cbn [utf8_decoder]. unfold within. bfalse (0xE0 + a <=? 0x7F). bfalse ((0xC2 <=? 0xE0 + a) && (0xE0 + a <=? 0xDF)).
    btrue ((0xE0 <=? 0xE0 + a) && (0xE0 + a <=? 0xEF)).
    assert (E1 : ((if 0xE0 + a =? 0xE0 then 0xA0 else 0x80) <=? 0x80 + b) && (0x80 + b <=? (if 0xE0 + a =? 0xED then 0x9F else 0xBF)) = true).
    { destruct (N.eqb_spec (0xE0 + a) 0xE0), (N.eqb_spec (0xE0 + a) 0xED); lia. }
    rewrite E1. btrue ((0x80 <=? 0x80 + d) && (0x80 + d <=? 0xBF)). f_equal. lia. }
  cbn [app]. assert (exists a b d f, c = a * 262144 + b * 4096 + d * 64 + f /\ b < 64 /\ d < 64 /\ f < 64 /\ a < 5) as (a & b & d & f & E & Hb & Hd & Hf & Ha).
  { exists (c / 262144), ((c / 4096) mod 64), ((c / 64) mod 64), (c mod 64). lia. }
  replace (c / 262144) with a by lia. replace ((c / 4096) mod 64) with b by lia. replace ((c / 64) mod 64) with d by lia. replace (c mod 64) with f by lia.
  cbn [utf8_decoder]. unfold within. bfalse (0xF0 + a <=? 0x7F). bfalse ((0xC2 <=? 0xF0 + a) && (0xF0 + a <=? 0xDF)).
  bfalse ((0xE0 <=? 0xF0 + a) && (0xF0 + a <=? 0xEF)). btrue ((0xF0 <=? 0xF0 + a) && (0xF0 + a <=? 0xF4)).
  assert (E1 : ((if 0xF0 + a =? 0xF0 then 0x90 else 0x80) <=? 0x80 + b) && (0x80 + b <=? (if 0xF0 + a =? 0xF4 then 0x8F else 0xBF)) = true).
  { destruct (N.eqb_spec (0xF0 + a) 0xF0), (N.eqb_spec (0xF0 + a) 0xF4); lia. }
  rewrite E1. btrue ((0x80 <=? 0x80 + d) && (0x80 + d <=? 0xBF)). btrue ((0x80 <=? 0x80 + f) && (0x80 + f <=? 0xBF)). f_equal. lia.
Qed.

Lemma undecodable_shorter a b : Undecodable Utf8 (a ++ b) -> Undecodable Utf8 a.
Proof. intros H w u Hu (s & ->). apply (H w u Hu). exists (s ++ b). rewrite app_assoc. reflexivity. Qed.

(* up to the number of U+FFFD per error, and up to a tail that looks cut off, the text is the standard's *)
Lemma replaced_whatwg bs cs : bytes bs -> Utf8Replaced bs cs ->
  exists pre t cs1, bs = pre ++ t /\ squeeze cs1 = squeeze (W pre) /\
    ((t = [] /\ cs = cs1) \/ (Undecodable Utf8 t /\ Incomplete Utf8 t /\ cs = cs1 ++ [replacement])).
Proof.
  intros Hb H. induction H as [|c bs cs Hc H IH|bs Hu Hi|b run bs cs Hu Hi Hr Hs H IH].
  - exists [], [], []. repeat split; auto.
  - apply bytes_app in Hb. destruct (IH (proj2 Hb)) as (pre & t & cs1 & -> & E & X).
    exists (utf8_char c ++ pre), t, (c :: cs1). rewrite <- app_assoc. split; [reflexivity|].
    rewrite W_char by exact Hc. split; [apply squeeze_cons, E|].
    destruct X as [(-> & ->)|(X1 & X2 & ->)]; [left; auto|right; auto].
  - exists [], bs, []. split; [reflexivity|]. split; [reflexivity|]. right. auto.
  - assert (Hb' : bytes bs) by (inversion Hb as [|? ? _ Hb']; subst; apply bytes_app in Hb'; apply Hb').
    destruct (IH Hb') as (pre & t & cs1 & -> & E & X).
    exists (b :: run ++ pre), t, (replacement :: cs1). split; [cbn [app]; rewrite <- app_assoc; reflexivity|].
    assert (Ea : b :: run ++ pre ++ t = (b :: run ++ pre) ++ t) by (cbn [app]; rewrite <- app_assoc; reflexivity).
    destruct (W_bad b run pre) as (j & Ej).
    + rewrite Ea in Hb. apply bytes_app in Hb. apply Hb.
    + rewrite Ea in Hu. exact (undecodable_shorter _ _ Hu).
    + exact Hr.
    + intros x rest ->. exact (Hs x (rest ++ t) eq_refl).
    + rewrite Ej, squeeze_repeat. split; [apply squeeze_cons, E|].
      destruct X as [(-> & ->)|(X1 & X2 & ->)]; [left; auto|right; auto].
Qed.

(** ** Replacing errors while data is still arriving *)

Lemma run_len_more r more : run_len (r ++ more) = if (run_len r =? length r)%nat then (length r + run_len more)%nat else run_len r.
Proof.
  induction r as [|b r IH]; [reflexivity|]. cbn [app run_len length]. destruct (extends_error b); [|reflexivity].
  rewrite IH. cbn [Nat.eqb]. destruct (run_len r =? length r)%nat; reflexivity.
Qed.

Lemma run_reads more all : bytes more -> (1 <= run_len more)%nat -> Reads (utf8_dec_next true) (skipn (run_len more) more) all ->
  Reads (utf8_dec_next true) more (replacement :: all).
Proof.
  intros Hb Hr H. destruct more as [|b r]; [cbn in Hr; lia|]. cbn [run_len] in *. destruct (extends_error b) eqn:E; [|lia].
  eapply (rd_bad _ _ (S (run_len r))); [|exact H]. cbn [utf8_dec_next].
  assert (Eu : utf8_valid_up_to (b :: r) = 0%nat).
  { cbn [utf8_valid_up_to]. unfold utf8_char_width, extends_error in *. bfalse (b <? 0x80).
    destruct (N.ltb_spec b 0xC2); [reflexivity|]. bfalse (b <? 0xE0). bfalse (b <? 0xF0). bfalse (b <? 0xF5). reflexivity. }
  rewrite Eu. assert (Et : looks_truncated b (length (b :: r)) = false) by (unfold looks_truncated, extends_error in *; lia).
  rewrite Et. reflexivity.
Qed.

(* an error found before the data is complete: with more data it may grow, but only by bytes that are an error by themselves *)
Lemma utf8_bad_more rest more m all : bytes rest -> bytes more -> utf8_dec_next false rest = DBad m ->
  Reads (utf8_dec_next true) (rest ++ more) all ->
  exists tl, Reads (utf8_dec_next true) (skipn m rest ++ more) tl /\ squeeze all = squeeze (replacement :: tl).
Proof.
  intros Hb Hm Hbad HR. destruct rest as [|b r]; [discriminate Hbad|].
  destruct (utf8_bad_app (b :: r) more m true Hb Hm Hbad) as (m' & Hbad').
  inversion HR as [? E'|? k' u' cs' E' H'|? n' cs' E' H']; subst; rewrite Hbad' in E'; try discriminate E'. injection E' as <-.
  cbn [utf8_dec_next app] in Hbad, Hbad'.
  destruct (_ =? 0)%nat; [|discriminate Hbad]. destruct (looks_truncated _ _) eqn:Et; [discriminate Hbad|]. injection Hbad as <-.
  destruct (utf8_valid_up_to (b :: r ++ more) =? 0)%nat; [|discriminate Hbad'].
  destruct (looks_truncated b (length (b :: r ++ more))) eqn:Et'.
  { apply looks_truncated_spec in Et'; [|cbn; lia]. assert (L : (length (b :: r) < announced b)%nat) by (cbn [length] in *; rewrite app_length in Et'; lia).
    apply looks_truncated_spec in L; [congruence|cbn; lia]. }
  injection Hbad' as <-. cbn [app skipn] in *. rewrite run_len_more in H'.
  destruct (Nat.eqb_spec (run_len r) (length r)) as [E|E].
  - rewrite E, skipn_all. cbn [app]. rewrite <- skipn_skipn, skipn_len_app in H'.
    destruct (Nat.eq_dec (run_len more) 0) as [Z|Z].
    + rewrite Z in H'. exists cs'. split; [exact H'|reflexivity].
    + exists (replacement :: cs'). split; [apply run_reads; [exact Hm|lia|exact H']|]. rewrite squeeze_dup. reflexivity.
  - pose proof (run_len_le r). rewrite skipn_app_le in H' by lia. exists cs'. split; [exact H'|reflexivity].
Qed.

Lemma stream_reads e fed ended n em : RecSession e fed ended n em ->
  bytes fed /\ (n <= length fed)%nat /\ exists cs, em = utf8 cs /\ text cs /\
  forall more all, bytes more -> (ended = true -> more = []) -> Reads (dec_next e true) (fed ++ more) all ->
  exists tl, Reads (dec_next e true) (skipn n fed ++ more) tl /\ squeeze all = squeeze (cs ++ tl) /\ (e <> Utf8 -> all = cs ++ tl).
Proof.
  induction 1 as [|bs fed n em HS IH Hbs|fed n em HS IH|fed ended n em out s k buf HS IH Hc|fed ended n em out er buf HS IH Hc].
  - split; [constructor|]. split; [cbn; lia|]. exists []. split; [reflexivity|]. split; [constructor|]. intros more all _ _ H. exists all. auto.
  - destruct IH as (Hb & Hn & cs & -> & Ht & IH). split; [apply bytes_app; auto|]. split; [rewrite app_length; lia|].
    exists cs. split; [reflexivity|]. split; [exact Ht|]. intros more all Hm _ H. rewrite <- app_assoc in H.
    rewrite skipn_app_le by exact Hn. rewrite <- app_assoc. apply IH; [apply bytes_app; auto|discriminate|exact H].
  - destruct IH as (Hb & Hn & cs & -> & Ht & IH). split; [exact Hb|]. split; [exact Hn|]. exists cs. split; [reflexivity|]. split; [exact Ht|].
    intros more all Hm Hmore H. rewrite (Hmore eq_refl) in *. apply IH; [constructor|discriminate|exact H].
  - destruct IH as (Hb & Hn & cs & -> & Ht & IH). split; [exact Hb|]. pose proof (bytes_skipn n fed Hb) as Hbn.
    destruct (decode_cases _ _ _ _ _ _ Hbn Hc) as (pre & cs' & rest & E0 & Hs & _ & _ & [(E & _)|(m & _ & _ & E)]); [|discriminate E].
    injection E as -> ->.
    assert (Hl : (length pre <= length (skipn n fed))%nat) by (rewrite E0, app_length; lia). rewrite skipn_length in Hl.
    split; [lia|]. exists (cs ++ cs'). rewrite utf8_app. split; [reflexivity|].
    split; [apply text_app; split; [exact Ht|exact (proj2 (proj2 (dsteps_rest_bytes _ _ _ _ _ _ Hbn Hs)))]|].
    intros more all Hm Hmore H. destruct (IH more all Hm Hmore H) as (tl & HR & Hq & Ha).
    pose proof (dsteps_more e ended true _ _ _ _ more Hbn Hs) as Hs'.
    destruct (Reads_after _ _ _ _ _ _ Hs' HR) as (tl' & -> & HR').
    exists tl'. rewrite <- skipn_skipn, E0, skipn_len_app. split; [exact HR'|]. rewrite <- app_assoc. auto.
  - destruct IH as (Hb & Hn & cs & -> & Ht & IH). split; [exact Hb|]. pose proof (bytes_skipn n fed Hb) as Hbn.
    destruct (decode_cases _ _ _ _ _ _ Hbn Hc) as (pre & cs' & rest & E0 & Hs & _ & -> & [(E & _)|(m & Hbad & _ & E)]); [discriminate E|].
    injection E as ->. cbn [de_range de_written snd]. rewrite frame_prefix.
    assert (Hr : bytes rest) by (eapply dsteps_rest_bytes; eassumption).
    pose proof (dec_bad_pos _ _ _ _ Hr Hbad) as Hmr.
    assert (Hl : (length pre + length rest = length (skipn n fed))%nat) by (rewrite E0, app_length; lia). rewrite skipn_length in Hl.
    split; [lia|]. exists (cs ++ cs' ++ [replacement]). rewrite !utf8_app. split; [rewrite utf8_single; reflexivity|].
    split; [apply text_app; split; [exact Ht|apply text_app; split; [exact (proj2 (proj2 (dsteps_rest_bytes _ _ _ _ _ _ Hbn Hs)))|constructor; [unfold scalar, replacement; lia|constructor]]]|].
    intros more all Hm Hmore H. destruct (IH more all Hm Hmore H) as (tl & HR & Hq & Ha).
    pose proof (dsteps_more e ended true _ _ _ _ more Hbn Hs) as Hs'.
    destruct (Reads_after _ _ _ _ _ _ Hs' HR) as (tl' & -> & HR').
    rewrite <- skipn_skipn, <- skipn_skipn, E0, skipn_len_app.
    enough (X : exists tl, Reads (dec_next e true) (skipn m rest ++ more) tl /\ squeeze tl' = squeeze (replacement :: tl) /\
                           (e <> Utf8 -> tl' = replacement :: tl)).
    { destruct X as (t & X1 & X2 & X3). exists t. split; [exact X1|]. rewrite <- !app_assoc. cbn [app]. split.
      - rewrite Hq. rewrite !app_assoc. apply squeeze_app, X2.
      - intros He. rewrite (Ha He), (X3 He). reflexivity. }
    assert (Same : dec_next e true (rest ++ more) = DBad m -> exists tl, Reads (dec_next e true) (skipn m rest ++ more) tl /\
              squeeze tl' = squeeze (replacement :: tl) /\ (e <> Utf8 -> tl' = replacement :: tl)).
    { intros Hb'. inversion HR' as [? E'|? k' u' c' E' H'|? n' c' E' H']; subst; rewrite Hb' in E'; try discriminate E'. injection E' as <-.
      rewrite skipn_app_le in H' by lia. exists c'. auto. }
    destruct ended; [apply Same; rewrite (Hmore eq_refl), app_nil_r; exact Hbad|].
    destruct (dec_bad_app e rest more m true Hr Hm Hbad) as (m' & Hbad' & Hne).
    assert (De : e = Utf8 \/ e <> Utf8) by (destruct e; auto; right; discriminate).
    destruct De as [->|De].
    + destruct (utf8_bad_more rest more m tl' Hr Hm Hbad HR') as (t & X1 & X2). exists t. split; [exact X1|]. split; [exact X2|]. congruence.
    + apply Same. rewrite <- (Hne De). exact Hbad'.
Qed.

Lemma stream_reads_done e fed em : RecSession e fed true (length fed) em ->
  bytes fed /\ exists cs all, em = utf8 cs /\ text cs /\ Reads (dec_next e true) fed all /\ squeeze all = squeeze cs /\ (e <> Utf8 -> all = cs).
Proof.
  intros H. destruct (stream_reads _ _ _ _ _ H) as (Hb & _ & cs & -> & Ht & X). split; [exact Hb|].
  destruct (Reads_total e fed Hb) as (all & Hall). destruct (X [] all) as (tl & HR & Hq & He); [constructor|auto|rewrite app_nil_r; exact Hall|].
  rewrite skipn_all in HR. assert (tl = []) as ->.
  { eapply Reads_det; [exact HR|]. apply rd_end, dec_next_nil. }
  rewrite app_nil_r in *. exists cs, all. auto.
Qed.

Lemma reads_follows W0 next bs cs : follows W0 next -> bytes bs -> Reads next bs cs -> W0 bs = cs.
Proof.
  intros HW Hb H. induction H as [bs E|bs k u cs E H IH|bs n cs E H IH]; pose proof (HW bs Hb) as F; rewrite E in F; rewrite F; auto.
  - rewrite IH by (apply bytes_skipn, Hb). reflexivity.
  - rewrite IH by (apply bytes_skipn, Hb). reflexivity.
Qed.
