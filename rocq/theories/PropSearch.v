(* C75: encoded data can be concatenated, cut and searched. *)
From Coq Require Import List NArith Arith Bool Lia.
From Verif Require Import Tac Encodings Spec SpecErrors Prelude RustCore Types ModelApi ProofApi ProofUtf8 NextDec Units Decide Greedy ProofRound ProofSubst PropCalls PropRound.
Import ListNotations.
Local Open Scope nat_scope.

(* the text cs is encoded as s, and the data s is decoded as cs, by a call with a buffer that is large enough *)
Definition encodes (e : encoding) (cs s : list N) : Prop := text cs /\
  forall out, length s <= length out -> exists buf, encode_from_str e (utf8 cs) out true = Ret (Ok (s, length (utf8 cs)), buf).
Definition decodes (e : encoding) (s cs : list N) : Prop := bytes s /\ text cs /\
  forall is_end out, length (utf8 cs) <= length out -> exists buf, decode_to_str e s out is_end = Ret (Ok (utf8 cs, length s), buf).

Lemma encodes_iff e cs s : encodes e cs s <-> Encoded e cs s.
Proof.
  split.
  - intros [T H]. destruct (H s (le_n _)) as [buf E]. exact (encode_whole _ _ _ _ _ _ T E).
  - intros H. split; [apply (Encoded_text _ _ _ H)|]. intros out L. eexists. apply encode_enough; eassumption.
Qed.

Lemma decodes_iff e s cs : decodes e s cs <-> Decoded e s cs.
Proof.
  split.
  - intros (B & T & H). destruct (H true (utf8 cs) (le_n _)) as [buf E]. destruct (decode_whole _ _ _ _ _ _ B E) as (cs' & D & U).
    apply utf8_inj in U; [subst; exact D|exact T|apply (Decoded_text _ _ _ D)].
  - intros H. destruct (Decoded_text _ _ _ H) as [T B]. split; [exact B|]. split; [exact T|].
    intros ie out L. eexists. apply decode_enough; eassumption.
Qed.

(** ** Concatenating and cutting *)

Lemma unit_match e w u w' u' r r' : DecUnit e w u -> DecUnit e w' u' -> w ++ r = w' ++ r' -> w = w' /\ u = u' /\ r = r'.
Proof.
  intros H H' E. pose proof (dec_unit_next e w u r true H) as X. rewrite E, (dec_unit_next e w' u' r' true H') in X. injection X as L <-.
  apply app_eq_app in E. destruct E as (l & [[-> ->]|[-> ->]]); rewrite app_length in L; destruct l; cbn [length] in L; try lia; rewrite app_nil_r; auto.
Qed.

Lemma decoded_cut e a l : Decoded e a l -> forall b cs, Decoded e (a ++ b) cs -> exists r, cs = l ++ r /\ Decoded e b r.
Proof.
  intros H. induction H as [|w u a l U H IH]; intros b cs D; [exists cs; auto|].
  rewrite <- app_assoc in D. destruct (Decoded_inv _ _ _ D) as [[E _]|(w' & u' & bs' & cs' & E & -> & U' & D')].
  { destruct (dec_unit_shape _ _ _ U) as (_ & L & _). destruct w; [cbn in L; lia|discriminate E]. }
  destruct (unit_match _ _ _ _ _ _ _ U U' E) as (_ & <- & <-). destruct (IH b cs' D') as (r & -> & R).
  exists r. split; [apply app_assoc|exact R].
Qed.

Lemma encoded_cut e cs s : Encoded e cs s -> forall a b, cs = a ++ b -> startable e b -> exists x y, s = x ++ y /\ Encoded e a x /\ Encoded e b y.
Proof.
  intros H. induction H as [|u w cs s U G H IH]; intros a b E B.
  { symmetry in E. apply app_eq_nil in E. destruct E as [-> ->]. exists [], []. split; [reflexivity|split; constructor]. }
  destruct a as [|c a].
  { cbn [app] in E. subst b. exists [], (w ++ s). split; [reflexivity|]. split; constructor; assumption. }
  pose proof E as E'. apply app_eq_app in E'. destruct E' as (l & [[Eu Eb]|[Ea Ec]]).
  - destruct (enc_unit_shape _ _ _ U) as (_ & L & _). destruct l as [|d l].
    + rewrite app_nil_r in Eu. subst u. cbn [app] in Eb. subst b. exists w, s. split; [reflexivity|]. split; [|exact H].
      rewrite <- (app_nil_r (c :: a)), <- (app_nil_r w). constructor; [exact U| |constructor]. rewrite app_nil_r. exact (longest_prefix _ _ _ _ G).
    + exfalso. subst u. destruct a as [|? ?]; [|cbn [app length] in L; rewrite app_length in L; cbn [length] in L; lia].
      cbn [app] in Eb, U. exact (B d (l ++ cs) c l w Eb U).
  - destruct (IH l b Ec B) as (x & y & -> & X & Y). rewrite Ea. exists (w ++ x), y. split; [apply app_assoc|]. split; [|exact Y].
    constructor; [exact U| |exact X]. rewrite Ec, app_assoc in G. exact (longest_prefix _ _ _ _ G).
Qed.

Lemma startable_iff e b : e <> Big5WHATWG \/ (forall r, b <> 0x304%N :: r /\ b <> 0x30C%N :: r) -> startable e b.
Proof.
  intros H x t a u w -> U. destruct H as [H|H].
  - destruct (enc_unit_single _ _ _ H U) as [c Ec]. discriminate Ec.
  - destruct (H t) as [H1 H2]. assert (e = Big5WHATWG) as -> by (destruct e; try reflexivity; exfalso;
      match type of U with EncUnit ?e _ _ => destruct (enc_unit_single e _ _ ltac:(discriminate) U) as [c Ec]; discriminate Ec end).
    apply big5_two in U. destruct U as [_ [->| ->]]; congruence.
Qed.

(** ** Searching *)

Lemma boundary e (P : list N -> list N -> Prop) :
  (forall w u x y t, DecUnit e w u -> w = x ++ y -> x <> [] -> y <> [] -> P x (y ++ t) -> False) ->
  (forall w u x t, DecUnit e w u -> P (w ++ x) t -> P x t) ->
  forall s cs, Decoded e s cs -> forall a t, s = a ++ t -> P a t -> exists l r, cs = l ++ r /\ Decoded e a l /\ Decoded e t r.
Proof.
  intros P1 P2 s cs H. induction H as [|w u s cs U H IH]; intros a t E Q.
  { symmetry in E. apply app_eq_nil in E. destruct E as [-> ->]. exists [], []. split; [reflexivity|split; constructor]. }
  destruct a as [|c a].
  { cbn [app] in E. subst t. exists [], (u ++ cs). split; [reflexivity|]. split; constructor; assumption. }
  apply app_eq_app in E. destruct E as (l & [[-> ->]|[E ->]]).
  - destruct l as [|d l].
    + rewrite app_nil_r in U. exists u, cs. split; [reflexivity|]. split; [|exact H].
      rewrite <- (app_nil_r (c :: a)), <- (app_nil_r u). constructor; [exact U|constructor].
    + exfalso. eapply P1; [exact U|reflexivity|discriminate|discriminate|exact Q].
  - rewrite E in Q. destruct (IH l t eq_refl (P2 _ _ _ _ U Q)) as (x & r & -> & X & R). rewrite E.
    exists (u ++ x), r. split; [apply app_assoc|]. split; [constructor; assumption|exact R].
Qed.

Lemma found e (P : list N -> list N -> Prop) :
  (forall w u x y t, DecUnit e w u -> w = x ++ y -> x <> [] -> y <> [] -> P x (y ++ t) -> False) ->
  (forall w u x t, DecUnit e w u -> P (w ++ x) t -> P x t) ->
  forall a w b cs ps, Decoded e (a ++ w ++ b) cs -> Decoded e w ps -> P a (w ++ b) ->
    exists l r, cs = l ++ ps ++ r /\ Decoded e a l /\ Decoded e b r.
Proof.
  intros P1 P2 a w b cs ps D W Q. destruct (boundary e P P1 P2 _ _ D _ _ eq_refl Q) as (l & r & -> & L & R).
  destruct (decoded_cut _ _ _ W _ _ R) as (r' & -> & R'). exists l, r'. auto.
Qed.

(* where an occurrence counts: anywhere, or at a multiple of the size of a code unit *)
Definition code_unit (e : encoding) : nat := match e with Utf16BE | Utf16LE => 2 | Utf32BE | Utf32LE => 4 | _ => 1 end.

Lemma unit16_inj big x y : (x < 65536)%N -> (y < 65536)%N -> unit16 big x = unit16 big y -> x = y.
Proof. unfold unit16. destruct big; intros X Y E; injection E as E1 E2; lia. Qed.

Lemma utf16_head big c : scalar c -> exists v r, utf16_char big c = unit16 big v ++ r /\ (v < 0xDC00 \/ 0xDFFF < v < 0x10000)%N.
Proof.
  intros C. unfold utf16_char. unfold scalar in C. destruct (N.ltb_spec c 0x10000).
  - exists c, []. rewrite app_nil_r. split; [reflexivity|lia].
  - eexists _, _. split; [reflexivity|]. lia.
Qed.

Lemma unit16_len big x : length (unit16 big x) = 2.
Proof. destruct big; reflexivity. Qed.

Lemma found16 big e : (forall w u, DecUnit e w u <-> exists c, scalar c /\ w = utf16_char big c /\ u = [c]) ->
  forall a w b cs ps, Decoded e (a ++ w ++ b) cs -> Decoded e w ps -> w <> [] -> (exists k, length a = 2 * k) ->
  exists l r, cs = l ++ ps ++ r /\ Decoded e a l /\ Decoded e b r.
Proof.
  intros E a w b cs ps D W NE K.
  apply (found e (fun a t => (exists k, length a = 2 * k) /\ exists c r, scalar c /\ t = utf16_char big c ++ r)) with (w := w); try assumption.
  - intros w0 u x y t U Ew Nx Ny [[k Lk] (c & r & C & Et)]. apply E in U. destruct U as (d & Sd & -> & _).
    unfold utf16_char in Ew. unfold scalar in Sd. destruct (N.ltb_spec d 0x10000).
    { apply (f_equal (@length N)) in Ew. rewrite app_length, unit16_len in Ew. destruct x, y; cbn [length] in *; try congruence; lia. }
    pose proof (f_equal (@length N) Ew) as L. rewrite !app_length, !unit16_len in L.
    assert (length x = 2) by (destruct x, y; cbn [length] in *; try congruence; lia).
    apply app_eq_app in Ew. destruct Ew as (l & [[El Er]|[El Er]]);
      (assert (l = []) by (apply length_zero_iff_nil; apply (f_equal (@length N)) in El; rewrite app_length, unit16_len in El; lia)); subst l;
      cbn [app] in Er; subst y; try (rewrite <- Er in * ); clear El.
    all: destruct (utf16_head big c C) as (v & q & Ev & V); rewrite Ev, <- app_assoc in Et; apply (f_equal (firstn 2)) in Et;
      rewrite !firstn_app, !unit16_len, !(firstn_all2 (unit16 _ _)), Nat.sub_diag, !firstn_O, !app_nil_r in Et by (rewrite unit16_len; lia);
      apply unit16_inj in Et; lia.
  - intros w0 u x t U [[k Lk] T]. split; [|exact T]. apply E in U. destruct U as (d & Sd & -> & _). rewrite app_length in Lk.
    unfold utf16_char in Lk. destruct (d <? 0x10000)%N; rewrite ?app_length, ?unit16_len in Lk; [exists (k - 1)|exists (k - 2)]; lia.
  - split; [exact K|]. destruct (Decoded_inv _ _ _ W) as [[-> _]|(w' & u' & b' & c' & -> & -> & U & _)]; [congruence|].
    apply E in U. destruct U as (c & C & -> & _). exists c, (b' ++ b). split; [exact C|symmetry; apply app_assoc].
Qed.

Lemma found32 big e : (forall w u, DecUnit e w u <-> exists c, scalar c /\ w = utf32_char big c /\ u = [c]) ->
  forall a w b cs ps, Decoded e (a ++ w ++ b) cs -> Decoded e w ps -> (exists k, length a = 4 * k) ->
  exists l r, cs = l ++ ps ++ r /\ Decoded e a l /\ Decoded e b r.
Proof.
  intros E a w b cs ps D W K. assert (L4 : forall w u, DecUnit e w u -> length w = 4).
  { intros w0 u U. apply E in U. destruct U as (c & _ & -> & _). destruct big; reflexivity. }
  apply (found e (fun a t => exists k, length a = 4 * k)) with (w := w); try assumption.
  - intros w0 u x y t U -> Nx Ny [k Lk]. apply L4 in U. rewrite app_length in U. destruct x, y; cbn [length] in *; try congruence; lia.
  - intros w0 u x t U [k Lk]. apply L4 in U. rewrite app_length in Lk. exists (k - 1). lia.
Qed.

Theorem C75_decode_concat : forall e a b cs ds, decodes e a cs -> decodes e b ds -> decodes e (a ++ b) (cs ++ ds).
Proof. intros e a b cs ds. rewrite !decodes_iff. apply Decoded_app. Qed.

Theorem C75_decode_cut : forall e a b cs ds, decodes e (a ++ b) cs -> decodes e a ds -> exists r, cs = ds ++ r /\ decodes e b r.
Proof.
  intros e a b cs ds. rewrite !decodes_iff. intros D A. destruct (decoded_cut _ _ _ A _ _ D) as (r & -> & R).
  exists r. split; [reflexivity|apply decodes_iff, R].
Qed.

Theorem C75_encode_concat : forall e a b cs ds, encodes e cs a -> encodes e ds b -> encodes e (cs ++ ds) (a ++ b).
Proof. intros e a b cs ds. rewrite !encodes_iff. intros A B. apply Encoded_app; [exact A|apply (Encoded_startable _ _ _ B)|exact B]. Qed.

Theorem C75_encode_cut : forall e cs ds s, encodes e (cs ++ ds) s ->
  e <> Big5WHATWG \/ (forall r, ds <> 0x304%N :: r /\ ds <> 0x30C%N :: r) ->
  exists a b, s = a ++ b /\ encodes e cs a /\ encodes e ds b.
Proof.
  intros e cs ds s. rewrite encodes_iff. intros H X. destruct (encoded_cut _ _ _ H _ _ eq_refl (startable_iff _ _ X)) as (a & b & E & A & B).
  exists a, b. rewrite !encodes_iff. auto.
Qed.

Theorem C75_search : forall e a w b cs ps, e <> Big5WHATWG -> e <> ShiftJISWHATWG ->
  decodes e (a ++ w ++ b) cs -> decodes e w ps -> w <> [] -> (exists k, length a = k * code_unit e) ->
  exists l r, cs = l ++ ps ++ r /\ decodes e a l /\ decodes e b r.
Proof.
  intros e a w b cs ps N5 NS. rewrite !decodes_iff. intros D W NE [k K].
  assert (X : exists l r, cs = l ++ ps ++ r /\ Decoded e a l /\ Decoded e b r).
  { destruct e; cbn [code_unit] in K; try congruence.
    - apply (found Utf8 (fun _ t => exists x r, t = x :: r /\ (x < 128 \/ 192 <= x)%N)) with (w := w); try assumption.
      + intros w0 u x y t (c & C & -> & _) E Nx Ny (z & r & Ez & Z). destruct (utf8_char_head c C) as (h & q & Eh & _ & F).
        rewrite Eh in E. destruct x as [|x0 x]; [congruence|]. cbn [app] in E. injection E as -> ->. rewrite Forall_app in F. destruct F as [_ F].
        destruct y as [|y0 y]; [congruence|]. cbn [app] in Ez. injection Ez as -> _. inversion F; subst. lia.
      + intros w0 u x t _ T. exact T.
      + destruct (Decoded_inv _ _ _ W) as [[-> _]|(w' & u' & b' & c' & -> & -> & (c & C & -> & _) & _)]; [congruence|].
        destruct (utf8_char_head c C) as (h & q & -> & H & _). exists h, ((q ++ b') ++ b). split; [reflexivity|exact H].
    - apply (found16 true Utf16BE) with (w := w); try assumption; [intros; reflexivity|exists k; lia].
    - apply (found16 false Utf16LE) with (w := w); try assumption; [intros; reflexivity|exists k; lia].
    - apply (found32 true Utf32BE) with (w := w); try assumption; [intros; reflexivity|exists k; lia].
    - apply (found32 false Utf32LE) with (w := w); try assumption; [intros; reflexivity|exists k; lia].
    - apply (found (Single m) (fun _ _ => True)) with (w := w); try assumption; try exact I; [|intros; exact I].
      intros w0 u x y t (bb & c & _ & -> & _) E Nx Ny _. apply (f_equal (@length N)) in E. rewrite app_length in E.
      destruct x, y; cbn [length] in *; try congruence; lia. }
  destruct X as (l & r & E & L & R). exists l, r. rewrite !decodes_iff. auto.
Qed.

Theorem C75_search_low : forall e a w b cs, e = Big5WHATWG \/ e = ShiftJISWHATWG ->
  decodes e (a ++ w ++ b) cs -> Forall (fun x => x < 0x40)%N w -> w <> [] ->
  exists l r, cs = l ++ w ++ r /\ decodes e a l /\ decodes e b r.
Proof.
  intros e a w b cs He. rewrite decodes_iff. intros D F NE.
  assert (W : Decoded e w w).
  { clear - He F. induction F as [|x w X F IH]; [constructor|]. apply (Decoded_unit e [x] [x]); [|exact IH].
    destruct He as [->| ->]; left; exists x; (split; [lia|auto]). }
  assert (X : exists l r, cs = l ++ w ++ r /\ Decoded e a l /\ Decoded e b r).
  { apply (found e (fun _ t => exists x r, t = x :: r /\ (x < 0x40)%N)) with (w := w); try assumption; [|intros ? ? ? ? _ T; exact T|].
    - intros w0 u x y t U E Nx Ny (z & r & Ez & Z).
      assert (T : forall h l, w0 = [h; l] -> (0x40 <= l)%N -> False).
      { intros h l -> L. destruct x as [|x0 [|x1 x]]; [congruence| |]; cbn [app] in E.
        - injection E as -> <-. cbn [app] in Ez. injection Ez as -> _. lia.
        - injection E as -> -> E. symmetry in E. apply app_eq_nil in E. destruct E as [_ ->]. congruence. }
      assert (S : forall h, w0 = [h] -> False).
      { intros h ->. destruct x as [|x0 x]; [congruence|]. cbn [app] in E. injection E as -> E. symmetry in E. apply app_eq_nil in E. destruct E; congruence. }
      destruct He as [->| ->].
      + destruct U as [(h & _ & -> & _)|[(p & c & _ & -> & _)|(p & _ & ->)]]; [eapply S; reflexivity| |];
          (eapply T; [reflexivity|]); destruct (_ <? 0x3F)%N; lia.
      + destruct U as [(h & _ & -> & _)|[(h & _ & -> & _)|[(p & c & _ & -> & _)|(p & _ & -> & _)]]]; try (eapply S; reflexivity);
          (eapply T; [reflexivity|]); destruct (_ <? 0x3F)%N; lia.
    - inversion F as [|x w' X F' E]; [congruence|]. subst w. exists x, (w' ++ b). auto. }
  destruct X as (l & r & E & L & R). exists l, r. rewrite !decodes_iff. auto.
Qed.

Theorem C75_search_encoded : forall e a w b cs ps, e <> Big5WHATWG -> e <> ShiftJISWHATWG ->
  encodes e cs (a ++ w ++ b) -> encodes e ps w -> ps <> [] -> (exists k, length a = k * code_unit e) ->
  exists l r, cs = l ++ ps ++ r /\ encodes e l a /\ encodes e r b.
Proof.
  intros e a w b cs ps N5 NS. rewrite !encodes_iff. intros D W NE K.
  assert (B : forall s t, Decoded e s t -> encodes e t s).
  { intros s t H. apply encodes_iff. destruct e; try congruence; try (apply Decoded_Encoded_utf; [exact I|exact H]). apply Decoded_Encoded_single, H. }
  apply Encoded_Decoded in D; [|exact NS]. apply Encoded_Decoded in W; [|exact NS].
  destruct (C75_search e a w b cs ps N5 NS) as (l & r & E & L & R); try (apply decodes_iff; assumption); try assumption.
  { intros ->. destruct (Decoded_inv _ _ _ W) as [[_ E]|(w' & u & b' & c' & E & -> & U & _)]; [congruence|].
    destruct (dec_unit_shape _ _ _ U) as (_ & L & _). destruct w'; [cbn in L; lia|discriminate E]. }
  exists l, r. split; [exact E|]. rewrite decodes_iff in L, R. auto.
Qed.

(** ** None of the restrictions can be dropped *)

Lemma decodes_intro e s cs : bytes s -> text cs ->
  (exists buf, decode_to_str e s (utf8 cs) true = Ret (Ok (utf8 cs, length s), buf)) -> decodes e s cs.
Proof.
  intros B T [buf E]. apply decodes_iff. destruct (decode_whole _ _ _ _ _ _ B E) as (cs' & D & U).
  apply utf8_inj in U; [subst; exact D|exact T|apply (Decoded_text _ _ _ D)].
Qed.

Lemma encodes_intro e cs s : text cs -> (exists buf, encode_from_str e (utf8 cs) s true = Ret (Ok (s, length (utf8 cs)), buf)) -> encodes e cs s.
Proof. intros T [buf E]. apply encodes_iff. exact (encode_whole _ _ _ _ _ _ T E). Qed.

Definition lost (e : encoding) (a w b cs ps : list N) : Prop :=
  decodes e (a ++ w ++ b) cs /\ decodes e w ps /\ w <> [] /\ ~ exists l r, cs = l ++ ps ++ r.

Ltac chars := repeat (constructor; [unfold scalar; lia|]); constructor.
Ltac decodes_to := apply decodes_intro; [chars|chars|eexists; vm_compute; reflexivity].
Ltac encodes_to := apply encodes_intro; [chars|eexists; vm_compute; reflexivity].

(* a backslash that is half of a character *)
Theorem C75_shift_jis_exception : exists a w b cs ps, lost ShiftJISWHATWG a w b cs ps.
Proof.
  exists [0x83%N], [0x5C%N], [], [0x30BD%N], [0x5C%N]. split; [decodes_to|]. split; [decodes_to|]. split; [discriminate|].
  intros (l & r & E). destruct l as [|x [|y l]]; discriminate E.
Qed.

Theorem C75_big5_exception : exists a w b cs ps, lost Big5WHATWG a w b cs ps.
Proof.
  exists [0xA5%N], [0x5C%N], [], [0x529F%N], [0x5C%N]. split; [decodes_to|]. split; [decodes_to|]. split; [discriminate|].
  intros (l & r & E). destruct l as [|x [|y l]]; discriminate E.
Qed.

(* bytes of two neighbouring characters *)
Theorem C75_alignment_needed : exists e a w b cs ps, e <> Big5WHATWG /\ e <> ShiftJISWHATWG /\ lost e a w b cs ps.
Proof.
  exists Utf16BE, [0x30%N], [0x42; 0x30]%N, [0x44%N], [0x3042; 0x3044]%N, [0x4230%N].
  split; [discriminate|]. split; [discriminate|]. split; [decodes_to|]. split; [decodes_to|]. split; [discriminate|].
  intros (l & r & E). destruct l as [|x [|y [|z l]]]; discriminate E.
Qed.

(* a code for two characters *)
Theorem C75_cut_condition_needed : exists cs ds s, encodes Big5WHATWG (cs ++ ds) s /\ forall b, ~ encodes Big5WHATWG ds b.
Proof.
  exists [0xCA%N], [0x304%N], [0x88; 0x62]%N. split; [encodes_to|].
  intros b H. apply encodes_iff, Encoded_startable in H. apply (H 0x304%N [] 0xCA%N [] [0x88; 0x62]%N eq_refl).
  right; right. exists 1133%N. split; [left; reflexivity|vm_compute; reflexivity].
Qed.

Example C75_example : encodes Utf8 [0x64; 0xE9; 0x6A; 0xE0; 0x76; 0x75]%N ([0x64; 0xC3; 0xA9] ++ [0x6A; 0xC3; 0xA0] ++ [0x76; 0x75])%N /\
  encodes Utf8 [0x6A; 0xE0]%N [0x6A; 0xC3; 0xA0]%N /\
  decodes Utf16LE ([0x3D; 0xD8; 0x00; 0xDE] ++ [0x41; 0x00] ++ [])%N [0x1F600; 0x41]%N /\ decodes Utf16LE [0x41; 0x00]%N [0x41%N] /\
  decodes ShiftJISWHATWG ([0x83; 0x5C] ++ [0x2F; 0x31] ++ [0x5C])%N [0x30BD; 0x2F; 0x31; 0x5C]%N /\
  encodes Big5WHATWG ([0x5341] ++ [0xCA; 0x304])%N ([0xA4; 0x51] ++ [0x88; 0x62])%N /\
  encodes Big5WHATWG [0x5341%N] [0xA4; 0x51]%N /\ encodes Big5WHATWG [0xCA; 0x304]%N [0x88; 0x62]%N.
Proof. repeat match goal with |- _ /\ _ => split end; first [encodes_to|decodes_to]. Qed.

Definition all_C75 := (C75_decode_concat, C75_decode_cut, C75_encode_concat, C75_encode_cut, C75_search, C75_search_low, C75_search_encoded,
  C75_shift_jis_exception, C75_big5_exception, C75_alignment_needed, C75_cut_condition_needed).
Print Assumptions all_C75.
