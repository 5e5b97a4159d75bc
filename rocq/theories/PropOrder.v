(* C77: encoded data in the order of the code points. *)
From Coq Require Import List NArith Arith Bool Lia.
From Verif Require Import Tac Encodings Spec SpecErrors Prelude RustCore Types ModelApi ProofApi ProofUtf8 NextDec Units Decide Greedy ProofRound PropCalls PropRound PropSearch.
Import ListNotations.
Local Open Scope N_scope.

(* the order of a dictionary, on characters by their code points and on bytes by their values *)
Fixpoint before (a b : list N) : Prop :=
  match a, b with
  | _, [] => False
  | [], _ :: _ => True
  | x :: a, y :: b => x < y \/ x = y /\ before a b
  end.

Lemma before_irrefl a : ~ before a a.
Proof. induction a as [|x a IH]; cbn; [tauto|]. intros [H|[_ H]]; [lia|exact (IH H)]. Qed.

Lemma before_asym a : forall b, before a b -> ~ before b a.
Proof.
  induction a as [|x a IH]; intros [|y b]; cbn; try tauto. intros [H|[-> H]] [K|[E K]]; try lia. exact (IH _ H K).
Qed.

Lemma before_total a : forall b, before a b \/ a = b \/ before b a.
Proof.
  induction a as [|x a IH]; intros [|y b]; cbn; auto. destruct (N.lt_trichotomy x y) as [H|[->|H]]; auto.
  destruct (IH b) as [H|[->|H]]; auto 6.
Qed.

Lemma before_app w a b : before (w ++ a) (w ++ b) <-> before a b.
Proof. induction w as [|x w IH]; cbn; [tauto|]. rewrite IH. split; [intros [H|[_ H]]; [lia|exact H]|auto]. Qed.

Lemma char8_before c d s t : scalar c -> scalar d -> c < d -> before (utf8_char c ++ s) (utf8_char d ++ t).
Proof. unfold scalar, utf8_char. intros C D H. repeat bcase; cbn [app before]; lia. Qed.

Lemma char32_before c d s t : scalar c -> scalar d -> c < d -> before (utf32_char true c ++ s) (utf32_char true d ++ t).
Proof. unfold scalar, utf32_char. intros C D H. cbn [app before]. lia. Qed.

Lemma char16_before c d s t : c < 0x10000 -> d < 0x10000 -> c < d -> before (utf16_char true c ++ s) (utf16_char true d ++ t).
Proof.
  intros C D H. unfold utf16_char. destruct (N.ltb_spec c 0x10000); [|lia]. destruct (N.ltb_spec d 0x10000); [|lia].
  unfold unit16. cbn [app before]. lia.
Qed.

(* for encodings with one code sequence w c for each character c *)
Definition units_are (e : encoding) (w : N -> list N) : Prop := forall u x, EncUnit e u x -> exists c, scalar c /\ u = [c] /\ x = w c.
Definition ordered (w : N -> list N) (P : N -> Prop) : Prop :=
  forall c d s t, scalar c -> scalar d -> P c -> P d -> c < d -> before (w c ++ s) (w d ++ t).

Lemma order_one e w P : units_are e w -> ordered w P -> forall cs a, Encoded e cs a -> Forall P cs ->
  forall ds b, Encoded e ds b -> Forall P ds -> before cs ds -> before a b.
Proof.
  intros HU HO cs a A. induction A as [|u x cs a U G A IH]; intros F ds b B F' L.
  - destruct B as [|u x ds b U G B]; [destruct L|]. destruct (enc_unit_shape _ _ _ U) as (_ & _ & _ & X).
    destruct x as [|y x]; [cbn in X; lia|exact I].
  - destruct (HU _ _ U) as (c & C & -> & ->). destruct B as [|u' x' ds b U' G' B]; [destruct L|].
    destruct (HU _ _ U') as (d & D & -> & ->). cbn [app] in *. inversion F as [|? ? Pc Fc]; subst. inversion F' as [|? ? Pd Fd]; subst.
    destruct L as [L|[-> L]]; [apply HO; assumption|]. apply before_app. apply (IH Fc _ _ B Fd L).
Qed.

Lemma order_iff e w P cs a ds b : units_are e w -> ordered w P -> encodes e cs a -> encodes e ds b -> Forall P cs -> Forall P ds ->
  before cs ds <-> before a b.
Proof.
  intros HU HO. rewrite !encodes_iff. intros A B F F'. split; [apply (order_one e w P HU HO _ _ A F _ _ B F')|]. intros L.
  destruct (before_total cs ds) as [H|[->|H]]; [exact H| |].
  - rewrite (Encoded_det _ _ _ _ A B) in L. destruct (before_irrefl _ L).
  - destruct (before_asym _ _ L). apply (order_one e w P HU HO _ _ B F' _ _ A F H).
Qed.

Theorem C77_order : forall e cs a ds b, e = Utf8 \/ e = Utf32BE -> encodes e cs a -> encodes e ds b -> before cs ds <-> before a b.
Proof.
  intros e cs a ds b He A B. assert (T : forall l, Forall (fun _ : N => True) l) by (intros l; apply Forall_forall; auto).
  destruct He as [->| ->].
  - apply (order_iff Utf8 utf8_char (fun _ => True)); auto; [intros u x U; exact U|]. intros c d s t C D _ _. apply char8_before; assumption.
  - apply (order_iff Utf32BE (utf32_char true) (fun _ => True)); auto; [intros u x U; exact U|]. intros c d s t C D _ _. apply char32_before; assumption.
Qed.

(* big-endian UTF-16 only without surrogate pairs *)
Theorem C77_order_utf16 : forall cs a ds b, encodes Utf16BE cs a -> encodes Utf16BE ds b ->
  Forall (fun c => c < 0x10000) cs -> Forall (fun c => c < 0x10000) ds -> before cs ds <-> before a b.
Proof.
  intros cs a ds b A B. apply (order_iff Utf16BE (utf16_char true)); auto; [intros u x U; exact U|].
  intros c d s t _ _ C D. apply char16_before; assumption.
Qed.

(* the order is turned round *)
Definition reversed (e : encoding) (cs ds : list N) : Prop := before cs ds /\ exists a b, encodes e cs a /\ encodes e ds b /\ before b a.

Local Ltac reverse a b := split; [cbn; lia|]; exists a, b; split; [encodes_to|]; split; [encodes_to|cbn; lia].

Theorem C77_other_encodings : reversed Utf16BE [0xFF5E] [0x10000] /\ reversed Utf16LE [0xFF] [0x100] /\ reversed Utf32LE [0xFF] [0x100] /\
  reversed ShiftJISWHATWG [0x61] [0xA5] /\ reversed Big5WHATWG [0x4E08] [0x529B].
Proof.
  repeat match goal with |- _ /\ _ => split end.
  - reverse [0xFF; 0x5E] [0xD8; 0; 0xDC; 0].
  - reverse [0xFF; 0] [0; 1].
  - reverse [0xFF; 0; 0; 0] [0; 1; 0; 0].
  - reverse [0x61] [0x5C].
  - reverse [0xA4; 0x56] [0xA4; 0x4F].
Qed.

(* texts that differ in the length of a character and in length *)
Example C77_example : encodes Utf8 [0x41; 0xFF5E] [0x41; 0xEF; 0xBD; 0x9E] /\ encodes Utf8 [0x41; 0x10000] [0x41; 0xF0; 0x90; 0x80; 0x80] /\
  before [0x41; 0xFF5E] [0x41; 0x10000] /\ before [0x41; 0xEF; 0xBD; 0x9E] [0x41; 0xF0; 0x90; 0x80; 0x80] /\
  encodes Utf32BE [0x41] [0; 0; 0; 0x41] /\ encodes Utf32BE [0x41; 0x42] [0; 0; 0; 0x41; 0; 0; 0; 0x42] /\ before [0x41] [0x41; 0x42].
Proof.
  repeat match goal with |- encodes _ _ _ /\ _ => split; [encodes_to|] | |- before _ _ /\ _ => split; [cbn; lia|] end. cbn. lia.
Qed.

Definition all_C77 := (C77_order, C77_order_utf16, C77_other_encodings).
Print Assumptions all_C77.
