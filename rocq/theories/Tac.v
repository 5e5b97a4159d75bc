(* Arithmetic set-up and bit-operation lemmas used by the proofs. *)
From Coq Require Import List NArith Arith Bool Lia ZArith.
From Coq Require Export ZifyBool ZifyNat ZifyN.
Import ListNotations.
Local Open Scope N_scope.

Ltac Zify.zify_post_hook ::= Z.div_mod_to_equations.

Lemma lor_add a b k : b < 2 ^ k -> N.lor (a * 2 ^ k) b = a * 2 ^ k + b.
Proof.
  intros H.
  assert (Hd : N.land (a * 2 ^ k) b = 0).
  { apply N.bits_inj. intro i. rewrite N.land_spec, N.bits_0.
    destruct (N.lt_ge_cases i k) as [Hi|Hi].
    - rewrite N.mul_pow2_bits_low by exact Hi. reflexivity.
    - destruct (N.eq_dec b 0) as [->|Hb].
      + rewrite N.bits_0. apply andb_false_r.
      + rewrite (N.bits_above_log2 b i). apply andb_false_r.
        apply N.log2_lt_pow2 in H; lia. }
  rewrite N.add_nocarry_lxor by exact Hd. symmetry. apply N.lxor_lor, Hd.
Qed.

(* N.lor with a constant multiple of a power of two in front *)
Lemma lor_const K a k b : K = a * 2 ^ k -> b < 2 ^ k -> N.lor b K = K + b.
Proof. intros -> H. rewrite N.lor_comm. apply lor_add, H. Qed.

Lemma land_mask m k x : m = N.ones k -> N.land x m = x mod 2 ^ k.
Proof. intros ->. apply N.land_ones. Qed.

Lemma land_3F x : N.land x 0x3F = x mod 64.
Proof. exact (N.land_ones x 6). Qed.
Lemma land_1F x : N.land x 0x1F = x mod 32.
Proof. exact (N.land_ones x 5). Qed.
Lemma land_0F x : N.land x 0x0F = x mod 16.
Proof. exact (N.land_ones x 4). Qed.
Lemma land_07 x : N.land x 0x07 = x mod 8.
Proof. exact (N.land_ones x 3). Qed.
Lemma land_3FF x : N.land x 0x3FF = x mod 1024.
Proof. exact (N.land_ones x 10). Qed.
Lemma land_FFFF x : N.land x 0xFFFF = x mod 65536.
Proof. exact (N.land_ones x 16). Qed.

Lemma shiftr_6 x : N.shiftr x 6 = x / 64.
Proof. exact (N.shiftr_div_pow2 x 6). Qed.
Lemma shiftr_10 x : N.shiftr x 10 = x / 1024.
Proof. exact (N.shiftr_div_pow2 x 10). Qed.
Lemma shiftr_12 x : N.shiftr x 12 = x / 4096.
Proof. exact (N.shiftr_div_pow2 x 12). Qed.
Lemma shiftr_18 x : N.shiftr x 18 = x / 262144.
Proof. exact (N.shiftr_div_pow2 x 18). Qed.

Lemma shiftl_6 x : N.shiftl x 6 = x * 64.
Proof. exact (N.shiftl_mul_pow2 x 6). Qed.
Lemma shiftl_10 x : N.shiftl x 10 = x * 1024.
Proof. exact (N.shiftl_mul_pow2 x 10). Qed.
Lemma shiftl_12 x : N.shiftl x 12 = x * 4096.
Proof. exact (N.shiftl_mul_pow2 x 12). Qed.
Lemma shiftl_18 x : N.shiftl x 18 = x * 262144.
Proof. exact (N.shiftl_mul_pow2 x 18). Qed.

(* masks that select high bits, for bytes: by checking all 256 values *)
Definition all_bytes : list N := map N.of_nat (seq 0 256).

Lemma byte_in b : b < 256 -> In b all_bytes.
Proof.
  intros H. unfold all_bytes. apply in_map_iff. exists (N.to_nat b). split.
  - apply N2Nat.id.
  - apply in_seq. lia.
Qed.

Lemma byte_sweep (P : N -> bool) : forallb P all_bytes = true -> forall b, b < 256 -> P b = true.
Proof. intros H b Hb. rewrite forallb_forall in H. apply H, byte_in, Hb. Qed.

Lemma mask_C0 b : b < 256 -> (N.land b 0xC0 =? 0x80) = ((0x80 <=? b) && (b <? 0xC0)).
Proof.
  intros H. apply eqb_prop.
  refine (byte_sweep (fun b => Bool.eqb (N.land b 0xC0 =? 0x80) ((0x80 <=? b) && (b <? 0xC0))) _ b H).
  vm_compute. reflexivity.
Qed.
Lemma mask_F8_F8 b : b < 256 -> (N.land b 0xF8 =? 0xF8) = (0xF8 <=? b).
Proof.
  intros H. apply eqb_prop.
  refine (byte_sweep (fun b => Bool.eqb (N.land b 0xF8 =? 0xF8) (0xF8 <=? b)) _ b H).
  vm_compute. reflexivity.
Qed.
Lemma mask_E0 b : b < 256 -> (N.land b 0xE0 =? 0xC0) = ((0xC0 <=? b) && (b <? 0xE0)).
Proof.
  intros H. apply eqb_prop.
  refine (byte_sweep (fun b => Bool.eqb (N.land b 0xE0 =? 0xC0) ((0xC0 <=? b) && (b <? 0xE0))) _ b H).
  vm_compute. reflexivity.
Qed.
Lemma mask_F0 b : b < 256 -> (N.land b 0xF0 =? 0xE0) = ((0xE0 <=? b) && (b <? 0xF0)).
Proof.
  intros H. apply eqb_prop.
  refine (byte_sweep (fun b => Bool.eqb (N.land b 0xF0 =? 0xE0) ((0xE0 <=? b) && (b <? 0xF0))) _ b H).
  vm_compute. reflexivity.
Qed.
Lemma mask_F8 b : b < 256 -> (N.land b 0xF8 =? 0xF0) = ((0xF0 <=? b) && (b <? 0xF8)).
Proof.
  intros H. apply eqb_prop.
  refine (byte_sweep (fun b => Bool.eqb (N.land b 0xF8 =? 0xF0) ((0xF0 <=? b) && (b <? 0xF8))) _ b H).
  vm_compute. reflexivity.
Qed.

(* (x & 0xFC00) == 0xDC00 on u16 *)
Lemma mask_FC00 x : x < 65536 -> (N.land x 0xFC00 =? 0xDC00) = ((0xDC00 <=? x) && (x <? 0xE000)).
Proof.
  intros H.
  assert (E : N.land x 0xFC00 = (x / 1024) * 1024).
  { transitivity (N.land (N.land x (N.shiftl (N.ones 6) 10)) (N.ones 16)).
    - rewrite <- N.land_assoc. reflexivity.
    - rewrite N.land_ones. 
      assert (E2 : N.land x (N.shiftl (N.ones 6) 10) = N.shiftl (N.land (N.shiftr x 10) (N.ones 6)) 10).
      { rewrite N.shiftl_land. apply N.bits_inj. intro i. rewrite !N.land_spec.
        destruct (N.lt_ge_cases i 10).
        - rewrite !N.shiftl_spec_low by lia. rewrite andb_false_r. reflexivity.
        - rewrite !(N.shiftl_spec_high' _ 10 i) by lia. rewrite N.shiftr_spec by lia.
          replace (i - 10 + 10) with i by lia. reflexivity. }
      rewrite E2, N.land_ones, shiftr_10, N.shiftl_mul_pow2.
      change (2 ^ 6) with 64. change (2 ^ 10) with 1024. change (2 ^ 16) with 65536.
      rewrite (N.mod_small (x / 1024)) by lia. apply N.mod_small. lia. }
  rewrite E. lia.
Qed.

(* case analysis on boolean comparisons in the goal *)
Ltac bcase :=
  match goal with
  | |- context [N.ltb ?a ?b] => destruct (N.ltb_spec a b)
  | |- context [N.leb ?a ?b] => destruct (N.leb_spec a b)
  | |- context [N.eqb ?a ?b] => destruct (N.eqb_spec a b)
  | |- context [Nat.ltb ?a ?b] => destruct (Nat.ltb_spec a b)
  | |- context [Nat.leb ?a ?b] => destruct (Nat.leb_spec a b)
  | |- context [Nat.eqb ?a ?b] => destruct (Nat.eqb_spec a b)
  end.

(* rewrite a boolean comparison in the goal to its value, proved by lia *)
Ltac btrue b := replace b with true by (symmetry; lia).
Ltac bfalse b := replace b with false by (symmetry; lia).

(* injectivity of cons without reducing the elements *)
Lemma cons_inj {A} (x y : A) a b : x :: a = y :: b -> x = y /\ a = b.
Proof. intros E. split; [exact (f_equal (hd x) E)|exact (f_equal (@tl A) E)]. Qed.
Ltac consinj E :=
  repeat match type of E with
  | _ :: _ = _ :: _ => let H := fresh "Hh" in apply cons_inj in E; destruct E as [H E]
  end.
