(* index_to_bytes and deduped_table of generate_big5.py and generate_shiftjis.py. *)
From Coq Require Import List NArith ZArith Bool String Lia.
From Verif Require Import Prelude RustCore FileText ModelGen ModelScripts ModelFiles PySyntax PyEval ProofGen ScriptAst ProofPy ProofPyLoad Tac.
Import ListNotations.
Local Open Scope string_scope.
Local Open Scope list_scope.

Lemma big5_index_ok dir fs n i w : apply dir fs (S n) b_index [vint i] w = Val (vpair (big5_index_to_bytes i)) w.
Proof.
  rewrite (apply_S _ _ _ _ _ _ (upd "i" (vint i) no_env)) by reflexivity. unfold b_index. cbn [f_body f_params].
  rewrite block_cons, exec_str. py. rewrite block_cons, exec_assign. py. rewrite block_cons, exec_assign. py.
  rewrite block_cons, exec_assign. py. unfold big5_index_to_bytes, vpair, vint. cbn [fst snd].
  assert (E : (Z.of_N i mod 157 <? 63)%Z = (i mod 157 <? 63)%N) by lia. rewrite E.
  destruct (i mod 157 <? 63)%N; py; rewrite block_cons, exec_return; py; cbn [returned]; repeat f_equal; lia.
Qed.
Lemma sjis_index_ok dir fs n i w : apply dir fs (S n) s_index [vint i] w = Val (vpair (sjis_index_to_bytes i)) w.
Proof.
  rewrite (apply_S _ _ _ _ _ _ (upd "i" (vint i) no_env)) by reflexivity. unfold s_index. cbn [f_body f_params].
  rewrite block_cons, exec_str. py. rewrite block_cons, exec_assign. py. rewrite block_cons, exec_assign. py.
  unfold sjis_index_to_bytes, vpair, vint. cbn [fst snd].
  assert (E : (Z.of_N i / 188 <? 31)%Z = (i / 188 <? 31)%N) by lia. rewrite E.
  assert (E' : (Z.of_N i mod 188 <? 63)%Z = (i mod 188 <? 63)%N) by lia.
  destruct (i / 188 <? 31)%N; py; rewrite block_cons, exec_assign; py; rewrite block_cons, exec_assign; py; rewrite E';
  destruct (i mod 188 <? 63)%N; py; rewrite block_cons, exec_return; py; cbn [returned]; repeat f_equal; lia.
Qed.

Lemma has_N c l : has (Z.of_N c) (map Z.of_N l) = existsb (N.eqb c) l.
Proof. induction l as [|d l IH]; [reflexivity|]. unfold has in *. cbn [map existsb]. rewrite IH. f_equal. lia. Qed.

Lemma rev'_map {A B} (g : A -> B) l : rev' (map g l) = map g (rev' l).
Proof. unfold rev'. rewrite !rev_append_rev, !app_nil_r. symmetry. apply map_rev. Qed.

Section Dedup.
  Variable dir : path.
  Variable call : string -> option (list value -> world -> res value).
  Variable fuel : nat.
  Hypothesis no_set : call "set" = None.

  Lemma first_loop fr table : frozen_in "seen" fr = false -> frozen_in "new_table" fr = false -> forall acc zs seen s w,
    s "new_table" = Some (VList (map vpair acc)) -> s "seen" = Some (VSet zs) -> same_set zs seen ->
    exists s', for_loop dir call fuel (TTuple ["index"; "codepoint"]) first_body fr (map vpair table) s w = Next s' w /\
      s' "new_table" = Some (VList (map vpair (acc ++ dedup_first seen table))).
  Proof.
    intros F1 F2. induction table as [|[i c] table IH]; intros acc zs seen s w Ht Hs Hz.
    - exists s. cbn [dedup_first]. rewrite app_nil_r. split; [reflexivity|exact Ht].
    - cbn [map]. rewrite for_cons. unfold first_body at 1. unfold vpair at 1. cbn [fst snd]. py. rewrite block_cons, exec_if. py. rewrite Hs.
      unfold vint. py. rewrite (Hz c). cbn [dedup_first]. destruct (mem c seen) eqn:M; py; rewrite ?block_nil.
      + py. rewrite block_nil. apply (IH acc zs seen); py; assumption.
      + rewrite block_cons.
        rewrite (exec_change1 _ _ _ _ _ _ _ _ _ (VSet zs) (VInt (Z.of_N c)) (VSet (Z.of_N c :: zs))); py; [|assumption|reflexivity|assumption|reflexivity|].
        2: { cbn [change]. py. rewrite (Hz c), M. reflexivity. }
        rewrite block_cons, (exec_aug _ _ _ _ _ _ _ _ _ (VList (map vpair acc))) by (py; exact Ht). py. rewrite F2. py. rewrite !block_nil. py. rewrite block_nil.
        pose proof (same_add zs seen c Hz) as K. rewrite (Hz c), M in K.
        match goal with |- context [for_loop _ _ _ _ _ _ _ ?s1 _] => destruct (IH (acc ++ [(i, c)]) (Z.of_N c :: zs) (add c seen) s1 w) as (s' & E & T) end;
          [py; rewrite map_app; reflexivity|reflexivity|exact K|].
        rewrite <- app_assoc in T. exists s'. split; [exact E|exact T].
  Qed.

  Lemma last_loop fr table : frozen_in "seen" fr = false -> frozen_in "tmp_table_2" fr = false -> forall acc zs seen s w,
    s "tmp_table_2" = Some (VList (map vpair acc)) -> s "seen" = Some (VSet zs) -> same_set zs seen ->
    exists s', for_loop dir call fuel (TTuple ["index"; "codepoint"]) last_body fr (map vpair table) s w = Next s' w /\
      s' "tmp_table_2" = Some (VList (map vpair (acc ++ dedup_last seen table))).
  Proof.
    intros F1 F2. induction table as [|[i c] table IH]; intros acc zs seen s w Ht Hs Hz.
    - exists s. cbn [dedup_last]. rewrite app_nil_r. split; [reflexivity|exact Ht].
    - cbn [map]. rewrite for_cons. unfold last_body at 1. unfold vpair at 1. cbn [fst snd]. py. rewrite block_cons, exec_if. py. rewrite Hs.
      py. rewrite (Hz c). cbn [dedup_last]. destruct (mem c seen) eqn:M; py; rewrite ?block_nil.
      + py. rewrite block_nil. apply (IH acc zs seen); py; assumption.
      + rewrite block_cons, exec_if. py.
        replace (has (Z.of_N c) [9552; 9566; 9569; 9578; 21313; 21317]%Z) with (existsb (N.eqb c) keep_last) by (symmetry; exact (has_N c keep_last)).
        destruct (existsb (N.eqb c) keep_last); py.
        * rewrite block_cons.
          rewrite (exec_change1 _ _ _ _ _ _ _ _ _ (VSet zs) (VInt (Z.of_N c)) (VSet (Z.of_N c :: zs))); py; [|assumption|reflexivity|assumption|reflexivity|].
          2: { cbn [change]. py. rewrite (Hz c), M. reflexivity. }
          rewrite block_nil. py.
          rewrite block_cons, (exec_aug _ _ _ _ _ _ _ _ _ (VList (map vpair acc))) by (py; exact Ht). py. rewrite F2. py. rewrite !block_nil. py. rewrite block_nil.
          pose proof (same_add zs seen c Hz) as K. rewrite (Hz c), M in K.
          match goal with |- context [for_loop _ _ _ _ _ _ _ ?s1 _] => destruct (IH (acc ++ [(i, c)]) (Z.of_N c :: zs) (add c seen) s1 w) as (s' & E & T) end;
            [py; rewrite map_app; reflexivity|reflexivity|exact K|].
          rewrite <- app_assoc in T. exists s'. split; [exact E|exact T].
        * rewrite block_nil. py.
          rewrite block_cons, (exec_aug _ _ _ _ _ _ _ _ _ (VList (map vpair acc))) by (py; exact Ht). py. rewrite F2. py. rewrite !block_nil. py. rewrite block_nil.
          match goal with |- context [for_loop _ _ _ _ _ _ _ ?s1 _] => destruct (IH (acc ++ [(i, c)]) zs seen s1 w) as (s' & E & T) end;
            [py; rewrite map_app; reflexivity|exact Hs|exact Hz|].
          rewrite <- app_assoc in T. exists s'. split; [exact E|exact T].
  Qed.

  Lemma big5_dedup_ok table s w : s "table" = Some (VList (map vpair table)) -> s "set" = None ->
    block dir call fuel (f_body b_dedup) ["table"] s w = Return (VList (map vpair (big5_deduped_table table))) w.
  Proof.
    intros Ht Hset. rewrite b_dedup_parts, block_app. unfold b_dedup_start. rewrite block_cons, exec_str. py.
    rewrite block_cons, exec_assign.
    rewrite (comp_ok _ _ _ _ _ _ _ _ (VList (map vpair table)) table vpair (fun _ => true) vpair); [|py; rewrite Ht; reflexivity|reflexivity|].
    2: { intros x. eexists. split; [reflexivity|]. repeat split. }
    assert (F : filter (fun _ => true) table = table) by (clear; induction table as [|x l IH]; cbn [filter]; [|rewrite IH]; reflexivity).
    rewrite F. py. rewrite block_cons, (exec_change0 _ _ _ _ _ _ _ _ (VList (map vpair table)) (VList (map vpair (rev' table)))); [|reflexivity|reflexivity|reflexivity|].
    2: { cbn [change]. py. f_equal. f_equal. apply rev'_map. }
    py. rewrite block_cons, exec_assign. py. rewrite block_cons, exec_assign. py. rewrite Hset, no_set. py. rewrite block_nil. py.
    rewrite block_cons, (for_list _ _ _ _ _ _ _ _ _ (VList (map vpair (rev' table))) (map vpair (rev' table))) by reflexivity.
    match goal with |- context [for_loop _ _ _ _ _ ?fr _ ?s1 _] =>
      destruct (last_loop fr (rev' table) eq_refl eq_refl [] [] empty s1 w eq_refl eq_refl same_empty) as (s2 & E2 & T2);
      pose proof (for_keeps _ _ _ _ _ _ _ _ _ _ _ E2) as K2 end.
    rewrite E2. py. rewrite block_app. unfold b_dedup_middle.
    assert (Hset2 : s2 "set" = None) by (destruct (K2 "set" eq_refl) as [H|H]; cbn in H; rewrite Hset in H; [exact H|discriminate]).
    rewrite block_cons, (exec_change0 _ _ _ _ _ _ _ _ _ (VList (map vpair (rev' (dedup_last empty (rev' table))))) T2); [|reflexivity|reflexivity|].
    2: { cbn [change app]. py. f_equal. f_equal. apply rev'_map. }
    py. rewrite block_cons, exec_assign. py. rewrite block_cons, exec_assign. py. rewrite Hset2, no_set. py. rewrite block_nil. py.
    rewrite block_cons, (for_list _ _ _ _ _ _ _ _ _ _ (map vpair (rev' (dedup_last empty (rev' table))))) by reflexivity.
    match goal with |- context [for_loop _ _ _ _ _ ?fr _ ?s1 _] =>
      destruct (first_loop fr (rev' (dedup_last empty (rev' table))) eq_refl eq_refl [] [] empty s1 w eq_refl eq_refl same_empty) as (s3 & E3 & T3) end.
    rewrite E3. py. unfold dedup_end. rewrite block_cons, exec_return. py. rewrite T3. py. reflexivity.
  Qed.

  Lemma sjis_dedup_ok table s w : s "table" = Some (VList (map vpair table)) -> s "set" = None ->
    block dir call fuel (f_body s_dedup) ["table"] s w = Return (VList (map vpair (sjis_deduped_table table))) w.
  Proof.
    intros Ht Hset. rewrite s_dedup_parts, block_app. unfold s_dedup_start. rewrite block_cons, exec_str. py.
    rewrite block_cons, exec_assign.
    rewrite (comp_ok _ _ _ _ _ _ _ _ (VList (map vpair table)) table vpair (fun ic => (fst ic <? 8272) || (8835 <? fst ic))%N vpair);
      [|py; rewrite Ht; reflexivity|reflexivity|].
    2: { intros [i c]. unfold vpair. py. eexists. split; [reflexivity|]. py. split; [|split; reflexivity].
         assert (E : (Z.of_N i <? 8272)%Z = (i <? 8272)%N) by lia. assert (E' : (8835 <? Z.of_N i)%Z = (8835 <? i)%N) by lia.
         rewrite E, E'. destruct (i <? 8272)%N; py; reflexivity. }
    py. rewrite block_cons, exec_assign. py. rewrite block_cons, exec_assign. py. rewrite Hset, no_set. py. rewrite block_nil. py.
    unfold sjis_deduped_table. set (l := filter _ table).
    rewrite block_cons, (for_list _ _ _ _ _ _ _ _ _ (VList (map vpair l)) (map vpair l)) by reflexivity.
    match goal with |- context [for_loop _ _ _ _ _ ?fr _ ?s1 _] =>
      destruct (first_loop fr l eq_refl eq_refl [] [] empty s1 w eq_refl eq_refl same_empty) as (s3 & E3 & T3) end.
    rewrite E3. py. unfold dedup_end. rewrite block_cons, exec_return. py. rewrite T3. py. reflexivity.
  Qed.
End Dedup.
