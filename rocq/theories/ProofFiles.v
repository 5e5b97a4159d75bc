(* Checking by computation that the text files in the repository are in the documented format and what they mean. *)
From Coq Require Import List NArith Arith Bool Lia.
From Verif Require Import Encodings Spec SpecFiles FileText RefSingle TabSingle RustCore ModelSingleByte ModelGen ModelScripts.
From Verif Require Import Tac ProofUtf8 ProofGen ProofScripts.
Import ListNotations.
Local Open Scope N_scope.

(* equality with a tail call, for long lists *)
Fixpoint same (a b : list N) : bool :=
  match a, b with [], [] => true | x :: a, y :: b => if x =? y then same a b else false | _, _ => false end.
Lemma same_ok : forall a b, same a b = true -> a = b.
Proof.
  induction a as [|x a IH]; intros [|y b] H; cbn in H; try discriminate; [reflexivity|].
  destruct (N.eqb_spec x y); [|discriminate]. f_equal; [assumption|apply IH, H].
Qed.
Fixpoint same_pairs (a b : list (N * N)) : bool :=
  match a, b with
  | [], [] => true
  | (x, y) :: a, (x', y') :: b => if (x =? x') && (y =? y') then same_pairs a b else false
  | _, _ => false
  end.
Lemma same_pairs_ok : forall a b, same_pairs a b = true -> a = b.
Proof.
  induction a as [|[x y] a IH]; intros [|[x' y'] b] H; cbn in H; try discriminate; [reflexivity|].
  destruct ((x =? x') && (y =? y')) eqn:E; [|discriminate]. f_equal; [f_equal; lia|apply IH, H].
Qed.

(** ** Lines *)

(* a reading of bytes as UTF-8, to be checked *)
Fixpoint guess (bs : list N) : list N :=
  match bs with
  | [] => []
  | a :: r =>
      if a <? 0x80 then a :: guess r
      else match r with
      | [] => []
      | b :: r =>
          if a <? 0xE0 then ((a - 0xC0) * 64 + (b - 0x80)) :: guess r
          else match r with
          | [] => []
          | c :: r =>
              if a <? 0xF0 then (((a - 0xE0) * 64 + (b - 0x80)) * 64 + (c - 0x80)) :: guess r
              else match r with
              | [] => []
              | d :: r => ((((a - 0xF0) * 64 + (b - 0x80)) * 64 + (c - 0x80)) * 64 + (d - 0x80)) :: guess r
              end
          end
      end
  end.

Definition line_chars (l : line) : option (list N) :=
  let cs := guess (str l) in
  if same (utf8 cs) (str l) && forallb (fun c => is_scalar c && negb (c =? 10) && negb (c =? 13)) cs then Some cs else None.
Lemma line_chars_ok l cs : line_chars l = Some cs -> str l = utf8 cs /\ text cs /\ ~ In 10 cs /\ ~ In 13 cs.
Proof.
  unfold line_chars. cbv zeta. set (g := guess (str l)). clearbody g. intros H.
  destruct (same (utf8 g) (str l) && _) eqn:E; [|discriminate]. assert (g = cs) by congruence. subst g.
  apply andb_prop in E. destruct E as [E1 E2]. rewrite forallb_forall in E2.
  split; [symmetry; apply same_ok, E1|]. split.
  - apply Forall_forall. intros c Hc. apply E2 in Hc. unfold is_scalar in Hc. unfold scalar. lia.
  - split; intros Hc; apply E2 in Hc; rewrite andb_false_r in Hc; try discriminate Hc; cbn in Hc; lia.
Qed.

Fixpoint read_lines (parse : list N -> option (option (N * N))) (ls : list line) : option (list (N * N)) :=
  match ls with
  | [] => Some []
  | l :: r =>
      match line_chars l with
      | Some cs =>
          match parse cs with
          | Some m =>
              match read_lines parse r with
              | Some t => Some (match m with Some e => e :: t | None => t end)
              | None => None
              end
          | None => None
          end
      | None => None
      end
  end.
Lemma read_lines_ok (M : list N -> option (N * N) -> Prop) parse : (forall l m, parse l = Some m -> M l m) ->
  forall ls t, read_lines parse ls = Some t -> exists cs, contents ls = utf8 cs /\ text cs /\ FileLines M cs t.
Proof.
  intros HM. induction ls as [|l ls IH]; intros t H; cbn [read_lines] in H.
  - assert (t = []) by congruence. subst t. exists []. split; [reflexivity|]. split; constructor.
  - destruct (line_chars l) as [cs|] eqn:E; [|discriminate]. destruct (parse cs) as [m|] eqn:Em; [|discriminate].
    destruct (read_lines parse ls) as [t'|]; [|discriminate]. destruct (IH t' eq_refl) as (cs' & E1 & E2 & E3).
    apply line_chars_ok in E. destruct E as (L1 & L2 & L3 & L4). apply HM in Em.
    exists (cs ++ [10] ++ cs'). unfold contents in *. cbn [flat_map]. rewrite E1, L1. split; [|split].
    + rewrite !utf8_app, app_assoc. reflexivity.
    + apply Forall_app. split; [exact L2|]. constructor; [left; lia|exact E2].
    + replace t with (match m with Some e => [e] | None => [] end ++ t') by (destruct m; cbn [app]; congruence).
      apply File_line; auto. left. reflexivity.
Qed.

(** ** Fields *)

Lemma span_ok p s : forall a b, span p s = (a, b) -> s = a ++ b /\ Forall (fun c => p c = true) a.
Proof.
  induction s as [|c s IH]; intros a b H; cbn [span] in H.
  - assert (a = []) by congruence. assert (b = []) by congruence. subst. split; [reflexivity|constructor].
  - destruct (p c) eqn:E.
    + destruct (span p s) as [a' b']. destruct (IH a' b' eq_refl) as [E1 E2].
      assert (a = c :: a') by congruence. assert (b = b') by congruence. subst a b s. split; [reflexivity|constructor; assumption].
    + assert (a = []) by congruence. assert (b = c :: s) by congruence. subst. split; [reflexivity|constructor].
Qed.

Definition blank (c : N) : bool := (c =? 32) || (c =? 9).
Lemma blank_ok s : Forall (fun c => blank c = true) s -> blanks s.
Proof. apply Forall_impl. unfold blank, white. cbn [In]. intros c H. lia. Qed.

Lemma is_digit_Digit base c : base <= 16 -> is_digit base c = true -> Digit base c (match digit_of c with Some d => d | None => 0 end).
Proof.
  intros Hb. unfold is_digit, digit_of, Digit.
  destruct ((48 <=? c) && (c <=? 57)) eqn:E1; [|destruct ((65 <=? c) && (c <=? 70)) eqn:E2; [|destruct ((97 <=? c) && (c <=? 102)) eqn:E3; [|discriminate]]]; lia.
Qed.
Lemma digits_Numeral base ds : base <= 16 -> ds <> [] -> Forall (fun c => is_digit base c = true) ds -> Numeral base ds (value base ds).
Proof.
  intros Hb. induction ds as [|c ds IH] using rev_ind; intros Hn H; [congruence|]. apply Forall_app in H. destruct H as [H Hc].
  inversion Hc as [|? ? Hc' _]. subst. apply is_digit_Digit in Hc'; [|exact Hb]. rewrite value_app. cbn [fold_left].
  set (d := match digit_of c with Some d => d | None => 0 end) in *. clearbody d. destruct ds as [|c' ds].
  - apply Numeral_one. exact Hc'.
  - apply Numeral_more; [|exact Hc']. apply IH; [discriminate|exact H].
Qed.

Definition rest_ok (s : list N) : bool := match s with [] => true | c :: _ => blank c end.
Lemma rest_ok_ok s : rest_ok s = true -> rest_of_line s.
Proof. destruct s as [|c s]; intros H; [left; reflexivity|]. right. exists c, s. split; [reflexivity|]. cbn in H. unfold blank in H. unfold white. cbn [In]. lia. Qed.

(* 0x... *)
Definition hex_field (s : list N) : option (N * list N) :=
  match s with
  | z :: x :: r =>
      if (z =? 48) && (x =? 120) then
        match span (is_digit 16) r with ([], _) => None | (ds, r') => Some (value 16 ds, r') end
      else None
  | _ => None
  end.
Lemma hex_field_ok s n r : hex_field s = Some (n, r) -> exists f, s = f ++ r /\ Hex f n.
Proof.
  intros H. destruct s as [|z [|x s]]; try discriminate H. cbn [hex_field] in H. destruct ((z =? 48) && (x =? 120)) eqn:E; [|discriminate].
  destruct (span (is_digit 16) s) as [ds r'] eqn:S. apply span_ok in S. destruct S as [S1 S2]. destruct ds as [|c ds]; [discriminate|].
  assert (value 16 (c :: ds) = n) by congruence. assert (r' = r) by congruence. subst n r' s.
  assert (z = 48) by lia. assert (x = 120) by lia. subst z x. exists (48 :: 120 :: c :: ds). split; [reflexivity|].
  exists (c :: ds). split; [reflexivity|]. apply digits_Numeral; [lia|discriminate|exact S2].
Qed.

Definition second_field (s : list N) : option N :=
  match hex_field s with Some (c, r) => if rest_ok r then Some c else None | None => None end.
Lemma second_field_ok s c : second_field s = Some c -> exists f r, s = f ++ r /\ Hex f c /\ rest_of_line r.
Proof.
  unfold second_field. intros H. destruct (hex_field s) as [[c' r]|] eqn:E; [|discriminate]. destruct (rest_ok r) eqn:R; [|discriminate].
  assert (c' = c) by congruence. subst c'. apply hex_field_ok in E. destruct E as (f & E & F). exists f, r.
  split; [exact E|]. split; [exact F|]. apply rest_ok_ok, R.
Qed.

Definition parse_index (l : list N) : option (option (N * N)) :=
  match span blank l with
  | (_, []) => Some None
  | (_, c :: r) =>
      if c =? 35 then Some None
      else
        match span (is_digit 10) (c :: r) with
        | ([], _) => None
        | (f1, r) =>
            match span blank r with
            | ([], _) => None
            | (_, r) => match second_field r with Some u => Some (Some (value 10 f1, u)) | None => None end
            end
        end
  end.
Lemma parse_index_ok l m : parse_index l = Some m -> IndexLine l m.
Proof.
  unfold parse_index. intros H. destruct (span blank l) as [s1 r] eqn:S1. apply span_ok in S1. destruct S1 as [-> B1]. apply blank_ok in B1.
  destruct r as [|c r].
  - assert (m = None) by congruence. subst m. rewrite app_nil_r. apply Index_empty, B1.
  - destruct (N.eqb_spec c 35) as [->|Hc].
    + assert (m = None) by congruence. subst m. apply Index_comment, B1.
    + destruct (span (is_digit 10) (c :: r)) as [f1 r1] eqn:S2. apply span_ok in S2. destruct S2 as [-> B2].
      destruct f1 as [|d f1]; [discriminate|]. destruct (span blank r1) as [s2 r2] eqn:S3. apply span_ok in S3. destruct S3 as [-> B3]. apply blank_ok in B3.
      destruct s2 as [|b s2]; [discriminate|]. destruct (second_field r2) as [u|] eqn:F; [|discriminate].
      apply second_field_ok in F. destruct F as (f2 & r3 & -> & F1 & F2).
      assert (m = Some (value 10 (d :: f1), u)) by congruence. subst m.
      apply Index_entry; auto; try discriminate. apply digits_Numeral; [lia|discriminate|exact B2].
Qed.

Definition parse_mapping (l : list N) : option (option (N * N)) :=
  match span blank l with
  | (_, []) => Some None
  | (_, c :: r) =>
      if c =? 35 then Some None
      else
        match hex_field (c :: r) with
        | None => None
        | Some (b, r) =>
            match span blank r with
            | ([], _) => None
            | (_, []) => None
            | (_, c :: r) =>
                if c =? 35 then Some None
                else match second_field (c :: r) with Some u => Some (Some (b, u)) | None => None end
            end
        end
  end.
Lemma parse_mapping_ok l m : parse_mapping l = Some m -> MappingLine l m.
Proof.
  unfold parse_mapping. intros H. destruct (span blank l) as [s1 r] eqn:S1. apply span_ok in S1. destruct S1 as [-> B1]. apply blank_ok in B1.
  destruct r as [|c r].
  - assert (m = None) by congruence. subst m. rewrite app_nil_r. apply Mapping_empty, B1.
  - destruct (N.eqb_spec c 35) as [->|Hc].
    + assert (m = None) by congruence. subst m. apply Mapping_comment, B1.
    + destruct (hex_field (c :: r)) as [[b r1]|] eqn:F0; [|discriminate]. apply hex_field_ok in F0. destruct F0 as (f1 & -> & F0).
      destruct (span blank r1) as [s2 r2] eqn:S3. apply span_ok in S3. destruct S3 as [-> B3]. apply blank_ok in B3.
      destruct s2 as [|b' s2]; [discriminate|]. destruct r2 as [|c2 r2]; [discriminate|]. destruct (N.eqb_spec c2 35) as [->|Hc2].
      * assert (m = None) by congruence. subst m. eapply Mapping_undefined; eauto. discriminate.
      * destruct (second_field (c2 :: r2)) as [u|] eqn:F; [|discriminate].
        apply second_field_ok in F. destruct F as (f2 & r3 & E & F1 & F2). rewrite E.
        assert (m = Some (b, u)) by congruence. subst m. apply Mapping_entry; auto. discriminate.
Qed.

(** ** Comparing with tables *)

Definition undef (c : N) : option N := if c =? 0xFFFD then None else Some c.
Lemma undef_written d : ~ In (Some 0xFFFD) d -> map undef (map written d) = d.
Proof.
  induction d as [|o d IH]; intros H; [reflexivity|]. cbn [map]. rewrite IH by (intros Hx; apply H; right; exact Hx). f_equal.
  destruct o as [c|]; [|reflexivity]. cbn [written]. unfold undef. destruct (N.eqb_spec c 0xFFFD) as [->|]; [|reflexivity].
  exfalso. apply H. left. reflexivity.
Qed.

Definition scalar_pairs (t : list (N * N)) : bool := forallb (fun e => is_scalar (snd e) && negb (snd e =? 0xFFFD)) t.
Lemma scalar_pairs_ok t : scalar_pairs t = true -> ~ In 0xFFFD (map snd t) /\ forall p c, In (p, c) t -> scalar c.
Proof.
  unfold scalar_pairs. intros H. rewrite forallb_forall in H. split.
  - intros Hx. apply in_map_iff in Hx. destruct Hx as ([p c] & E & Hx). apply H in Hx. cbn [snd] in *. subst c. discriminate Hx.
  - intros p c Hx. apply H in Hx. cbn [snd] in Hx. unfold is_scalar in Hx. unfold scalar. lia.
Qed.
Definition scalar_entries (t : list (N * (N * N))) : bool :=
  forallb (fun e => is_scalar (fst e) && (fst (snd e) <? 256) && (snd (snd e) <? 256)) t.
Lemma scalar_entries_ok t : scalar_entries t = true -> Forall (fun e => scalar (fst e) /\ fst (snd e) < 0x1000000 /\ snd (snd e) < 0x1000000) t.
Proof.
  unfold scalar_entries. intros H. rewrite forallb_forall in H. apply Forall_forall. intros e He. apply H in He.
  unfold is_scalar in He. unfold scalar. lia.
Qed.
Lemma check_ascii_incl n : forall i t t', check_ascii n i t = Some t' -> forall x, In x t' -> In x t.
Proof.
  induction n as [|n IH]; intros i t t' H x Hx; cbn [check_ascii] in H.
  - assert (t = t') by congruence. subst t'. exact Hx.
  - destruct t as [|[b c] t]; [discriminate|]. destruct ((b =? i) && (c =? i)); [|discriminate]. right. exact (IH _ _ _ H x Hx).
Qed.

Lemma read_checked (M : list N -> option (N * N) -> Prop) parse ls t : (forall l m, parse l = Some m -> M l m) ->
  match read_lines parse ls with Some t' => same_pairs t' t | None => false end = true ->
  exists cs, contents ls = utf8 cs /\ text cs /\ FileLines M cs t.
Proof.
  intros HM H. destruct (read_lines parse ls) as [t'|] eqn:E; [|discriminate]. apply same_pairs_ok in H. subst t'.
  exact (read_lines_ok M parse HM ls t E).
Qed.

Definition module_files_ok (m : sb_module) : bool :=
  match m with
  | ascii => true
  | _ =>
      match read_lines parse_mapping (mapping_txt m) with Some t => same_pairs t (charset m) | None => false end &&
      same (py_encode (ascii_ext_text (map undef (sb_decode_table m)) (sb_encode_table m))) (contents (tables_inc m)) &&
      (scalar_pairs (charset m) && (length (sb_decode_table m) =? 128)%nat &&
       forallb (fun e => is_scalar (fst e) && (snd e <? 256)) (sb_encode_table m))
  end.
