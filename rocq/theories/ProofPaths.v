(* Lemmas about the scripts as programs on files. *)
From Coq Require Import String List NArith Arith Bool Lia.
From Verif Require Import Encodings Spec SpecPaths Prelude RustCore ModelGen ModelScripts ModelTests ModelFiles.
From Verif Require Import Tac Tables ProofUtf8 ProofGen ProofTests PropGen.
Import ListNotations.
Local Open Scope N_scope.

Lemma write_same f p c : write f p c p = Some c.
Proof. unfold write. destruct (list_eq_dec string_dec p p); congruence. Qed.
Lemma write_other f p c q : p <> q -> write f p c q = f q.
Proof. unfold write. destruct (list_eq_dec string_dec p q); congruence. Qed.

(** ** The single-byte script *)

Definition call_in (c : string * string) : path := at_ single_byte_dir (fst c).
Definition call_out (c : string * string) : path := at_ single_byte_dir (snd c).

Definition single_modules : list sb_module := tl all_modules.
Lemma single_modules_In m : In m single_modules <-> m <> ascii.
Proof.
  split.
  - intros H E. subst m. unfold single_modules, all_modules in H. cbn [tl In] in H.
    repeat (destruct H as [H|H]; [discriminate H|]). exact H.
  - intros H. pose proof (all_modules_In m) as Hm. change all_modules with (ascii :: single_modules) in Hm. destruct Hm as [E|Hm]; [congruence|exact Hm].
Qed.

Lemma calls_paths : map (fun c => (call_in c, call_out c)) single_byte_calls = map (fun m => (mapping_path m, tables_path m)) single_modules.
Proof. vm_compute. reflexivity. Qed.

Lemma tables_path_inj m m' : tables_path m = tables_path m' -> m = m'.
Proof.
  assert (H : forallb (fun m => forallb (fun m' => if list_eq_dec string_dec (tables_path m) (tables_path m') then
     if list_eq_dec string_dec [file_name m] [file_name m'] then true else false else true) all_modules) all_modules = true) by (vm_compute; reflexivity).
  assert (G : forall m m', file_name m = file_name m' -> m = m').
  { intros a b. destruct a, b; intros E; try reflexivity; vm_compute in E; discriminate E. }
  intros E. apply G. rewrite forallb_forall in H. specialize (H m (all_modules_In m)). rewrite forallb_forall in H. specialize (H m' (all_modules_In m')).
  destruct (list_eq_dec string_dec (tables_path m) (tables_path m')) as [_|]; [|contradiction].
  destruct (list_eq_dec string_dec [file_name m] [file_name m']) as [E'|]; [congruence|discriminate].
Qed.

Lemma mapping_not_tables m m' : tables_path m <> mapping_path m'.
Proof. unfold tables_path, mapping_path. intros E. discriminate E. Qed.

(* what the loop does, in terms of the modules *)
Definition regenerated (f f' : files) (m : sb_module) : Prop :=
  exists file text, f (mapping_path m) = Some file /\ ascii_ext_script file = Some text /\ f' (tables_path m) = Some text.
(* the call for this module has raised the exception *)
Definition broken (f f' : files) (m : sb_module) : Prop :=
  (f (mapping_path m) = None /\ f' (tables_path m) = f (tables_path m)) \/
  (exists file, f (mapping_path m) = Some file /\ ascii_ext_script file = None /\ f' (tables_path m) = Some []).

Lemma run_calls_modules calls : forall ms f, map (fun c => (call_in c, call_out c)) calls = map (fun m => (mapping_path m, tables_path m)) ms -> NoDup ms ->
  match run_calls calls f with
  | Done f' => (forall m, In m ms -> regenerated f f' m) /\ (forall p, (forall m, In m ms -> p <> tables_path m) -> f' p = f p)
  | Raised f' => exists m before after, ms = (before ++ m :: after)%list /\ broken f f' m /\
      (forall m', In m' before -> regenerated f f' m') /\
      (forall p, (forall m', In m' (before ++ [m]) -> p <> tables_path m') -> f' p = f p)
  end.
Proof.
  induction calls as [|[i o] calls IH]; intros [|m ms] f E ND; try discriminate E.
  - cbn [run_calls]. split; [intros m []|reflexivity].
  - cbn [map] in E. assert (Ei : at_ single_byte_dir i = mapping_path m) by (unfold call_in in E; cbn [fst] in E; congruence).
    assert (Eo : at_ single_byte_dir o = tables_path m) by (unfold call_out in E; cbn [snd] in E; congruence).
    assert (E' : map (fun c => (call_in c, call_out c)) calls = map (fun m => (mapping_path m, tables_path m)) ms) by congruence.
    inversion ND as [|? ? Hm ND']; subst. specialize (IH ms). cbn [run_calls]. unfold generate_ascii_ext_file. rewrite Ei, Eo. clear E Ei Eo i o.
    destruct (f (mapping_path m)) as [file|] eqn:Ef; cbn [then_].
    2:{ exists m, [], ms. split; [reflexivity|]. split; [left; auto|]. split; [intros m' []|]. reflexivity. }
    rewrite write_other by apply mapping_not_tables. rewrite Ef.
    destruct (ascii_ext_script file) as [text|] eqn:Es; cbn [then_].
    2:{ exists m, [], ms. split; [reflexivity|]. split; [right; exists file; rewrite write_same; auto|]. split; [intros m' []|].
        intros p Hp. apply write_other. intros Ex. apply (Hp m); [left; reflexivity|congruence]. }
    set (f1 := write (write f (tables_path m) []) (tables_path m) text).
    assert (F1 : f1 (tables_path m) = Some text) by apply write_same.
    assert (F2 : forall p, p <> tables_path m -> f1 p = f p).
    { intros p Hp. unfold f1. rewrite !write_other by congruence. reflexivity. }
    clearbody f1. specialize (IH f1 E' ND').
    assert (Hmap : forall m', f1 (mapping_path m') = f (mapping_path m')).
    { intros m'. apply F2. intros Ex. symmetry in Ex. exact (mapping_not_tables _ _ Ex). }
    destruct (run_calls calls f1) as [f'|f'].
    + destruct IH as [I1 I2]. split.
      * intros m' [->|Hin].
        -- exists file, text. split; [exact Ef|]. split; [exact Es|]. rewrite <- F1. apply I2. intros x Hx Ex. apply tables_path_inj in Ex. congruence.
        -- destruct (I1 m' Hin) as (a & b & A & B). exists a, b. rewrite <- Hmap. auto.
      * intros p Hp. rewrite I2 by (intros x Hx; apply Hp; right; exact Hx). apply F2, Hp. left. reflexivity.
    + destruct IH as (x & before & after & E1 & B1 & R1 & U1). subst ms. exists x, (m :: before), after. split; [reflexivity|].
      assert (Hx : x <> m). { intros ->. apply Hm. apply in_or_app. right. left. reflexivity. }
      split; [|split].
      * unfold broken in B1 |- *. rewrite Hmap in B1. rewrite F2 in B1 by (intros Ex; apply tables_path_inj in Ex; congruence). exact B1.
      * intros m' [->|Hin].
        -- exists file, text. split; [exact Ef|]. split; [exact Es|]. rewrite <- F1. apply U1. intros y Hy Ey. apply tables_path_inj in Ey. subst y.
           apply Hm. apply in_or_app. apply in_app_or in Hy. destruct Hy as [Hy|[Hy|[]]]; [left; exact Hy|]. right. left. exact Hy.
        -- destruct (R1 m' Hin) as (a & b & A & B). exists a, b. rewrite <- Hmap. auto.
      * intros p Hp. rewrite U1 by (intros y Hy; apply Hp; right; exact Hy). apply F2, Hp. left. reflexivity.
Qed.

Lemma single_modules_NoDup : NoDup single_modules.
Proof.
  unfold single_modules, all_modules. cbn [tl].
  repeat (apply NoDup_cons; [cbn [In]; intros H; repeat (destruct H as [H|H]; [discriminate H|]); exact H|]). constructor.
Qed.

Lemma single_byte_main_ok f :
  match single_byte_main f with
  | Done f' => (forall m, m <> ascii -> regenerated f f' m) /\ (forall p, (forall m, m <> ascii -> p <> tables_path m) -> f' p = f p)
  | Raised f' => exists m, m <> ascii /\ broken f f' m /\
      (forall m', m' <> ascii -> m' <> m -> regenerated f f' m' \/ f' (tables_path m') = f (tables_path m')) /\
      (forall p, (forall m, m <> ascii -> p <> tables_path m) -> f' p = f p)
  end.
Proof.
  pose proof (run_calls_modules single_byte_calls single_modules f calls_paths single_modules_NoDup) as H. unfold single_byte_main.
  destruct (run_calls single_byte_calls f) as [f'|f'].
  - destruct H as [H1 H2]. split.
    + intros m Hm. apply H1, single_modules_In, Hm.
    + intros p Hp. apply H2. intros m Hm. apply Hp, single_modules_In, Hm.
  - destruct H as (m & before & after & E & B & R & U).
    assert (Hin : forall x, In x (before ++ [m]) -> x <> ascii).
    { intros x Hx. apply single_modules_In. rewrite E. apply in_or_app. apply in_app_or in Hx. destruct Hx as [Hx|[Hx|[]]]; [left; exact Hx|right; left; exact Hx]. }
    exists m. split; [apply Hin, in_or_app; right; left; reflexivity|]. split; [exact B|]. split.
    + intros m' Hm' Hne. destruct (in_dec (fun a b : sb_module => ltac:(decide equality)) m' before) as [Hb|Hb]; [left; apply R, Hb|].
      right. apply U. intros x Hx Ex. apply tables_path_inj in Ex. subst x. apply in_app_or in Hx. destruct Hx as [Hx|[Hx|[]]]; congruence.
    + intros p Hp. apply U. intros x Hx. apply Hp, Hin, Hx.
Qed.

(** ** The WHATWG scripts *)

(* lines of two files that belong together *)
Definition first_file (lines : list (list N * list N)) : list N := flat_map (fun l => fst l ++ [10]) lines.
Definition second_file (lines : list (list N * list N)) : list N := flat_map (fun l => snd l ++ [10]) lines.

Lemma write_lines_ok lines : forall a b x y, write_lines lines a b = (x, y, true) ->
  exists ls, lines = map (fun l => (Some (fst l), Some (snd l))) ls /\ x = (a ++ first_file ls)%list /\ y = (b ++ second_file ls)%list.
Proof.
  induction lines as [|[[u|] [v|]] lines IH]; intros a b x y H; cbn [write_lines] in H; try discriminate H.
  - exists []. cbn. rewrite !app_nil_r. split; [reflexivity|]. split; congruence.
  - destruct (IH _ _ _ _ H) as (ls & E1 & E2 & E3). exists ((u, v) :: ls). cbn [map fst snd first_file second_file flat_map]. rewrite E1. split; [reflexivity|].
    subst x y. unfold first_file, second_file. rewrite <- !app_assoc. split; reflexivity.
Qed.
Lemma write_lines_all ls : forall a b,
  write_lines (map (fun l => (Some (fst l), Some (snd l))) ls) a b = ((a ++ first_file ls)%list, (b ++ second_file ls)%list, true).
Proof.
  induction ls as [|[u v] ls IH]; intros a b; cbn [map write_lines fst snd first_file second_file flat_map].
  - rewrite !app_nil_r. reflexivity.
  - rewrite IH. unfold first_file, second_file. rewrite <- !app_assoc. reflexivity.
Qed.

Lemma first_in_file : first_file = in_file. Proof. reflexivity. Qed.
Lemma second_out_file : second_file = out_file. Proof. reflexivity. Qed.

Lemma py_bytes_Some l : Forall (fun b => b < 256) l -> py_bytes l = Some l.
Proof.
  intros H. unfold py_bytes. replace (forallb _ l) with true; [reflexivity|]. symmetry. apply forallb_forall. rewrite Forall_forall in H.
  intros x Hx. apply N.ltb_lt, H, Hx.
Qed.
Lemma py_bytes_inv l l' : py_bytes l = Some l' -> l' = l.
Proof. unfold py_bytes. destruct (forallb _ l); congruence. Qed.
Lemma py_chr_Some c : scalar c -> py_chr c = Some (utf8 [c]).
Proof.
  intros H. unfold py_chr. rewrite (utf8_one c H). unfold scalar in H.
  destruct ((c <? 0xD800) || ((0xDFFF <? c) && (c <=? 0x10FFFF))) eqn:E; [reflexivity|lia].
Qed.
Lemma py_chr_inv c l : py_chr c = Some l -> l = encode_utf8 c.
Proof. unfold py_chr. destruct ((c <? 0xD800) || ((0xDFFF <? c) && (c <=? 0x10FFFF))); congruence. Qed.

Lemma map_Some {A} (f : A -> option (list N) * option (list N)) (g : A -> list N * list N) (l : list A) ls :
  (forall x u v, f x = (Some u, Some v) -> g x = (u, v)) ->
  map f l = map (fun l => (Some (fst l), Some (snd l))) ls -> map g l = ls.
Proof.
  intros H. revert ls. induction l as [|x l IH]; intros [|[u v] ls] E; try discriminate E; [reflexivity|].
  cbn [map fst snd] in E. assert (Ex : f x = (Some u, Some v)) by congruence. cbn [map]. rewrite (H x u v Ex). f_equal. apply IH. congruence.
Qed.

(* the lines that the model of the script for its success case has (ModelTests.v) *)
Lemma map_app_split {A B} (h : A -> B) (l1 l2 : list B) ls : (l1 ++ l2 = map h ls)%list ->
  exists a b, ls = (a ++ b)%list /\ l1 = map h a /\ l2 = map h b.
Proof.
  revert ls. induction l1 as [|x l1 IH]; intros ls E.
  - exists [], ls. auto.
  - destruct ls as [|y ls]; [discriminate E|]. cbn [map app] in E. destruct (IH ls) as (a & b & -> & -> & ->); [congruence|].
    exists (y :: a), b. cbn [map app]. split; [reflexivity|]. split; [congruence|reflexivity].
Qed.

Lemma big5_lines_success table ls : big5_lines table = map (fun l => (Some (fst l), Some (snd l))) ls -> ls = big5_test_lines table.
Proof.
  unfold big5_lines, big5_test_lines. intros E. apply map_app_split in E. destruct E as (a & bc & -> & Ea & E).
  apply map_app_split in E. destruct E as (b & c & -> & Eb & Ec).
  f_equal; [|f_equal].
  - symmetry. apply (map_Some _ (fun b : N => ([b], [b]))) in Ea; [exact Ea|]. intros x u v H.
    assert (H1 : py_bytes [x] = Some u) by congruence. assert (H2 : py_bytes [x] = Some v) by congruence.
    apply py_bytes_inv in H1, H2. congruence.
  - symmetry. apply (map_Some _ (fun ic : N * N => (pair_bytes (big5_index_to_bytes (fst ic)), encode_utf8 (snd ic)))) in Eb; [exact Eb|].
    intros x u v H. assert (H1 : py_bytes (pair_bytes (big5_index_to_bytes (fst x))) = Some u) by congruence.
    assert (H2 : py_chr (snd x) = Some v) by congruence. apply py_bytes_inv in H1. apply py_chr_inv in H2. congruence.
  - symmetry. apply (map_Some _ (fun ics : N * (N * N) => (pair_bytes (big5_index_to_bytes (fst ics)), (encode_utf8 (fst (snd ics)) ++ encode_utf8 (snd (snd ics)))%list))) in Ec; [exact Ec|].
    intros x u v H. assert (H1 : py_bytes (pair_bytes (big5_index_to_bytes (fst x))) = Some u) by congruence.
    apply py_bytes_inv in H1. congruence.
Qed.
Lemma sjis_lines_success table ls : sjis_lines table = map (fun l => (Some (fst l), Some (snd l))) ls -> ls = sjis_test_lines table.
Proof.
  unfold sjis_lines, sjis_test_lines. intros E. apply map_app_split in E. destruct E as (a & b & -> & Ea & Eb). f_equal.
  - symmetry. apply (map_Some _ (fun b : N => ([b], encode_utf8 b))) in Ea; [exact Ea|]. intros x u v H.
    assert (H1 : py_bytes [x] = Some u) by congruence. assert (H2 : py_chr x = Some v) by congruence.
    apply py_bytes_inv in H1. apply py_chr_inv in H2. congruence.
  - symmetry. apply (map_Some _ (fun ic : N * N => (pair_bytes (sjis_index_to_bytes (fst ic)), encode_utf8 (snd ic)))) in Eb; [exact Eb|].
    intros x u v H. assert (H1 : py_bytes (pair_bytes (sjis_index_to_bytes (fst x))) = Some u) by congruence.
    assert (H2 : py_chr (snd x) = Some v) by congruence. apply py_bytes_inv in H1. apply py_chr_inv in H2. congruence.
Qed.

Lemma swapped_success l ls : swapped l = map (fun l : list N * list N => (Some (fst l), Some (snd l))) ls ->
  l = map (fun l => (Some (fst l), Some (snd l))) (map swap ls) /\ first_file ls = second_file (map swap ls) /\ second_file ls = first_file (map swap ls).
Proof.
  revert ls. induction l as [|[x y] l IH]; intros [|[u v] ls] E; try discriminate E.
  - auto.
  - unfold swapped in E. cbn [map fst snd] in E. destruct (IH ls) as (A & B & C); [unfold swapped; congruence|].
    change (map swap ((u, v) :: ls)) with ((v, u) :: map swap ls).
    cbn [map fst snd first_file second_file flat_map]. fold (first_file ls) (second_file ls) (first_file (map swap ls)) (second_file (map swap ls)).
    rewrite <- B, <- C, <- A. split; [|split; reflexivity]. f_equal. congruence.
Qed.

Lemma swap_swap ls : map swap (map swap ls) = ls.
Proof. rewrite map_map. rewrite <- (map_id ls) at 2. apply map_ext. intros [a b]. reflexivity. Qed.

Lemma big5_code_bytes p : p < 126 * 157 -> Forall (fun b => b < 256) (big5_code p).
Proof.
  intros H. unfold big5_code. cbv zeta. pose proof (N.mod_lt p 157 ltac:(lia)). pose proof (N.div_mod p 157 ltac:(lia)).
  set (q := p / 157) in *. set (r := p mod 157) in *. clearbody q r. destruct (N.ltb_spec r 0x3F); repeat constructor; lia.
Qed.
Lemma sjis_code_bytes p : p < 63 * 188 -> Forall (fun b => b < 256) (sjis_code p).
Proof.
  intros H. unfold sjis_code. cbv zeta. pose proof (N.mod_lt p 188 ltac:(lia)). pose proof (N.div_mod p 188 ltac:(lia)).
  set (q := p / 188) in *. set (r := p mod 188) in *. clearbody q r. destruct (N.ltb_spec q 0x1F), (N.ltb_spec r 0x3F); repeat constructor; lia.
Qed.

Lemma map_Some_intro {A} (f : A -> option (list N) * option (list N)) (g : A -> list N * list N) (l : list A) :
  (forall x, In x l -> f x = (Some (fst (g x)), Some (snd (g x)))) -> map f l = map (fun l => (Some (fst l), Some (snd l))) (map g l).
Proof. intros H. rewrite map_map. apply map_ext_in. exact H. Qed.

Lemma big5_lines_works table : (forall p c, In (p, c) table -> p < 126 * 157 /\ scalar c) ->
  big5_lines table = map (fun l => (Some (fst l), Some (snd l))) (big5_test_lines table).
Proof.
  intros H. unfold big5_lines, big5_test_lines. rewrite !map_app. apply f_equal2; [|apply f_equal2; [|reflexivity]].
  - apply map_Some_intro. intros b Hb. apply range1_in in Hb. cbn [fst snd].
    assert (Hb' : Forall (fun b => b < 256) [b]) by (apply Forall_cons; [lia|constructor]). rewrite (py_bytes_Some _ Hb'). reflexivity.
  - apply map_Some_intro. intros [p c] Hp. apply H in Hp. cbn [fst snd]. rewrite big5_bytes, py_bytes_Some by apply big5_code_bytes, Hp.
    rewrite py_chr_Some, utf8_one by apply Hp. reflexivity.
Qed.
Lemma sjis_lines_works table : (forall p c, In (p, c) table -> p < 63 * 188 /\ scalar c) ->
  sjis_lines table = map (fun l => (Some (fst l), Some (snd l))) (sjis_test_lines table).
Proof.
  intros H. unfold sjis_lines, sjis_test_lines. rewrite !map_app. apply f_equal2.
  - apply map_Some_intro. intros b Hb. apply range1_in in Hb. cbn [fst snd]. rewrite py_bytes_Some by (apply Forall_cons; [lia|constructor]).
    rewrite py_chr_Some, utf8_one by (left; lia). reflexivity.
  - apply map_Some_intro. intros [p c] Hp. apply H in Hp. cbn [fst snd]. rewrite sjis_bytes, py_bytes_Some by apply sjis_code_bytes, Hp.
    rewrite py_chr_Some, utf8_one by apply Hp. reflexivity.
Qed.
Lemma swapped_map ls : swapped (map (fun l : list N * list N => (Some (fst l), Some (snd l))) ls) = map (fun l => (Some (fst l), Some (snd l))) (map swap ls).
Proof. unfold swapped. rewrite !map_map. apply map_ext. intros [a b]. reflexivity. Qed.

(* the two main programs have the same form *)
Lemma whatwg_main_cases script lines dedup pin ptab pa pb pc pd i1 i2 t a b c d f :
  at_ whatwg_dir i1 = pin -> at_ whatwg_dir i2 = pin -> at_ whatwg_dir t = ptab ->
  at_ whatwg_dir a = pa -> at_ whatwg_dir b = pb -> at_ whatwg_dir c = pc -> at_ whatwg_dir d = pd ->
  ~ In pin [ptab; pa; pb; pc; pd] -> NoDup [ptab; pa; pb; pc; pd] ->
  match then_ (generate_tables_file script i1 t f) (generate_test_files lines dedup i2 a b c d) with
  | Done f' =>
      (exists file index text ls ls', f pin = Some file /\ load_file index_line file = Some index /\ script file = Some text /\
        f' ptab = Some text /\
        lines (sort pair_leb index) = map (fun l => (Some (fst l), Some (snd l))) ls /\
        lines (dedup (sort pair_leb index)) = map (fun l => (Some (fst l), Some (snd l))) ls' /\
        f' pa = Some (first_file ls) /\ f' pb = Some (second_file ls) /\ f' pc = Some (second_file ls') /\ f' pd = Some (first_file ls')) /\
      (forall p, ~ In p [ptab; pa; pb; pc; pd] -> f' p = f p)
  | Raised f' =>
      (forall file index text ls ls', f pin = Some file -> load_file index_line file = Some index -> script file = Some text ->
        lines (sort pair_leb index) = map (fun l => (Some (fst l), Some (snd l))) ls ->
        lines (dedup (sort pair_leb index)) = map (fun l => (Some (fst l), Some (snd l))) ls' -> False) /\
      (forall p, ~ In p [ptab; pa; pb; pc; pd] -> f' p = f p)
  end.
Proof.
  intros <- E2 <- <- <- <- <- Hin ND. unfold generate_tables_file, generate_test_files. rewrite E2. clear E2.
  set (pin := at_ whatwg_dir i1) in *. set (ptab := at_ whatwg_dir t) in *. set (pa := at_ whatwg_dir a) in *. set (pb := at_ whatwg_dir b) in *.
  set (pc := at_ whatwg_dir c) in *. set (pd := at_ whatwg_dir d) in *. clearbody pin ptab pa pb pc pd.
  cbn [In] in Hin. inversion ND as [|? ? N1 ND1]; subst. inversion ND1 as [|? ? N2 ND2]; subst. inversion ND2 as [|? ? N3 ND3]; subst.
  inversion ND3 as [|? ? N4 _]; subst. clear ND ND1 ND2 ND3. cbn [In] in N1, N2, N3, N4.
  destruct (f pin) as [file|] eqn:E1; cbn [then_]; [|split; [congruence|reflexivity]].
  destruct (script file) as [text|] eqn:E2; cbn [then_]; [|split; [intros; congruence|reflexivity]].
  rewrite write_other by (intuition congruence). rewrite E1.
  destruct (load_file index_line file) as [index|] eqn:E3; [|split; [intros; congruence|]].
  2:{ intros p Hp. cbn [In] in Hp. apply write_other. intuition congruence. }
  destruct (write_lines (lines (sort pair_leb index)) [] []) as [[x y] ok] eqn:E4. destruct ok.
  2:{ split.
      - intros file0 index0 text0 ls ls' F1 F2 F3 F4 _. assert (file0 = file) by congruence. subst file0. assert (index0 = index) by congruence. subst index0.
        rewrite F4, write_lines_all in E4. congruence.
      - intros p Hp. cbn [In] in Hp. rewrite !write_other by (intuition congruence). reflexivity. }
  apply write_lines_ok in E4. destruct E4 as (ls & L1 & L2 & L3). cbn [app] in L2, L3.
  destruct (write_lines (swapped (lines (dedup (sort pair_leb index)))) [] []) as [[u v] ok] eqn:E5. destruct ok.
  2:{ split.
      - intros file0 index0 text0 ls0 ls' F1 F2 F3 _ F4. assert (file0 = file) by congruence. subst file0. assert (index0 = index) by congruence. subst index0.
        rewrite F4, swapped_map, write_lines_all in E5. congruence.
      - intros p Hp. cbn [In] in Hp. rewrite !write_other by (intuition congruence). reflexivity. }
  apply write_lines_ok in E5. destruct E5 as (ls' & M1 & M2 & M3). cbn [app] in M2, M3. apply swapped_success in M1. destruct M1 as (M1 & M4 & M5).
  split.
  - exists file, index, text, ls, (map swap ls'). split; [reflexivity|]. split; [exact E3|]. split; [exact E2|].
    rewrite <- M4, <- M5, <- M2, <- M3, <- L2, <- L3.
    split; [rewrite 4 write_other by (intuition congruence); rewrite write_same; reflexivity|]. split; [exact L1|]. split; [exact M1|].
    split; [rewrite 3 write_other by (intuition congruence); rewrite write_same; reflexivity|].
    split; [rewrite 2 write_other by (intuition congruence); rewrite write_same; reflexivity|].
    split; [rewrite write_other by (intuition congruence); rewrite write_same; reflexivity|]. rewrite write_same. reflexivity.
  - intros p Hp. cbn [In] in Hp. rewrite !write_other by (intuition congruence). reflexivity.
Qed.
