(* The model with machine integers agrees with the model proper. *)
From Coq Require Import List NArith Arith Bool Lia.
From Verif Require Import Encodings Spec Prelude RustCore Types ModelApi ModelWord TabBig5 TabSjis.
From Verif Require Import ModelUtf8 ModelUtf16Le ModelUtf16Be EndianUtf16 ModelUtf32Le ModelUtf32Be EndianUtf32 ModelSingleByte ModelBig5 ModelShiftJis.
From Verif Require Import Tac ProofUtf8 Engine.
Import ListNotations.
Local Open Scope N_scope.

(** ** Operations *)

Lemma add_ok max a b : N.of_nat (a + b) <= max -> add_usz max a b = Ret (a + b)%nat.
Proof. intros H. unfold add_usz. btrue (N.of_nat (a + b) <=? max). reflexivity. Qed.

Lemma add_to_ok m a b : a + b <= m -> add_to m a b = Ret (a + b).
Proof. intros H. unfold add_to. btrue (a + b <=? m). reflexivity. Qed.

Lemma mul_to_ok m a b : a * b <= m -> mul_to m a b = Ret (a * b).
Proof. intros H. unfold mul_to. destruct (N.leb_spec (a * b) m); [reflexivity|lia]. Qed.

Lemma sub_ok a b : (b <= a)%nat -> sub_usz a b = Ret (a - b)%nat.
Proof. intros H. unfold sub_usz. btrue (b <=? a)%nat. reflexivity. Qed.

Lemma upd_inv {A} (l : list A) i v l' : upd l i v = Ret l' -> length l' = length l /\ (i < length l)%nat.
Proof.
  unfold upd. destruct (Nat.ltb_spec i (length l)) as [H|H]; intros E; [|discriminate E].
  assert (l' = firstn i l ++ v :: skipn (S i) l) as -> by congruence. split; [|exact H].
  rewrite app_length. cbn [length]. rewrite firstn_length, skipn_length. lia.
Qed.

Lemma copy_inv {A} (l : list A) a b s l' : copy_at l a b s = Ret l' -> length l' = length l /\ (b <= length l)%nat.
Proof.
  unfold copy_at. destruct (Nat.leb_spec a b) as [H|H]; [|intros E; discriminate E].
  destruct (Nat.leb_spec b (length l)) as [H1|H1]; [|intros E; discriminate E].
  destruct (Nat.eqb_spec (length s) (b - a)) as [H2|H2]; cbn [andb]; intros E; [|discriminate E].
  assert (l' = firstn a l ++ s ++ skipn b l) as -> by congruence. split; [|exact H1].
  rewrite !app_length, firstn_length, skipn_length. lia.
Qed.

Lemma sub_inv a b c : sub_chk a b = Ret c -> c <= a.
Proof. unfold sub_chk. destruct (b <=? a); intros H; [|discriminate H]. assert (c = a - b) as -> by congruence. lia. Qed.

Lemma encode_utf8_len c : (length (encode_utf8 c) <= 4)%nat.
Proof. unfold encode_utf8. repeat bcase; cbn [length]; lia. Qed.

Lemma len_utf16_le c : (len_utf16 c <= 2)%nat.
Proof. unfold len_utf16. bcase; lia. Qed.

Lemma lor_small a b k : a < 2 ^ k -> b < 2 ^ k -> N.lor a b < 2 ^ k.
Proof.
  intros Ha Hb. destruct (N.eq_dec (N.lor a b) 0) as [->|Hn]; [lia|].
  apply N.log2_lt_pow2; [lia|]. rewrite N.log2_lor.
  destruct (N.eq_dec a 0) as [->|Ha0].
  - rewrite N.lor_0_l in Hn. change (N.log2 0) with 0. rewrite N.max_0_l. apply N.log2_lt_pow2; lia.
  - destruct (N.eq_dec b 0) as [->|Hb0].
    + change (N.log2 0) with 0. rewrite N.max_0_r. apply N.log2_lt_pow2; lia.
    + apply N.log2_lt_pow2 in Ha; [|lia]. apply N.log2_lt_pow2 in Hb; [|lia]. lia.
Qed.

(** ** Loops with an invariant *)

Lemma loop_same {S R} (I : S -> Prop) (b1 b2 : S -> outcome (ctl S R)) :
  (forall s, I s -> b1 s = b2 s) -> (forall s s', I s -> b2 s = Ret (Continue s') -> I s') ->
  forall f s, I s -> loop f b1 s = loop f b2 s.
Proof.
  intros He Hp. induction f as [|f IH]; intros s Hs; [reflexivity|]. cbn [loop]. rewrite (He s Hs).
  destruct (b2 s) as [c| | |] eqn:E; [|reflexivity|reflexivity|reflexivity]. cbn [bind]. destruct c as [s'|s'|r]; [|reflexivity|reflexivity].
  apply IH, (Hp s s' Hs E).
Qed.

Lemma finish_same max input i : N.of_nat (length input) <= max -> w_finish_input max input i = finish_input input i.
Proof.
  intros HL. unfold w_finish_input, finish_input. destruct (Nat.ltb_spec (length input) i) as [H|H]; [reflexivity|].
  rewrite (loop_same (fun i => (i <= length input)%nat) _ (fun i => if is_char_boundary input i then Ret (Break i) else Ret (Continue (i + 1)%nat))); [reflexivity| | |exact H].
  - intros j Hj. destruct (is_char_boundary input j) eqn:E; [reflexivity|].
    assert (j <> length input). { intros ->. unfold is_char_boundary in E. rewrite Nat.eqb_refl, orb_true_r in E. discriminate E. }
    rewrite add_ok by lia. reflexivity.
  - intros j j' Hj. destruct (is_char_boundary input j) eqn:E; intros X; [discriminate X|].
    assert (j' = (j + 1)%nat) as -> by congruence.
    assert (j <> length input). { intros ->. unfold is_char_boundary in E. rewrite Nat.eqb_refl, orb_true_r in E. discriminate E. }
    lia.
Qed.

(** ** Encoders *)

Section Fixed.
Variable max : N.
Hypothesis Hmax : 65535 <= max.
Variable L : nat.
Hypothesis HL : N.of_nat L + 4 <= max.

(* state of an encoder: offsets are within the input, the output position within the buffer *)
Definition einv (st : enc_state) : Prop :=
  Forall (fun oc : nat * N => (fst oc < L)%nat) (es_itr st) /\ (es_out st <= length (es_buf st))%nat /\ N.of_nat (length (es_buf st)) + 4 <= max.

Ltac steps := repeat (first
  [ progress cbn [bind fst snd]
  | rewrite add_ok by lia
  | match goal with
    | |- ?x = ?x => reflexivity
    | |- bind ?m _ = bind ?m _ => let E := fresh "E" in destruct m eqn:E; [|reflexivity|reflexivity|reflexivity]
    | |- (if ?c then _ else _) = (if ?c then _ else _) => let E := fresh "E" in destruct c eqn:E
    end ]).

Ltac back H := repeat (first
  [ progress cbn [bind fst snd] in H
  | discriminate H
  | match type of H with
    | bind ?m _ = _ => let E := fresh "E" in destruct m eqn:E; [|discriminate H|discriminate H|discriminate H]
    | (if ?c then _ else _) = _ => let E := fresh "E" in destruct c eqn:E
    end ]).

Ltac updinv := repeat match goal with E : upd _ _ _ = Ret _ |- _ => apply upd_inv in E; destruct E end.

Lemma utf16_enc_same big st : einv st -> w_utf16_encode_body max big st = utf16_encode_body big st.
Proof.
  intros (Hi & Ho & Hb). destruct st as [[|[off c] itr] i o buf]; [reflexivity|]. cbn [es_itr es_in es_out es_buf] in *.
  apply Forall_cons_iff in Hi. destruct Hi as [Hi _]. cbn [fst] in Hi.
  unfold w_utf16_encode_body, utf16_encode_body. cbn [es_itr es_in es_out es_buf]. cbv zeta. steps.
Qed.

Lemma utf16_enc_inv big st st' : einv st -> utf16_encode_body big st = Ret (Continue st') -> einv st'.
Proof.
  intros (Hi & Ho & Hb). destruct st as [[|[off c] itr] i o buf]; [intros X; discriminate X|]. cbn [es_itr es_in es_out es_buf] in *.
  apply Forall_cons_iff in Hi. destruct Hi as [_ Hi]. unfold utf16_encode_body. cbn [es_itr es_in es_out es_buf]. cbv zeta. intros H.
  back H; updinv;
  match type of H with Ret (Continue ?s) = _ => assert (st' = s) as -> by congruence end; unfold einv; cbn [es_itr es_in es_out es_buf];
    (split; [exact Hi|lia]).
Qed.

Lemma utf32_enc_same big st : einv st -> w_utf32_encode_body max big st = utf32_encode_body big st.
Proof.
  intros (Hi & Ho & Hb). destruct st as [[|[off c] itr] i o buf]; [reflexivity|]. cbn [es_itr es_in es_out es_buf] in *.
  apply Forall_cons_iff in Hi. destruct Hi as [Hi _]. cbn [fst] in Hi.
  unfold w_utf32_encode_body, utf32_encode_body. cbn [es_itr es_in es_out es_buf]. cbv zeta. steps.
Qed.

Lemma utf32_enc_inv big st st' : einv st -> utf32_encode_body big st = Ret (Continue st') -> einv st'.
Proof.
  intros (Hi & Ho & Hb). destruct st as [[|[off c] itr] i o buf]; [intros X; discriminate X|]. cbn [es_itr es_in es_out es_buf] in *.
  apply Forall_cons_iff in Hi. destruct Hi as [_ Hi]. unfold utf32_encode_body. cbn [es_itr es_in es_out es_buf]. cbv zeta. intros H.
  back H; updinv;
  match type of H with Ret (Continue ?s) = _ => assert (st' = s) as -> by congruence end; unfold einv; cbn [es_itr es_in es_out es_buf];
    (split; [exact Hi|lia]).
Qed.

Lemma sb_enc_same t st : einv st -> w_ascii_ext_encode_body max t st = ascii_ext_encode_body t st.
Proof.
  intros (Hi & Ho & Hb). destruct st as [[|[off c] itr] i o buf]; [reflexivity|]. cbn [es_itr es_in es_out es_buf] in *.
  apply Forall_cons_iff in Hi. destruct Hi as [Hi _]. cbn [fst] in Hi.
  unfold w_ascii_ext_encode_body, ascii_ext_encode_body. cbn [es_itr es_in es_out es_buf]. cbv zeta. pose proof (len_utf8_pos c). steps; destruct a; steps.
Qed.

Lemma sb_enc_inv t st st' : einv st -> ascii_ext_encode_body t st = Ret (Continue st') -> einv st'.
Proof.
  intros (Hi & Ho & Hb). destruct st as [[|[off c] itr] i o buf]; [intros X; discriminate X|]. cbn [es_itr es_in es_out es_buf] in *.
  apply Forall_cons_iff in Hi. destruct Hi as [_ Hi]. unfold ascii_ext_encode_body. cbn [es_itr es_in es_out es_buf]. cbv zeta. intros H.
  back H; try (destruct a; [|discriminate H]; back H); updinv;
  match type of H with Ret (Continue ?s) = _ => assert (st' = s) as -> by congruence end; unfold einv; cbn [es_itr es_in es_out es_buf];
    (split; [exact Hi|lia]).
Qed.

Lemma big5_enc_same t ie st : einv st -> w_big5_encode_body max t ie st = big5_encode_body t ie st.
Proof.
  intros (Hi & Ho & Hb). destruct st as [[|[off c] itr] i o buf]; [reflexivity|]. cbn [es_itr es_in es_out es_buf] in *.
  apply Forall_cons_iff in Hi. destruct Hi as [Hi Hi2]. cbn [fst] in Hi.
  unfold w_big5_encode_body, big5_encode_body. cbn [es_itr es_in es_out es_buf]. cbv zeta. pose proof (len_utf8_pos c). steps.
  all: destruct a; steps. all: destruct itr as [|[off2 c2] itr2]; steps.
  apply Forall_cons_iff in Hi2. destruct Hi2 as [Hi2 _]. cbn [fst] in Hi2.
  destruct (map_grapheme c c2); steps.
Qed.

Lemma big5_enc_inv t ie st st' : einv st -> big5_encode_body t ie st = Ret (Continue st') -> einv st'.
Proof.
  intros (Hi & Ho & Hb). destruct st as [[|[off c] itr] i o buf]; [intros X; discriminate X|]. cbn [es_itr es_in es_out es_buf] in *.
  apply Forall_cons_iff in Hi. destruct Hi as [_ Hi]. unfold big5_encode_body. cbn [es_itr es_in es_out es_buf]. cbv zeta. intros H.
  back H; try (destruct a; [|discriminate H]; back H);
  try (destruct itr as [|[off2 c2] itr2]; [|destruct (map_grapheme c c2)]; back H); updinv;
  match type of H with Ret (Continue ?s) = _ => assert (st' = s) as -> by congruence end; unfold einv; cbn [es_itr es_in es_out es_buf];
    (split; [first [exact Hi|apply Forall_cons_iff in Hi; exact (proj2 Hi)]|lia]).
Qed.

Lemma eudc_same c : c <= 0xE757 -> w_sjis_eudc_bytes c = sjis_eudc_bytes c.
Proof.
  intros Hc. unfold w_sjis_eudc_bytes, sjis_eudc_bytes. unfold sub_chk. destruct (N.leb_spec 0xE000 c); [|reflexivity]. cbn [bind].
  rewrite add_to_ok by (unfold u32_max; lia). cbn [bind]. cbv zeta.
  rewrite add_to_ok by (unfold u32_max; destruct (_ <? 0x1F); lia). cbn [bind].
  rewrite add_to_ok by (unfold u32_max; destruct (_ <? 0x3F); lia). reflexivity.
Qed.

Lemma sjis_enc_same t st : einv st -> w_sjis_encode_body max t st = sjis_encode_body t st.
Proof.
  intros (Hi & Ho & Hb). destruct st as [[|[off c] itr] i o buf]; [reflexivity|]. cbn [es_itr es_in es_out es_buf] in *.
  apply Forall_cons_iff in Hi. destruct Hi as [Hi _]. cbn [fst] in Hi.
  unfold w_sjis_encode_body, sjis_encode_body. cbn [es_itr es_in es_out es_buf]. cbv zeta. pose proof (len_utf8_pos c).
  destruct (length buf <=? o)%nat; [reflexivity|]. destruct (c <=? 128); [steps|]. destruct (c =? 0xA5); [steps|]. destruct (c =? 0x203E); [steps|].
  destruct ((0xFF61 <=? c) && (c <=? 0xFF9F)) eqn:E1.
  { unfold sub_chk. destruct (0xFF61 <=? c) eqn:E2; [|reflexivity]. cbn [bind]. rewrite add_to_ok by (unfold u32_max; lia). steps. }
  rewrite add_ok by lia. cbn [bind]. destruct (o + 1 <? length buf)%nat; [|reflexivity].
  destruct ((0xE000 <=? c) && (c <=? 0xE757)) eqn:E3; [rewrite eudc_same by lia; steps|]. steps; destruct a0; steps.
Qed.

Lemma sjis_enc_inv t st st' : einv st -> sjis_encode_body t st = Ret (Continue st') -> einv st'.
Proof.
  intros (Hi & Ho & Hb). destruct st as [[|[off c] itr] i o buf]; [intros X; discriminate X|]. cbn [es_itr es_in es_out es_buf] in *.
  apply Forall_cons_iff in Hi. destruct Hi as [_ Hi]. unfold sjis_encode_body. cbn [es_itr es_in es_out es_buf]. cbv zeta. intros H.
  back H; try match type of H with match ?x with _ => _ end = _ => destruct x; [|discriminate H]; back H end; updinv;
  match type of H with Ret (Continue ?s) = _ => assert (st' = s) as -> by congruence end; unfold einv; cbn [es_itr es_in es_out es_buf];
    (split; [exact Hi|lia]).
Qed.

Lemma offsets_below cs : forall off, Forall (fun oc : nat * N => (fst oc < off + length (utf8 cs))%nat) (offsets off cs).
Proof.
  induction cs as [|c cs IH]; intros off; [constructor|]. cbn [offsets]. rewrite utf8_cons, app_length. pose proof (utf8_char_pos c).
  constructor; [cbn [fst]; lia|]. eapply Forall_impl; [|apply IH]. intros [a b] X. cbn [fst] in *. lia.
Qed.

Lemma run_encoder_same b1 b2 cs out :
  (forall st, einv st -> b1 st = b2 st) -> (forall st st', einv st -> b2 st = Ret (Continue st') -> einv st') ->
  text cs -> length (utf8 cs) = L -> N.of_nat (length out) + 4 <= max ->
  w_run_encoder max b1 (utf8 cs) out = run_encoder b2 (utf8 cs) out.
Proof.
  intros He Hp Ht Hl Ho. unfold w_run_encoder, run_encoder, char_indices. rewrite char_indices_offsets by exact Ht. cbn [bind].
  rewrite (loop_same einv b1 b2 He Hp).
  - destruct (loop _ b2 _) as [[st|[er buf]]| | |]; [|reflexivity|reflexivity|reflexivity|reflexivity]. cbn [bind].
    rewrite finish_same by lia. reflexivity.
  - split; [|cbn [es_out es_buf]; lia]. cbn [es_itr]. rewrite <- Hl. exact (offsets_below cs 0).
Qed.

(** ** Decoders *)

Lemma copy_same {T} (st : dec_state T) itr s k : (ds_in st + k <= L + 4)%nat -> (ds_out st <= length (ds_buf st))%nat ->
  N.of_nat (length (ds_buf st)) + 4 <= max -> (length s <= 4)%nat ->
  w_copy_string max st itr s k = copy_string st itr s k.
Proof.
  intros H1 H2 H3 H4. unfold w_copy_string, copy_string. rewrite add_ok by lia. cbn [bind].
  destruct (length (ds_buf st) <? ds_out st + length s)%nat; [reflexivity|]. cbn [bind].
  destruct (copy_at _ _ _ _); [|reflexivity|reflexivity|reflexivity]. cbn [bind]. rewrite add_ok by lia. reflexivity.
Qed.

Lemma copy_continue {T} (st : dec_state T) itr s k st' : copy_string st itr s k = Ret (Continue st') ->
  ds_itr st' = itr /\ ds_in st' = (ds_in st + k)%nat /\ length (ds_buf st') = length (ds_buf st) /\ (ds_out st' <= length (ds_buf st'))%nat.
Proof.
  unfold copy_string. destruct (length (ds_buf st) <? ds_out st + length s)%nat; intros H; [discriminate H|].
  destruct (copy_at _ _ _ _) eqn:E; cbn [bind] in H; [|discriminate H|discriminate H|discriminate H].
  apply copy_inv in E. assert (st' = DecState itr (ds_in st + k) (ds_out st + length s) a) as -> by congruence.
  cbn [ds_itr ds_in ds_out ds_buf]. split; [reflexivity|]. split; [reflexivity|]. split; [tauto|]. lia.
Qed.

(* state of a decoder that reads bytes *)
Definition binv (st : dec_state N) : Prop :=
  (ds_in st + length (ds_itr st) <= L)%nat /\ bytes (ds_itr st) /\ (ds_out st <= length (ds_buf st))%nat /\ N.of_nat (length (ds_buf st)) + 4 <= max.

(* state of a decoder that reads chunks *)
Definition cinv (st : dec_state (list N)) : Prop :=
  (ds_in st + length (concat (ds_itr st)) <= L)%nat /\ Forall bytes (ds_itr st) /\ (ds_out st <= length (ds_buf st))%nat /\ N.of_nat (length (ds_buf st)) + 4 <= max.

Lemma run_decoder_same {T} (I : dec_state T -> Prop) b1 b2 f itr out :
  (forall st, I st -> b1 st = b2 st) -> (forall st st', I st -> b2 st = Ret (Continue st') -> I st') ->
  I (DecState itr 0 0 out) -> run_decoder b1 f itr out = run_decoder b2 f itr out.
Proof. intros He Hp H0. unfold run_decoder. rewrite (loop_same I b1 b2 He Hp f _ H0). reflexivity. Qed.

Ltac csame := apply copy_same; cbn [ds_in ds_out ds_buf length]; [lia|assumption|assumption|first [apply encode_utf8_len|lia]].

Lemma sb_dec_same t st : binv st -> w_ascii_ext_decode_body max t st = ascii_ext_decode_body t st.
Proof.
  intros (Hi & Hy & Ho & Hb). destruct st as [[|b itr] i o buf]; [reflexivity|]. cbn [ds_itr ds_in ds_out ds_buf length] in *.
  unfold w_ascii_ext_decode_body, ascii_ext_decode_body. cbn [ds_itr ds_in ds_out ds_buf]. cbv zeta. steps. csame.
Qed.

Lemma sb_dec_inv t st st' : binv st -> ascii_ext_decode_body t st = Ret (Continue st') -> binv st'.
Proof.
  intros (Hi & Hy & Ho & Hb). destruct st as [[|b itr] i o buf]; [intros X; discriminate X|]. cbn [ds_itr ds_in ds_out ds_buf length] in *.
  apply Forall_cons_iff in Hy. destruct Hy as [_ Hy].
  unfold ascii_ext_decode_body. cbn [ds_itr ds_in ds_out ds_buf]. cbv zeta. intros H. back H.
  - updinv. match type of H with Ret (Continue ?s) = _ => assert (st' = s) as -> by congruence end. unfold binv. cbn [ds_itr ds_in ds_out ds_buf].
    split; [lia|]. split; [exact Hy|]. lia.
  - apply copy_continue in H. cbn [ds_in ds_out ds_buf] in H. destruct H as (H1 & H2 & H3 & H4). unfold binv. rewrite H1, H2.
    split; [lia|]. split; [exact Hy|]. lia.
Qed.

Lemma big5_dec_same t ie st : binv st -> w_big5_decode_body max t ie st = big5_decode_body t ie st.
Proof.
  intros (Hi & Hy & Ho & Hb). destruct st as [[|b1 itr] i o buf]; [reflexivity|]. cbn [ds_itr ds_in ds_out ds_buf length] in *.
  apply Forall_cons_iff in Hy. destruct Hy as [Hy1 Hy].
  unfold w_big5_decode_body, big5_decode_body. cbn [ds_itr ds_in ds_out ds_buf]. cbv zeta. steps.
  destruct itr as [|b2 itr2]; [steps|]. cbn [length] in Hi. apply Forall_cons_iff in Hy. destruct Hy as [Hy2 _].
  assert (Herr : forall buf' : list N,
    (let* b := add_usz max i (if b2 <=? 127 then 1%nat else 2%nat) in
     Ret (Return (S := dec_state N) (invalid_data i b o, buf'))) = Ret (Return (invalid_data i (i + (if (b2 <=? 127)%N then 1 else 2)) o, buf'))).
  { intros buf'. destruct (b2 <=? 127); steps. }
  steps; try apply Herr.
  match goal with E : sub_chk b1 0x81 = Ret a |- _ => apply sub_inv in E end. rewrite mul_to_ok by lia. cbn [bind].
  destruct (if b2 <? 0x7F then _ else _) as [tr| | |] eqn:Et; [|reflexivity|reflexivity|reflexivity].
  assert (Htr : tr < 256).
  { unfold sub_chk in Et. destruct (b2 <? 0x7F) eqn:X1; [destruct (0x40 <=? b2) eqn:X2|destruct (0x62 <=? b2) eqn:X2]; try discriminate Et;
      match type of Et with Ret ?v = _ => assert (tr = v) as -> by congruence end; lia. }
  cbn [bind]. rewrite add_to_ok by lia. cbn [bind]. steps; try csame.
  destruct (big5_grapheme_literal _) as [s|] eqn:Eg; [|apply Herr].
  apply copy_same; cbn [ds_in ds_out ds_buf]; [lia|assumption|assumption|].
  unfold big5_grapheme_literal in Eg. repeat match type of Eg with (if ?c then _ else _) = _ => destruct c; [assert (s = s) as _ by reflexivity;
    match type of Eg with Some ?v = _ => assert (s = v) as -> by congruence end; cbn [length]; lia|] end. discriminate Eg.
Qed.

Lemma big5_dec_inv t ie st st' : binv st -> big5_decode_body t ie st = Ret (Continue st') -> binv st'.
Proof.
  intros (Hi & Hy & Ho & Hb). destruct st as [[|b itr] i o buf]; [intros X; discriminate X|]. cbn [ds_itr ds_in ds_out ds_buf length] in *.
  apply Forall_cons_iff in Hy. destruct Hy as [_ Hy].
  assert (Hcopy : forall itr' s k, copy_string (DecState (b :: itr) i o buf) itr' s k = Ret (Continue st') ->
    (k + length itr' <= S (length itr))%nat -> bytes itr' -> binv st').
  { intros itr' s k H Hk Hb'. apply copy_continue in H. cbn [ds_in ds_out ds_buf] in H. destruct H as (H1 & H2 & H3 & H4). unfold binv. rewrite H1, H2.
    split; [lia|]. split; [exact Hb'|]. lia. }
  unfold big5_decode_body. cbn [ds_itr ds_in ds_out ds_buf]. cbv zeta. intros H.
  destruct (length buf <=? o)%nat; [discriminate H|]. destruct (b <=? 127).
  - back H. updinv. match type of H with Ret (Continue ?s) = _ => assert (st' = s) as -> by congruence end. unfold binv. cbn [ds_itr ds_in ds_out ds_buf].
    split; [lia|]. split; [exact Hy|]. lia.
  - destruct ((b =? 0x80) || (b =? 0xFF)); [discriminate H|]. destruct itr as [|b2 itr2]; [destruct (negb ie); discriminate H|].
    apply Forall_cons_iff in Hy. destruct Hy as [_ Hy]. cbn [length] in *.
    destruct (_ || _); [discriminate H|]. destruct (sub_chk b 0x81); cbn [bind] in H; [|discriminate H|discriminate H|discriminate H].
    destruct (if b2 <? 0x7F then _ else _); cbn [bind] in H; [|discriminate H|discriminate H|discriminate H].
    destruct (if _ <=? a * 157 + a0 then _ else _); cbn [bind] in H; [|discriminate H|discriminate H|discriminate H].
    destruct a1.
    + destruct (big5_grapheme_literal _); [|discriminate H]. apply Hcopy in H; [exact H|lia|exact Hy].
    + destruct (idx t _); cbn [bind] in H; [|discriminate H|discriminate H|discriminate H]. apply Hcopy in H; [exact H|lia|exact Hy].
Qed.

Lemma sjis_dec_same t ie st : binv st -> w_sjis_decode_body max t ie st = sjis_decode_body t ie st.
Proof.
  intros (Hi & Hy & Ho & Hb). destruct st as [[|b1 itr] i o buf]; [reflexivity|]. cbn [ds_itr ds_in ds_out ds_buf length] in *.
  apply Forall_cons_iff in Hy. destruct Hy as [Hy1 Hy].
  unfold w_sjis_decode_body, sjis_decode_body. cbn [ds_itr ds_in ds_out ds_buf]. cbv zeta.
  destruct (length buf <=? o)%nat; [reflexivity|]. destruct (b1 <=? 127); [steps|]. destruct (b1 =? 128); [steps|].
  destruct ((0xA1 <=? b1) && (b1 <=? 0xDF)).
  { rewrite add_to_ok by (unfold u32_max; lia). steps. csame. }
  destruct (_ || _); [steps|].
  destruct itr as [|b2 itr2]; [steps|]. cbn [length] in Hi. apply Forall_cons_iff in Hy. destruct Hy as [Hy2 _].
  assert (Herr : forall buf' : list N,
    (let* b := add_usz max i (if b2 <=? 127 then 1%nat else 2%nat) in
     Ret (Return (S := dec_state N) (invalid_data i b o, buf'))) = Ret (Return (invalid_data i (i + (if (b2 <=? 127)%N then 1 else 2)) o, buf'))).
  { intros buf'. destruct (b2 <=? 127); steps. }
  destruct (_ || _); [apply Herr|].
  set (lo := if b1 <? 0xA0 then 0x81 else 0xC1). set (tr := if b2 <? 0x7F then 0x40 else 0x41).
  unfold sub_chk at 1 4. destruct (N.leb_spec lo b1); [|reflexivity]. cbn [bind]. rewrite mul_to_ok by (unfold u32_max; lia). cbn [bind].
  rewrite add_to_ok by (unfold u32_max; lia). cbn [bind].
  unfold sub_chk at 1 3. destruct (N.leb_spec tr ((b1 - lo) * 188 + b2)); [|reflexivity]. cbn [bind].
  destruct (_ && _).
  - rewrite add_to_ok by (unfold u32_max; lia). steps. csame.
  - steps; [apply Herr|csame].
Qed.

Lemma sjis_dec_inv t ie st st' : binv st -> sjis_decode_body t ie st = Ret (Continue st') -> binv st'.
Proof.
  intros (Hi & Hy & Ho & Hb). destruct st as [[|b itr] i o buf]; [intros X; discriminate X|]. cbn [ds_itr ds_in ds_out ds_buf length] in *.
  apply Forall_cons_iff in Hy. destruct Hy as [_ Hy].
  assert (Hcopy : forall itr' s k, copy_string (DecState (b :: itr) i o buf) itr' s k = Ret (Continue st') ->
    (k + length itr' <= S (length itr))%nat -> bytes itr' -> binv st').
  { intros itr' s k H Hk Hb'. apply copy_continue in H. cbn [ds_in ds_out ds_buf] in H. destruct H as (H1 & H2 & H3 & H4). unfold binv. rewrite H1, H2.
    split; [lia|]. split; [exact Hb'|]. lia. }
  unfold sjis_decode_body. cbn [ds_itr ds_in ds_out ds_buf]. cbv zeta. intros H.
  destruct (length buf <=? o)%nat; [discriminate H|]. destruct (b <=? 127).
  { back H. updinv. match type of H with Ret (Continue ?s) = _ => assert (st' = s) as -> by congruence end. unfold binv. cbn [ds_itr ds_in ds_out ds_buf].
    split; [lia|]. split; [exact Hy|]. lia. }
  destruct (b =? 128).
  { back H. updinv. match type of H with Ret (Continue ?s) = _ => assert (st' = s) as -> by congruence end. unfold binv. cbn [ds_itr ds_in ds_out ds_buf].
    split; [lia|]. split; [exact Hy|]. lia. }
  destruct (_ && _).
  { back H. apply Hcopy in H; [exact H|lia|exact Hy]. }
  destruct (_ || _); [discriminate H|]. destruct itr as [|b2 itr2]; [destruct (negb ie); discriminate H|].
  apply Forall_cons_iff in Hy. destruct Hy as [_ Hy]. cbn [length] in *.
  destruct (_ || _); [discriminate H|]. back H; apply Hcopy in H; first [exact H|lia|exact Hy].
Qed.

Lemma utf16_dec_same big input ie st : length input = L -> cinv st -> w_utf16_decode_body max big input ie st = utf16_decode_body big input ie st.
Proof.
  intros HLi (Hi & Hy & Ho & Hb). destruct st as [[|bs itr] i o buf]; [reflexivity|]. cbn [ds_itr ds_in ds_out ds_buf concat] in *.
  rewrite app_length in Hi.
  assert (Hemit : forall itr' code,
    (let* consumed := mul_to max (N.of_nat (len_utf16 code)) 2 in
     w_copy_string max (DecState (bs :: itr) i o buf) itr' (encode_utf8 code) (N.to_nat consumed))
    = copy_string (DecState (bs :: itr) i o buf) itr' (encode_utf8 code) (len_utf16 code * 2)).
  { intros itr' code. pose proof (len_utf16_le code). rewrite mul_to_ok by lia. cbn [bind].
    replace (N.to_nat (N.of_nat (len_utf16 code) * 2)) with (len_utf16 code * 2)%nat by lia. csame. }
  apply Forall_cons_iff in Hy. destruct Hy as [Hy1 Hy].
  unfold w_utf16_decode_body, utf16_decode_body. cbn [ds_itr ds_in ds_out ds_buf]. cbv zeta.
  destruct (length bs <? 2)%nat; [reflexivity|].
  destruct (idx bs 0) as [x0| | |] eqn:E0; cbn [bind]; [|reflexivity|reflexivity|reflexivity].
  destruct (idx bs 1) as [x1| | |] eqn:E1; cbn [bind]; [|reflexivity|reflexivity|reflexivity].
  set (c1 := u16_from_bytes big x0 x1).
  destruct ((c1 <? 0xD800) || (0xDFFF <? c1)) eqn:Ec.
  { destruct (from_u32_unchecked c1); cbn [bind]; [|reflexivity|reflexivity|reflexivity]. apply Hemit. }
  destruct (N.land c1 0xFC00 =? 0xDC00); [steps|]. rewrite (add_ok max i 3) by lia. cbn [bind].
  destruct (length input <=? i + 3)%nat; [reflexivity|].
  destruct (match itr with [] => None | x :: r => Some (x, r) end) as [[bs2 itr2]|] eqn:En; [|reflexivity]. cbn [unwrap bind fst snd].
  destruct itr as [|y itr]; [discriminate En|]. assert (y = bs2 /\ itr = itr2) as [-> ->] by (split; congruence). clear En.
  apply Forall_cons_iff in Hy. destruct Hy as [Hy2 Hy].
  assert (Hin : forall l k v, idx (A := N) l k = Ret v -> In v l).
  { intros l k v X. unfold idx in X. destruct (nth_error l k) eqn:Y; [|discriminate X]. apply nth_error_In in Y. congruence. }
  destruct (idx bs2 0) as [x2| | |] eqn:E2; cbn [bind]; [|reflexivity|reflexivity|reflexivity].
  destruct (idx bs2 1) as [x3| | |] eqn:E3; cbn [bind]; [|reflexivity|reflexivity|reflexivity].
  unfold bytes in Hy1, Hy2. rewrite Forall_forall in Hy1, Hy2.
  pose proof (Hy2 _ (Hin _ _ _ E2)) as B2. pose proof (Hy2 _ (Hin _ _ _ E3)) as B3. cbv beta in B2, B3.
  set (c2 := u16_from_bytes big x2 x3). assert (Hc2 : c2 < 65536) by (unfold c2, u16_from_bytes, u16_from_be_bytes, u16_from_le_bytes; destruct big; lia).
  destruct (N.land c2 0xFC00 =? 0xDC00); cbn [negb]; [|steps].
  assert (Hc1 : c1 <= 0xDFFF) by lia.
  destruct (sub_chk c1 0xD800) as [hi| | |] eqn:Eh; cbn [bind]; [|reflexivity|reflexivity|reflexivity].
  destruct (sub_chk c2 0xDC00) as [low| | |] eqn:El; cbn [bind]; [|reflexivity|reflexivity|reflexivity].
  assert (Hhi : hi < 2 ^ 11).
  { unfold sub_chk in Eh. destruct (0xD800 <=? c1); [|discriminate Eh]. assert (hi = c1 - 0xD800) as -> by congruence. change (2 ^ 11) with 2048. lia. }
  assert (Hlow : low < 2 ^ 16).
  { unfold sub_chk in El. destruct (0xDC00 <=? c2); [|discriminate El]. assert (low = c2 - 0xDC00) as -> by congruence. change (2 ^ 16) with 65536. lia. }
  assert (Hor : N.lor (as_u32 (N.shiftl hi 10)) low < 2 ^ 21).
  { rewrite shiftl_10. apply lor_small; change (2 ^ 21) with 2097152; change (2 ^ 11) with 2048 in Hhi; change (2 ^ 16) with 65536 in Hlow; [unfold as_u32; lia|lia]. }
  change (2 ^ 21) with 2097152 in Hor. rewrite add_to_ok by (unfold u32_max; lia). cbn [bind].
  destruct (from_u32_unchecked _); cbn [bind]; [|reflexivity|reflexivity|reflexivity]. apply Hemit.
Qed.

Lemma utf16_dec_inv big input ie st st' : cinv st -> utf16_decode_body big input ie st = Ret (Continue st') -> cinv st'.
Proof.
  intros (Hi & Hy & Ho & Hb). destruct st as [[|bs itr] i o buf]; [intros X; discriminate X|]. cbn [ds_itr ds_in ds_out ds_buf concat] in *.
  rewrite app_length in Hi. apply Forall_cons_iff in Hy. destruct Hy as [Hy1 Hy].
  assert (Hcopy : forall itr' s k, copy_string (DecState (bs :: itr) i o buf) itr' s k = Ret (Continue st') ->
    (k + length (concat itr') <= length bs + length (concat itr))%nat -> Forall bytes itr' -> cinv st').
  { intros itr' s k H Hk Hb'. apply copy_continue in H. cbn [ds_in ds_out ds_buf] in H. destruct H as (H1 & H2 & H3 & H4). unfold cinv. rewrite H1, H2.
    split; [lia|]. split; [exact Hb'|]. lia. }
  unfold utf16_decode_body. cbn [ds_itr ds_in ds_out ds_buf]. cbv zeta. intros H.
  destruct (Nat.ltb_spec (length bs) 2) as [X|Hl]; [destruct (negb ie); discriminate H|].
  destruct (idx bs 0) as [x0| | |] eqn:E0; cbn [bind] in H; [|discriminate H|discriminate H|discriminate H].
  destruct (idx bs 1) as [x1| | |] eqn:E1; cbn [bind] in H; [|discriminate H|discriminate H|discriminate H].
  assert (Hin : forall l k v, idx (A := N) l k = Ret v -> In v l).
  { intros l k v X. unfold idx in X. destruct (nth_error l k) eqn:Y; [|discriminate X]. apply nth_error_In in Y. congruence. }
  unfold bytes in Hy1. rewrite Forall_forall in Hy1. pose proof (Hy1 _ (Hin _ _ _ E0)) as B0. pose proof (Hy1 _ (Hin _ _ _ E1)) as B1. cbv beta in B0, B1.
  set (c1 := u16_from_bytes big x0 x1) in H. assert (Hc1 : c1 < 65536) by (unfold c1, u16_from_bytes, u16_from_be_bytes, u16_from_le_bytes; destruct big; lia).
  destruct ((c1 <? 0xD800) || (0xDFFF <? c1)).
  { unfold from_u32_unchecked in H. destruct (is_char c1); cbn [bind] in H; [|discriminate H]. apply Hcopy in H; [exact H| |exact Hy].
    replace (len_utf16 c1) with 1%nat; [lia|]. unfold len_utf16. rewrite land_FFFF, N.mod_small, N.eqb_refl by exact Hc1. reflexivity. }
  destruct (N.land c1 0xFC00 =? 0xDC00); [discriminate H|]. destruct (length input <=? i + 3)%nat; [destruct (negb ie); discriminate H|].
  destruct itr as [|bs2 itr2]; [discriminate H|]. cbn [unwrap bind fst snd concat] in *. rewrite app_length in *.
  apply Forall_cons_iff in Hy. destruct Hy as [Hy2 Hy].
  destruct (idx bs2 0) as [x2| | |] eqn:E2; cbn [bind] in H; [|discriminate H|discriminate H|discriminate H].
  destruct (idx bs2 1) as [x3| | |] eqn:E3; cbn [bind] in H; [|discriminate H|discriminate H|discriminate H].
  assert (Hl2 : (2 <= length bs2)%nat).
  { unfold idx in E3. destruct bs2 as [|? [|? ?]]; [discriminate E3|discriminate E3|cbn [length]; lia]. }
  destruct (negb _); [discriminate H|].
  back H. apply Hcopy in H; [exact H| |exact Hy]. rewrite ?app_length. pose proof (len_utf16_le a1). lia.
Qed.

Lemma utf32_dec_same big input ie st : cinv st -> w_utf32_decode_body max big input ie st = utf32_decode_body big input ie st.
Proof.
  intros (Hi & Hy & Ho & Hb). destruct st as [[|bs itr] i o buf]; [reflexivity|]. cbn [ds_itr ds_in ds_out ds_buf concat] in *.
  rewrite app_length in Hi. unfold w_utf32_decode_body, utf32_decode_body. cbn [ds_itr ds_in ds_out ds_buf]. cbv zeta. steps.
  destruct (from_u32 _); steps. csame.
Qed.

Lemma utf32_dec_inv big input ie st st' : cinv st -> utf32_decode_body big input ie st = Ret (Continue st') -> cinv st'.
Proof.
  intros (Hi & Hy & Ho & Hb). destruct st as [[|bs itr] i o buf]; [intros X; discriminate X|]. cbn [ds_itr ds_in ds_out ds_buf concat] in *.
  rewrite app_length in Hi. apply Forall_cons_iff in Hy. destruct Hy as [Hy1 Hy].
  unfold utf32_decode_body. cbn [ds_itr ds_in ds_out ds_buf]. cbv zeta. intros H.
  destruct (Nat.ltb_spec (length bs) 4) as [X|Hl]; [destruct (negb ie); discriminate H|]. back H. destruct (from_u32 _); [|discriminate H].
  apply copy_continue in H. cbn [ds_in ds_out ds_buf] in H. destruct H as (H1 & H2 & H3 & H4). unfold cinv. rewrite H1, H2.
  split; [lia|]. split; [exact Hy|]. lia.
Qed.

Lemma chunks_fuel_concat n : forall f bs, bytes bs -> (length (concat (chunks_fuel f n bs)) <= length bs)%nat /\ Forall bytes (chunks_fuel f n bs).
Proof.
  induction f as [|f IH]; intros bs Hb; [split; [cbn; lia|constructor]|]. destruct bs as [|b bs]; [split; [cbn; lia|constructor]|].
  cbn [chunks_fuel]. set (l := b :: bs) in *. destruct (IH (skipn n l)) as [H1 H2]; [apply bytes_skipn, Hb|].
  split; [|constructor; [rewrite <- (firstn_skipn n l) in Hb; exact (proj1 (proj1 (Forall_app _ _ _) Hb))|exact H2]].
  cbn [concat]. rewrite app_length. rewrite <- (firstn_skipn n l) at 3. rewrite app_length. lia.
Qed.

Lemma chunks_inv n bs out : bytes bs -> length bs = L -> N.of_nat (length out) + 4 <= max -> cinv (DecState (chunks n bs) 0 0 out).
Proof.
  intros Hb Hl Ho. destruct (chunks_fuel_concat n (length bs) bs Hb) as [H1 H2]. unfold cinv. cbn [ds_itr ds_in ds_out ds_buf].
  split; [unfold chunks; lia|]. split; [exact H2|]. lia.
Qed.

End Fixed.

(** ** UTF-8 *)

Lemma copy_len_same input n : w_copy_len input n = copy_len input n.
Proof.
  unfold w_copy_len, copy_len. destruct (length input <=? n)%nat; [reflexivity|].
  rewrite (loop_same (fun _ => True) _ (fun i => if (0 <? i)%nat then let* b := idx input i in
     if N.land b 0xC0 =? 0x80 then Ret (Continue (i - 1)%nat) else Ret (Break i) else Ret (Break i))); [reflexivity| |auto|exact I].
  intros i _. destruct (Nat.ltb_spec 0 i) as [H|H]; [|reflexivity]. destruct (idx input i); [|reflexivity|reflexivity|reflexivity]. cbn [bind].
  rewrite sub_ok by lia. reflexivity.
Qed.

Lemma error_end_same max input start : N.of_nat (length input) <= max -> w_utf8_error_end max input start = utf8_error_end input start.
Proof.
  intros HL. unfold w_utf8_error_end, utf8_error_end.
  rewrite (loop_same (fun _ => True) _ (fun i => if (i <? length input)%nat then let* b := idx input i in
     if (N.land b 0xC0 =? 0x80) || (N.land b 0xF8 =? 0xF8) then Ret (Continue (i + 1)%nat) else Ret (Break i) else Ret (Break i)));
    [reflexivity| |auto|exact I].
  intros i _. destruct (Nat.ltb_spec i (length input)) as [H|H]; [|reflexivity]. destruct (idx input i); [|reflexivity|reflexivity|reflexivity]. cbn [bind].
  rewrite add_ok by lia. reflexivity.
Qed.

Lemma utf8_dec_same max input out ie : N.of_nat (length input) <= max ->
  w_utf8_decode_to_str max input out ie = utf8_decode_to_str input out ie.
Proof.
  intros HL. unfold w_utf8_decode_to_str, utf8_decode_to_str. cbv zeta.
  destruct (slice_to input _) as [v| | |]; [|reflexivity|reflexivity|reflexivity]. cbn [bind]. rewrite copy_len_same.
  destruct (copy_len v _) as [n| | |]; [|reflexivity|reflexivity|reflexivity]. cbn [bind].
  destruct (slice_to input n) as [src| | |]; [|reflexivity|reflexivity|reflexivity]. cbn [bind].
  destruct (copy_at out 0 n src) as [out'| | |]; [|reflexivity|reflexivity|reflexivity]. cbn [bind].
  destruct (_ && _) eqn:E; [|reflexivity]. apply andb_true_iff in E. destruct E as [_ E]. apply Nat.ltb_lt in E.
  rewrite sub_ok by lia. cbn [bind]. destruct (idx input _); [|reflexivity|reflexivity|reflexivity]. cbn [bind].
  destruct (negb _); [|reflexivity]. rewrite add_ok by lia. cbn [bind]. rewrite error_end_same by exact HL. reflexivity.
Qed.

(** ** All *)

Lemma encode_word_same max e ie cs out : 65535 <= max -> text cs -> N.of_nat (length (utf8 cs)) + 4 <= max -> N.of_nat (length out) + 4 <= max ->
  encode_word max e (utf8 cs) out ie = encode_from_str e (utf8 cs) out ie.
Proof.
  intros Hm Ht Hi Ho. destruct e as [| | | | | | |m].
  all: try (unfold encode_word, encode_from_str, w_utf8_encode_from_str, utf8_encode_from_str; rewrite copy_len_same; reflexivity).
  all: cbn [encode_from_str]; rewrite ?utf16_be_encode_same, ?utf16_le_encode_same, ?utf32_be_encode_same, ?utf32_le_encode_same.
  all: eapply (run_encoder_same max Hm (length (utf8 cs))); [exact Hi| | |exact Ht|reflexivity|exact Ho].
  all: first [apply utf16_enc_same|apply utf16_enc_inv|apply utf32_enc_same|apply utf32_enc_inv|apply big5_enc_same|apply big5_enc_inv
             |apply sjis_enc_same|apply sjis_enc_inv|apply sb_enc_same|apply sb_enc_inv].
  all: assumption.
Qed.

Lemma decode_word_same max e ie bs out : 65535 <= max -> bytes bs -> N.of_nat (length bs) + 4 <= max -> N.of_nat (length out) + 4 <= max ->
  decode_word max e bs out ie = decode_to_str e bs out ie.
Proof.
  intros Hm Ht Hi Ho.
  assert (Hb : binv max (length bs) (DecState bs 0 0 out)).
  { unfold binv. cbn [ds_itr ds_in ds_out ds_buf]. split; [lia|]. split; [exact Ht|]. lia. }
  assert (Hc : forall n, cinv max (length bs) (DecState (chunks n bs) 0 0 out)) by (intros n; apply chunks_inv; auto).
  destruct e as [| | | | | | |m].
  - apply utf8_dec_same. lia.
  - cbn [decode_to_str]. rewrite utf16_be_decode_same. apply (run_decoder_same (cinv max (length bs))); [intros st; apply utf16_dec_same; auto|intros st st'; apply utf16_dec_inv; auto|apply Hc].
  - cbn [decode_to_str]. rewrite utf16_le_decode_same. apply (run_decoder_same (cinv max (length bs))); [intros st; apply utf16_dec_same; auto|intros st st'; apply utf16_dec_inv; auto|apply Hc].
  - cbn [decode_to_str]. rewrite utf32_be_decode_same. apply (run_decoder_same (cinv max (length bs))); [intros st; apply utf32_dec_same; auto|intros st st'; apply utf32_dec_inv; auto|apply Hc].
  - cbn [decode_to_str]. rewrite utf32_le_decode_same. apply (run_decoder_same (cinv max (length bs))); [intros st; apply utf32_dec_same; auto|intros st st'; apply utf32_dec_inv; auto|apply Hc].
  - apply (run_decoder_same (binv max (length bs))); [intros st; apply big5_dec_same; auto|intros st st'; apply big5_dec_inv; auto|exact Hb].
  - apply (run_decoder_same (binv max (length bs))); [intros st; apply sjis_dec_same; auto|intros st st'; apply sjis_dec_inv; auto|exact Hb].
  - apply (run_decoder_same (binv max (length bs))); [intros st; apply sb_dec_same; auto|intros st st'; apply sb_dec_inv; auto|exact Hb].
Qed.
