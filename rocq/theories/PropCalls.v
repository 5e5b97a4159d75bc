(* Properties of single calls of encode_from_str and decode_to_str, for all 38 encodings.
   [utf8 cs] with [text cs] is an arbitrary &str; [bytes bs] an arbitrary byte slice; [out] an arbitrary output buffer. *)
From Coq Require Import List NArith Arith Bool Lia.
From Verif Require Import Encodings Spec SpecErrors Prelude RustCore Types ModelApi ProofApi.
Import ListNotations.
Local Open Scope nat_scope.

(* concrete data for the examples *)
Definition buf8 : list N := [201; 202; 203; 204; 205; 206; 207; 208]%N.
Definition buf2 : list N := [201; 202]%N.
Definition hello : list N := [0x68; 0xE9; 0x4E00; 0x1F600]%N.  (* h, e acute, a CJK ideograph, an emoji *)

Example hello_text : text hello.
Proof. unfold hello. repeat constructor; unfold scalar; lia. Qed.

(** * C01 *)
Theorem C01_encoders_total : forall e is_end cs out, text cs ->
  exists r buf, encode_from_str e (utf8 cs) out is_end = Ret (r, buf).
Proof. intros e is_end cs out. exact (encode_total e is_end cs out). Qed.

Example C01_example : exists buf, encode_from_str Utf16LE (utf8 hello) buf8 true = Ret (Ok ([0x68; 0; 0xE9; 0; 0; 0x4E]%N, 6), buf).
Proof. eexists. vm_compute. reflexivity. Qed.

(** * C02 *)
Theorem C02_decoders_total : forall e is_end bs out, bytes bs ->
  exists r buf, decode_to_str e bs out is_end = Ret (r, buf).
Proof. intros e is_end bs out. exact (decode_total e is_end bs out). Qed.

Example C02_example : exists buf, decode_to_str Big5WHATWG [0x41; 0xFE; 0xFF; 0x41]%N buf8 true
  = Ret (Err (DecodeError InvalidData (1, 3) 1), buf).
Proof. eexists. vm_compute. reflexivity. Qed.

(** * C03 *)
Theorem C03_decoder_output_well_formed : forall e is_end bs out r buf, bytes bs ->
  decode_to_str e bs out is_end = Ret (r, buf) ->
  match r with
  | Ok (s, _) => well_formed_utf8 s
  | Err er => well_formed_utf8 (firstn (de_written er) buf)
  end.
Proof. intros e is_end bs out r buf. exact (decode_wf e is_end bs out r buf). Qed.

Example C03_example : exists buf, decode_to_str ShiftJISWHATWG [0x88; 0x9F; 0x80; 0x85]%N buf8 false
  = Ret (Ok (utf8 [0x4E9C; 0x80]%N, 3), buf).
Proof. eexists. vm_compute. reflexivity. Qed.

(** * C04 *)
Theorem C04_char_boundaries : forall e is_end cs out r buf, text cs ->
  encode_from_str e (utf8 cs) out is_end = Ret (r, buf) ->
  match r with
  | Ok (_, n) => exists pre post, cs = pre ++ post /\ n = length (utf8 pre)
  | Err er => exists pre c post, cs = pre ++ c :: post /\ ee_character er = c /\
                ee_range er = (length (utf8 pre), length (utf8 (pre ++ [c])))
  end.
Proof. intros e is_end cs out r buf. exact (encode_boundaries e is_end cs out r buf). Qed.

Example C04_example : exists buf, encode_from_str (Single windows_1252) (utf8 hello) buf8 true
  = Ret (Err (EncodeError 0x4E00%N (3, 6) 2), buf).
Proof. eexists. vm_compute. reflexivity. Qed.

(** * C05 *)
Theorem C05_encode_frame : forall e is_end cs out r buf, text cs ->
  encode_from_str e (utf8 cs) out is_end = Ret (r, buf) ->
  let w := match r with Ok (s, _) => length s | Err er => ee_written er end in
  length buf = length out /\ w <= length out /\ skipn w buf = skipn w out /\
  match r with Ok (s, _) => firstn w buf = s | Err _ => True end.
Proof. intros e is_end cs out r buf. exact (encode_frame e is_end cs out r buf). Qed.

Theorem C05_decode_frame : forall e is_end bs out r buf, bytes bs ->
  decode_to_str e bs out is_end = Ret (r, buf) ->
  let w := match r with Ok (s, _) => length s | Err er => de_written er end in
  length buf = length out /\ w <= length out /\ skipn w buf = skipn w out /\
  match r with Ok (s, _) => firstn w buf = s | Err _ => True end.
Proof. intros e is_end bs out r buf. exact (decode_frame e is_end bs out r buf). Qed.

Example C05_example : encode_from_str ShiftJISWHATWG (utf8 [0x41; 0x4E9C; 0x1F600]%N) buf8 true
  = Ret (Err (EncodeError 0x1F600%N (4, 8) 3), [0x41; 0x88; 0x9F; 204; 205; 206; 207; 208]%N).
Proof. vm_compute. reflexivity. Qed.

(** * C06 *)
Theorem C06_encode_ok_exact : forall e is_end cs out s n buf, text cs ->
  encode_from_str e (utf8 cs) out is_end = Ret (Ok (s, n), buf) ->
  exists pre post, cs = pre ++ post /\ n = length (utf8 pre) /\
    (* the output represents the consumed prefix *)
    Encoded e pre s /\
    (* and is the beginning of the representation of the whole text *)
    (forall s', Encoded e post s' -> Encoded e cs (s ++ s')) /\
    (forall all, Encoded e cs all -> exists s', all = s ++ s' /\ Encoded e post s').
Proof. intros e is_end cs out s n buf. exact (encode_ok_exact e is_end cs out s n buf). Qed.

Example C06_example : exists buf, encode_from_str Big5WHATWG (utf8 [0xCA; 0x304; 0x5341; 0x41]%N) buf8 true
  = Ret (Ok ([0x88; 0x62; 0xA4; 0x51; 0x41]%N, 8), buf).
Proof. eexists. vm_compute. reflexivity. Qed.

(** * C07 *)
Theorem C07_encode_maximal : forall e is_end cs out s n buf pre post, text cs ->
  encode_from_str e (utf8 cs) out is_end = Ret (Ok (s, n), buf) ->
  cs = pre ++ post -> n = length (utf8 pre) -> post <> [] ->
  (* the next piece does not fit *)
  (exists u w, EncUnit e u w /\ prefix u post /\ longest e u post /\ length out < length s + length w) \/
  (* or could combine with text to come *)
  (is_end = false /\ e = Big5WHATWG /\ (post = [0xCA%N] \/ post = [0xEA%N])) \/
  (* or is not representable, and there is too little room to report that *)
  (Unencodable e post /\ length out < length s + encode_room e).
Proof. intros e is_end cs out s n buf pre post. exact (encode_maximal e is_end cs out s n buf pre post). Qed.

Example C07_example : exists buf, encode_from_str Utf16BE (utf8 ([0x41] ++ [0x1F600])%N) (firstn 5 buf8) true
  = Ret (Ok ([0; 0x41]%N, length (utf8 [0x41%N])), buf).
Proof. eexists. vm_compute. reflexivity. Qed.

(** * C08 *)
Theorem C08_encode_error_exact : forall e is_end cs out er buf, text cs ->
  encode_from_str e (utf8 cs) out is_end = Ret (Err er, buf) ->
  exists pre post s, cs = pre ++ ee_character er :: post /\
    ee_range er = (length (utf8 pre), length (utf8 pre) + length (utf8_char (ee_character er))) /\
    Encoded e pre s /\ ee_written er = length s /\ firstn (length s) buf = s /\
    Unencodable e (ee_character er :: post) /\
    (forall all, ~ Encoded e cs all).
Proof. intros e is_end cs out er buf. exact (encode_err_exact e is_end cs out er buf). Qed.

Example C08_example : exists buf, encode_from_str (Single koi8_r) (utf8 [0x416; 0x41; 0xE9; 0x42]%N) buf8 false
  = Ret (Err (EncodeError 0xE9%N (3, 5) 2), buf) /\ firstn 2 buf = [0xF6; 0x41]%N.
Proof. eexists. vm_compute. split; reflexivity. Qed.

(** * C09 *)
Theorem C09_utf_encoders_never_fail : forall e is_end cs out r buf, is_utf e -> text cs ->
  encode_from_str e (utf8 cs) out is_end = Ret (r, buf) -> exists s n, r = Ok (s, n).
Proof. intros e is_end cs out r buf. exact (utf_encode_never_fails e is_end cs out r buf). Qed.

Theorem C09_utf_encoders_complete : forall e cs, is_utf e -> text cs -> exists s, Encoded e cs s /\
  forall is_end out, length s <= length out ->
    exists buf, encode_from_str e (utf8 cs) out is_end = Ret (Ok (s, length (utf8 cs)), buf).
Proof.
  intros e cs He Ht. destruct (utf_encodes e cs He Ht) as [s Hs]. exists s. split; [exact Hs|].
  intros is_end out Hlen. rewrite (utf_enc_flag e _ _ He). eexists. apply encode_enough; assumption.
Qed.

Example C09_example : exists buf, encode_from_str Utf32LE (utf8 [0x1F600; 0xD7FF]%N) buf8 false
  = Ret (Ok ([0; 0xF6; 1; 0; 0xFF; 0xD7; 0; 0]%N, 7), buf).
Proof. eexists. vm_compute. reflexivity. Qed.

(** * C10 *)
Theorem C10_encode_succeeds_iff_representable : forall e cs out, text cs -> 4 * length cs + 2 <= length out ->
  ((exists s buf, encode_from_str e (utf8 cs) out true = Ret (Ok (s, length (utf8 cs)), buf)) <-> (exists s, Encoded e cs s)) /\
  ((exists er buf, encode_from_str e (utf8 cs) out true = Ret (Err er, buf)) <-> ~ (exists s, Encoded e cs s)).
Proof. intros e cs out Ht Hl. split; [apply encode_iff|apply encode_err_iff]; assumption. Qed.

(* a buffer with room for the representation is enough *)
Theorem C10_encode_enough : forall e cs s out, Encoded e cs s -> length s <= length out ->
  exists buf, encode_from_str e (utf8 cs) out true = Ret (Ok (s, length (utf8 cs)), buf).
Proof. intros e cs s out H Hl. eexists. apply encode_enough; assumption. Qed.

Example C10_example : exists er buf, encode_from_str (Single ascii) (utf8 [0x41; 0xE9]%N) (buf8 ++ buf2) true = Ret (Err er, buf).
Proof. do 2 eexists. vm_compute. reflexivity. Qed.

(** * C11 *)
Theorem C11_decode_ok_exact : forall e is_end bs out s n buf, bytes bs ->
  decode_to_str e bs out is_end = Ret (Ok (s, n), buf) ->
  n <= length bs /\ exists cs, Decoded e (firstn n bs) cs /\ s = utf8 cs.
Proof. intros e is_end bs out s n buf. exact (decode_ok_exact e is_end bs out s n buf). Qed.

Example C11_example : exists buf, decode_to_str Utf16LE [0x3D; 0xD8; 0x00; 0xDE; 0x41; 0x00; 0x3D]%N buf8 false
  = Ret (Ok (utf8 [0x1F600; 0x41]%N, 6), buf).
Proof. eexists. vm_compute. reflexivity. Qed.

(** * C12 *)
Theorem C12_decode_maximal : forall e is_end bs out s n buf, bytes bs ->
  decode_to_str e bs out is_end = Ret (Ok (s, n), buf) -> n < length bs ->
  (* the next character does not fit *)
  (exists w u, DecUnit e w u /\ prefix w (skipn n bs) /\ length out < length s + length (utf8 u)) \/
  (* or the rest is an incomplete code sequence and more may follow *)
  (is_end = false /\ Undecodable e (skipn n bs) /\ Incomplete e (skipn n bs)) \/
  (* or it is invalid, and there is too little room to report that *)
  (Undecodable e (skipn n bs) /\ length out < length s + decode_room e).
Proof. intros e is_end bs out s n buf. exact (decode_maximal e is_end bs out s n buf). Qed.

Example C12_example : exists buf, decode_to_str Big5WHATWG [0xA4; 0x51; 0xA4; 0x51; 0xA4]%N (firstn 5 buf8) false
  = Ret (Ok (utf8 [0x5341]%N, 2), buf).
Proof. eexists. vm_compute. reflexivity. Qed.

(** * C13, C14, C36 *)
Theorem C13_decode_error_start_exact : forall e is_end bs out er buf, bytes bs ->
  decode_to_str e bs out is_end = Ret (Err er, buf) ->
  let (a, b) := de_range er in
  (exists cs, Decoded e (firstn a bs) cs /\ de_written er = length (utf8 cs) /\ firstn (de_written er) buf = utf8 cs) /\
  Undecodable e (skipn a bs).
Proof.
  intros e is_end bs out er buf Hb H. pose proof (decode_err_exact e is_end bs out er buf Hb H) as X.
  destruct (de_range er) as [a b]. destruct X as (_ & X1 & X2 & _). auto.
Qed.

Theorem C14_decode_error_extent : forall e is_end bs out er buf, bytes bs ->
  decode_to_str e bs out is_end = Ret (Err er, buf) ->
  let (a, b) := de_range er in
  a < b <= length bs /\ ErrorLength e (skipn a bs) (b - a) /\ (is_end = false -> ~ Incomplete e (skipn a bs)).
Proof.
  intros e is_end bs out er buf Hb H. pose proof (decode_err_exact e is_end bs out er buf Hb H) as X.
  destruct (de_range er) as [a b]. destruct X as (X0 & _ & _ & X1 & X2 & _). auto.
Qed.

Theorem C36_cause_is_invalid_data : forall e is_end bs out er buf, bytes bs ->
  decode_to_str e bs out is_end = Ret (Err er, buf) -> de_cause er = InvalidData.
Proof.
  intros e is_end bs out er buf Hb H. pose proof (decode_err_exact e is_end bs out er buf Hb H) as X.
  destruct (de_range er) as [a b]. apply X.
Qed.

Example C13_example : exists buf, decode_to_str Utf8 [0x41; 0xC3; 0xA9; 0x80; 0xBF; 0x42]%N buf8 true
  = Ret (Err (DecodeError InvalidData (3, 5) 3), buf).
Proof. eexists. vm_compute. reflexivity. Qed.

Example C14_example : exists buf, decode_to_str Utf16BE [0xD8; 0x3D; 0x00]%N buf8 true
  = Ret (Err (DecodeError InvalidData (0, 3) 0), buf).
Proof. eexists. vm_compute. reflexivity. Qed.

(** * C15 *)
Theorem C15_exactly_valid_data_decodes : forall e bs out, bytes bs -> 3 * length bs + 1 <= length out ->
  (forall cs, (exists buf, decode_to_str e bs out true = Ret (Ok (utf8 cs, length bs), buf) /\ text cs) <-> Decoded e bs cs) /\
  ((exists er buf, decode_to_str e bs out true = Ret (Err er, buf)) <-> ~ (exists cs, Decoded e bs cs)).
Proof. intros e bs out Hb Hl. split; [apply decode_iff|apply decode_err_iff]; assumption. Qed.

Theorem C15_decode_enough : forall e is_end bs cs out, Decoded e bs cs -> length (utf8 cs) <= length out ->
  exists buf, decode_to_str e bs out is_end = Ret (Ok (utf8 cs, length bs), buf).
Proof. intros e is_end bs cs out H Hl. eexists. apply decode_enough; assumption. Qed.

Example C15_example : exists buf, decode_to_str (Single windows_1252) [0x80; 0x41]%N buf8 true = Ret (Ok (utf8 [0x20AC; 0x41]%N, 2), buf).
Proof. eexists. vm_compute. reflexivity. Qed.

(** * C30 *)
Theorem C30_encode_larger_buffer : forall e is_end cs out out' r buf r' buf', text cs -> length out <= length out' ->
  encode_from_str e (utf8 cs) out is_end = Ret (r, buf) -> encode_from_str e (utf8 cs) out' is_end = Ret (r', buf') ->
  let consumed r := match r with Ok (_, n) => n | Err er => fst (ee_range er) end in
  let written (r : encode_result) buf := match r with Ok (s, _) => s | Err er => firstn (ee_written er) buf end in
  consumed r <= consumed r' /\ prefix (written r buf) (written r' buf') /\
  (forall er, r = Err er -> r' = r).
Proof. intros e is_end cs out out' r buf r' buf'. exact (encode_larger e is_end cs out out' r buf r' buf'). Qed.

Theorem C30_decode_larger_buffer : forall e is_end bs out out' r buf r' buf', bytes bs -> length out <= length out' ->
  decode_to_str e bs out is_end = Ret (r, buf) -> decode_to_str e bs out' is_end = Ret (r', buf') ->
  let consumed r := match r with Ok (_, n) => n | Err er => fst (de_range er) end in
  let written (r : decode_result) buf := match r with Ok (s, _) => s | Err er => firstn (de_written er) buf end in
  consumed r <= consumed r' /\ prefix (written r buf) (written r' buf') /\
  (forall er, r = Err er -> r' = r).
Proof. intros e is_end bs out out' r buf r' buf'. exact (decode_larger e is_end bs out out' r buf r' buf'). Qed.

Example C30_example : (exists buf, encode_from_str ShiftJISWHATWG (utf8 [0x4E9C; 0x1F600]%N) buf2 true = Ret (Ok ([0x88; 0x9F]%N, 3), buf)) /\
  (exists buf, encode_from_str ShiftJISWHATWG (utf8 [0x4E9C; 0x1F600]%N) buf8 true = Ret (Err (EncodeError 0x1F600%N (3, 7) 2), buf)).
Proof. split; eexists; vm_compute; reflexivity. Qed.

(** * C31 *)
Theorem C31_encode_ignores_old_contents : forall e is_end cs out out' r buf, text cs -> length out = length out' ->
  encode_from_str e (utf8 cs) out is_end = Ret (r, buf) ->
  exists buf', encode_from_str e (utf8 cs) out' is_end = Ret (r, buf') /\
    let w := match r with Ok (s, _) => length s | Err er => ee_written er end in firstn w buf' = firstn w buf.
Proof. intros e is_end cs out out' r buf. exact (encode_old_contents e is_end cs out out' r buf). Qed.

Theorem C31_decode_ignores_old_contents : forall e is_end bs out out' r buf, bytes bs -> length out = length out' ->
  decode_to_str e bs out is_end = Ret (r, buf) ->
  exists buf', decode_to_str e bs out' is_end = Ret (r, buf') /\
    let w := match r with Ok (s, _) => length s | Err er => de_written er end in firstn w buf' = firstn w buf.
Proof. intros e is_end bs out out' r buf. exact (decode_old_contents e is_end bs out out' r buf). Qed.

Example C31_example : exists buf buf', decode_to_str Utf8 [0x41; 0x42; 0x43]%N [1; 2]%N true = Ret (Ok ([0x41; 0x42]%N, 2), buf) /\
  decode_to_str Utf8 [0x41; 0x42; 0x43]%N [0; 255]%N true = Ret (Ok ([0x41; 0x42]%N, 2), buf').
Proof. do 2 eexists. vm_compute. split; reflexivity. Qed.

(* all theorems of this file at once: their assumptions are the union *)
Definition calls_theorems := (C01_encoders_total,
  C02_decoders_total,
  C03_decoder_output_well_formed,
  C04_char_boundaries,
  C05_encode_frame,
  C05_decode_frame,
  C06_encode_ok_exact,
  C07_encode_maximal,
  C08_encode_error_exact,
  C09_utf_encoders_never_fail,
  C09_utf_encoders_complete,
  C10_encode_succeeds_iff_representable,
  C10_encode_enough,
  C11_decode_ok_exact,
  C12_decode_maximal,
  C13_decode_error_start_exact,
  C14_decode_error_extent,
  C36_cause_is_invalid_data,
  C15_exactly_valid_data_decodes,
  C15_decode_enough,
  C30_encode_larger_buffer,
  C30_decode_larger_buffer,
  C31_encode_ignores_old_contents,
  C31_decode_ignores_old_contents).
Print Assumptions calls_theorems.
