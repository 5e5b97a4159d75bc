(* Generated by tools/gen_repo_tests.py; do not edit.
   The unit tests in /repo/src/*.rs (186 tests), transcribed as 263 examples about the model: checks that the model agrees with
   results the authors of the crate expect.  The tests in /repo/tests are in ModelTests.v. *)
From Coq Require Import List NArith Arith Bool.
From Verif Require Import Prelude RustCore Types Encodings.
From Verif Require Import ModelUtf8 ModelUtf16Le ModelUtf16Be ModelUtf32Le ModelUtf32Be ModelSingleByte ModelBig5 ModelShiftJis ModelTests.
Import ListNotations.
Local Open Scope N_scope.

(* f(...).unwrap() *)
Definition returned {E} (r : outcome (result (list N * nat) E * list N)) : option (list N * nat) :=
  match r with Ret (Ok x, _) => Some x | _ => None end.
(* the e of f(...) = Err(e) *)
Definition failed {E} (r : outcome (result (list N * nat) E * list N)) : option E :=
  match r with Ret (Err e, _) => Some e | _ => None end.
(* &buf[..n] after the call *)
Definition buffer_to {E} (n : nat) (r : outcome (result (list N * nat) E * list N)) : option (list N) :=
  match r with Ret (_, buf) => Some (firstn n buf) | _ => None end.
Definition same (r : option (list N * nat)) (s : list N) (n : nat) : bool :=
  match r with Some (s', n') => (if list_eq_dec N.eq_dec s' s then true else false) && (n' =? n)%nat | None => false end.

(** ** /repo/src/utf8.rs *)

(* lines 94-100 *)
Example utf8_encode_01_1 : returned (utf8_encode_from_str [0xE3; 0x81; 0x93; 0xE3; 0x82; 0x93; 0xE3; 0x81; 0xAB; 0xE3; 0x81; 0xA1; 0xE3; 0x81; 0xAF; 0xEF; 0xBC; 0x81] (zeros 2)) = Some ([], 0%nat).
Proof. vm_compute. reflexivity. Qed.

(* lines 103-109 *)
Example utf8_encode_02_1 : returned (utf8_encode_from_str [0xE3; 0x81; 0x93; 0xE3; 0x82; 0x93; 0xE3; 0x81; 0xAB; 0xE3; 0x81; 0xA1; 0xE3; 0x81; 0xAF; 0xEF; 0xBC; 0x81] (zeros 3)) = Some ([0xE3; 0x81; 0x93], 3%nat).
Proof. vm_compute. reflexivity. Qed.

(* lines 112-118 *)
Example utf8_encode_03_1 : returned (utf8_encode_from_str [0xE3; 0x81; 0x93; 0xE3; 0x82; 0x93; 0xE3; 0x81; 0xAB; 0xE3; 0x81; 0xA1; 0xE3; 0x81; 0xAF; 0xEF; 0xBC; 0x81] (zeros 5)) = Some ([0xE3; 0x81; 0x93], 3%nat).
Proof. vm_compute. reflexivity. Qed.

(* lines 121-130 *)
Example utf8_decode_01_1 : returned (utf8_decode_to_str [0xE3; 0x81; 0x93; 0xE3; 0x82; 0x93; 0xE3; 0x81; 0xAB; 0xE3; 0x81; 0xA1; 0xE3; 0x81; 0xAF; 0xEF; 0xBC; 0x81] (zeros 2) true) = Some ([], 0%nat).
Proof. vm_compute. reflexivity. Qed.

(* lines 133-142 *)
Example utf8_decode_02_1 : returned (utf8_decode_to_str [0xE3; 0x81; 0x93; 0xE3; 0x82; 0x93; 0xE3; 0x81; 0xAB; 0xE3; 0x81; 0xA1; 0xE3; 0x81; 0xAF; 0xEF; 0xBC; 0x81] (zeros 3) true) = Some ([0xE3; 0x81; 0x93], 3%nat).
Proof. vm_compute. reflexivity. Qed.

(* lines 145-154 *)
Example utf8_decode_03_1 : returned (utf8_decode_to_str [0xE3; 0x81; 0x93; 0xE3; 0x82; 0x93; 0xE3; 0x81; 0xAB; 0xE3; 0x81; 0xA1; 0xE3; 0x81; 0xAF; 0xEF; 0xBC; 0x81] (zeros 5) true) = Some ([0xE3; 0x81; 0x93], 3%nat).
Proof. vm_compute. reflexivity. Qed.

(* lines 157-166 *)
Example utf8_decode_04_1 : returned (utf8_decode_to_str [0xE3; 0x81; 0x93; 0xE3; 0x82; 0x93; 0xE3; 0x81; 0xAB; 0xE3; 0x81; 0xA1; 0xE3; 0x81; 0xAF; 0xEF; 0xBC] (zeros 64) false) = Some ([0xE3; 0x81; 0x93; 0xE3; 0x82; 0x93; 0xE3; 0x81; 0xAB; 0xE3; 0x81; 0xA1; 0xE3; 0x81; 0xAF], 15%nat).
Proof. vm_compute. reflexivity. Qed.

(* lines 169-178 *)
Example utf8_decode_05_1 : returned (utf8_decode_to_str [0xE3; 0x81; 0x93; 0xE3; 0x82; 0x93; 0xE3; 0x81; 0xAB; 0xE3; 0x81; 0xA1; 0xE3; 0x81; 0xAF; 0xEF] (zeros 64) false) = Some ([0xE3; 0x81; 0x93; 0xE3; 0x82; 0x93; 0xE3; 0x81; 0xAB; 0xE3; 0x81; 0xA1; 0xE3; 0x81; 0xAF], 15%nat).
Proof. vm_compute. reflexivity. Qed.

(* lines 181-196 *)
Example utf8_decode_error_01_1 : failed (utf8_decode_to_str [0x80; 0x81; 0x93; 0xE3; 0x82; 0x93; 0xE3; 0x81; 0xAB; 0xE3; 0x81; 0xA1; 0xE3; 0x81; 0xAF; 0xEF; 0xBC; 0x81] (zeros 2) true) = Some (DecodeError InvalidData (0, 3)%nat 0).
Proof. vm_compute. reflexivity. Qed.

(* lines 199-214 *)
Example utf8_decode_error_02_1 : failed (utf8_decode_to_str [0xE3; 0x81; 0xE3; 0x82; 0x93; 0xE3; 0x81; 0xAB; 0xE3; 0x81; 0xA1; 0xE3; 0x81; 0xAF; 0xEF; 0xBC; 0x81] (zeros 2) true) = Some (DecodeError InvalidData (0, 2)%nat 0).
Proof. vm_compute. reflexivity. Qed.

(* lines 217-232 *)
Example utf8_decode_error_03_1 : failed (utf8_decode_to_str [0xE3; 0x81; 0x93; 0x80; 0x82; 0x93; 0xE3; 0x81; 0xAB; 0xE3; 0x81; 0xA1; 0xE3; 0x81; 0xAF; 0xEF; 0xBC; 0x81] (zeros 64) true) = Some (DecodeError InvalidData (3, 6)%nat 3).
Proof. vm_compute. reflexivity. Qed.

(* lines 235-250 *)
Example utf8_decode_error_04_1 : failed (utf8_decode_to_str [0xE3; 0x81; 0x93; 0x80; 0x82; 0x93; 0x80; 0x81; 0xAB; 0x80; 0x81; 0xA1; 0xE3; 0x81; 0xAF; 0xEF; 0xBC; 0x81] (zeros 64) true) = Some (DecodeError InvalidData (3, 12)%nat 3).
Proof. vm_compute. reflexivity. Qed.

(* lines 253-268 *)
Example utf8_decode_error_05_1 : failed (utf8_decode_to_str [0xE3; 0x81; 0x93; 0xF8; 0x82; 0x93; 0x93; 0x93; 0xE3; 0x81; 0xAB; 0xE3; 0x81; 0xA1; 0xE3; 0x81; 0xAF; 0xEF; 0xBC; 0x81] (zeros 64) true) = Some (DecodeError InvalidData (3, 8)%nat 3).
Proof. vm_compute. reflexivity. Qed.

(* lines 271-286 *)
Example utf8_decode_error_06_1 : failed (utf8_decode_to_str [0xE3; 0x81; 0x93; 0xED; 0xA0; 0x80; 0xE3; 0x81; 0xAB; 0xE3; 0x81; 0xA1; 0xE3; 0x81; 0xAF; 0xEF; 0xBC; 0x81] (zeros 64) true) = Some (DecodeError InvalidData (3, 6)%nat 3).
Proof. vm_compute. reflexivity. Qed.

(* lines 289-304 *)
Example utf8_decode_error_07_1 : failed (utf8_decode_to_str [0xE3; 0x81; 0x93; 0xED; 0xBF; 0xBF; 0xE3; 0x81; 0xAB; 0xE3; 0x81; 0xA1; 0xE3; 0x81; 0xAF; 0xEF; 0xBC; 0x81] (zeros 64) true) = Some (DecodeError InvalidData (3, 6)%nat 3).
Proof. vm_compute. reflexivity. Qed.

(* lines 307-322 *)
Example utf8_decode_error_08_1 : failed (utf8_decode_to_str [0xE3; 0x81; 0x93; 0xF4; 0x90; 0x80; 0x80; 0xE3; 0x81; 0xAB; 0xE3; 0x81; 0xA1; 0xE3; 0x81; 0xAF; 0xEF; 0xBC; 0x81] (zeros 64) true) = Some (DecodeError InvalidData (3, 7)%nat 3).
Proof. vm_compute. reflexivity. Qed.

(* lines 325-340 *)
Example utf8_decode_error_09_1 : failed (utf8_decode_to_str [0xE3; 0x81; 0x93; 0xC0; 0x93; 0xE3; 0x81; 0xAB; 0xE3; 0x81; 0xA1; 0xE3; 0x81; 0xAF; 0xEF; 0xBC; 0x81] (zeros 64) true) = Some (DecodeError InvalidData (3, 5)%nat 3).
Proof. vm_compute. reflexivity. Qed.

(* lines 343-358 *)
Example utf8_decode_error_10_1 : failed (utf8_decode_to_str [0xE3; 0x81; 0x93; 0xC1; 0x93; 0xE3; 0x81; 0xAB; 0xE3; 0x81; 0xA1; 0xE3; 0x81; 0xAF; 0xEF; 0xBC; 0x81] (zeros 64) true) = Some (DecodeError InvalidData (3, 5)%nat 3).
Proof. vm_compute. reflexivity. Qed.

(* lines 361-376 *)
Example utf8_decode_error_11_1 : failed (utf8_decode_to_str [0xE3; 0x81; 0x93; 0xE3; 0x82; 0x93; 0xE3; 0x81; 0xAB; 0xE3; 0x81; 0xA1; 0xE3; 0x81; 0xAF; 0xEF; 0xBC] (zeros 64) true) = Some (DecodeError InvalidData (15, 17)%nat 15).
Proof. vm_compute. reflexivity. Qed.

(* lines 379-394 *)
Example utf8_decode_error_12_1 : failed (utf8_decode_to_str [0xE3; 0x81; 0x93; 0xE3; 0x82; 0x93; 0xE3; 0x81; 0xAB; 0xE3; 0x81; 0xA1; 0xE3; 0x81; 0xAF; 0xEF] (zeros 64) true) = Some (DecodeError InvalidData (15, 16)%nat 15).
Proof. vm_compute. reflexivity. Qed.


(** ** /repo/src/utf16_be.rs *)

(* lines 143-149 *)
Example utf16_be_encode_01_1 : returned (utf16_be_encode_from_str [0xE3; 0x81; 0x93; 0xE3; 0x82; 0x93; 0xE3; 0x81; 0xAB; 0xE3; 0x81; 0xA1; 0xE3; 0x81; 0xAF; 0xEF; 0xBC; 0x81] (zeros 1)) = Some ([], 0%nat).
Proof. vm_compute. reflexivity. Qed.

(* lines 152-158 *)
Example utf16_be_encode_02_1 : returned (utf16_be_encode_from_str [0xE3; 0x81; 0x93; 0xE3; 0x82; 0x93; 0xE3; 0x81; 0xAB; 0xE3; 0x81; 0xA1; 0xE3; 0x81; 0xAF; 0xEF; 0xBC; 0x81] (zeros 2)) = Some ([0x30; 0x53], 3%nat).
Proof. vm_compute. reflexivity. Qed.

(* lines 161-167 *)
Example utf16_be_encode_03_1 : returned (utf16_be_encode_from_str [0xE3; 0x81; 0x93; 0xE3; 0x82; 0x93; 0xE3; 0x81; 0xAB; 0xE3; 0x81; 0xA1; 0xE3; 0x81; 0xAF; 0xEF; 0xBC; 0x81] (zeros 3)) = Some ([0x30; 0x53], 3%nat).
Proof. vm_compute. reflexivity. Qed.

(* lines 170-176 *)
Example utf16_be_encode_04_1 : returned (utf16_be_encode_from_str [0xF0; 0x9F; 0x98; 0xBA; 0xF0; 0x9F; 0x98; 0xBC] (zeros 3)) = Some ([], 0%nat).
Proof. vm_compute. reflexivity. Qed.

(* lines 179-185 *)
Example utf16_be_encode_05_1 : returned (utf16_be_encode_from_str [0xF0; 0x9F; 0x98; 0xBA; 0xF0; 0x9F; 0x98; 0xBC] (zeros 4)) = Some ([0xD8; 0x3D; 0xDE; 0x3A], 4%nat).
Proof. vm_compute. reflexivity. Qed.

(* lines 188-194 *)
Example utf16_be_encode_06_1 : returned (utf16_be_encode_from_str [0xF0; 0x9F; 0x98; 0xBA; 0xF0; 0x9F; 0x98; 0xBC] (zeros 7)) = Some ([0xD8; 0x3D; 0xDE; 0x3A], 4%nat).
Proof. vm_compute. reflexivity. Qed.

(* lines 197-205 *)
Example utf16_be_decode_01_1 : returned (utf16_be_decode_to_str [0x30; 0x53; 0x30; 0x93; 0x30; 0x6B; 0x30; 0x61; 0x30; 0x6F; 0xFF; 0x01] (zeros 2) true) = Some ([], 0%nat).
Proof. vm_compute. reflexivity. Qed.

(* lines 208-216 *)
Example utf16_be_decode_02_1 : returned (utf16_be_decode_to_str [0x30; 0x53; 0x30; 0x93; 0x30; 0x6B; 0x30; 0x61; 0x30; 0x6F; 0xFF; 0x01] (zeros 3) true) = Some ([0xE3; 0x81; 0x93], 2%nat).
Proof. vm_compute. reflexivity. Qed.

(* lines 219-227 *)
Example utf16_be_decode_03_1 : returned (utf16_be_decode_to_str [0x30; 0x53; 0x30; 0x93; 0x30; 0x6B; 0x30; 0x61; 0x30; 0x6F; 0xFF; 0x01] (zeros 5) true) = Some ([0xE3; 0x81; 0x93], 2%nat).
Proof. vm_compute. reflexivity. Qed.

(* lines 230-236 *)
Example utf16_be_decode_04_1 : returned (utf16_be_decode_to_str [0xD8; 0x3D; 0xDE; 0x3A; 0xD8; 0x3D; 0xDE; 0x3C] (zeros 3) true) = Some ([], 0%nat).
Proof. vm_compute. reflexivity. Qed.

(* lines 239-245 *)
Example utf16_be_decode_05_1 : returned (utf16_be_decode_to_str [0xD8; 0x3D; 0xDE; 0x3A; 0xD8; 0x3D; 0xDE; 0x3C] (zeros 4) true) = Some ([0xF0; 0x9F; 0x98; 0xBA], 4%nat).
Proof. vm_compute. reflexivity. Qed.

(* lines 248-254 *)
Example utf16_be_decode_06_1 : returned (utf16_be_decode_to_str [0xD8; 0x3D; 0xDE; 0x3A; 0xD8; 0x3D; 0xDE; 0x3C] (zeros 7) true) = Some ([0xF0; 0x9F; 0x98; 0xBA], 4%nat).
Proof. vm_compute. reflexivity. Qed.

(* lines 257-263 *)
Example utf16_be_decode_07_1 : returned (utf16_be_decode_to_str [0xD8; 0x3D; 0xDE; 0x3A; 0xD8; 0x3D] (zeros 64) false) = Some ([0xF0; 0x9F; 0x98; 0xBA], 4%nat).
Proof. vm_compute. reflexivity. Qed.

(* lines 266-272 *)
Example utf16_be_decode_08_1 : returned (utf16_be_decode_to_str [0xD8; 0x3D; 0xDE; 0x3A; 0xD8; 0x3D; 0xDE] (zeros 64) false) = Some ([0xF0; 0x9F; 0x98; 0xBA], 4%nat).
Proof. vm_compute. reflexivity. Qed.

(* lines 275-281 *)
Example utf16_be_decode_09_1 : returned (utf16_be_decode_to_str [0xD8; 0x3D; 0xDE; 0x3A; 0xD8] (zeros 64) false) = Some ([0xF0; 0x9F; 0x98; 0xBA], 4%nat).
Proof. vm_compute. reflexivity. Qed.

(* lines 284-298 *)
Example utf16_be_decode_error_01_1 : failed (utf16_be_decode_to_str [0xDE; 0x3A; 0x30; 0x93; 0x30; 0x6B; 0x30; 0x61; 0x30; 0x6F; 0xFF; 0x01] (zeros 2) true) = Some (DecodeError InvalidData (0, 2)%nat 0).
Proof. vm_compute. reflexivity. Qed.

(* lines 301-315 *)
Example utf16_be_decode_error_02_1 : failed (utf16_be_decode_to_str [0x30; 0x53; 0xDE; 0x3A; 0x30; 0x6B; 0x30; 0x61; 0x30; 0x6F; 0xFF; 0x01] (zeros 3) true) = Some (DecodeError InvalidData (2, 4)%nat 3).
Proof. vm_compute. reflexivity. Qed.

(* lines 318-332 *)
Example utf16_be_decode_error_03_1 : failed (utf16_be_decode_to_str [0x30; 0x53; 0x30; 0x93; 0x30; 0x6B; 0xDE; 0x3A; 0x30; 0x6F; 0xFF; 0x01] (zeros 64) true) = Some (DecodeError InvalidData (6, 8)%nat 9).
Proof. vm_compute. reflexivity. Qed.

(* lines 335-349 *)
Example utf16_be_decode_error_04_1 : failed (utf16_be_decode_to_str [0xD8; 0x3D; 0x30; 0x93; 0x30; 0x6B; 0x30; 0x61; 0x30; 0x6F; 0xFF; 0x01] (zeros 2) true) = Some (DecodeError InvalidData (0, 2)%nat 0).
Proof. vm_compute. reflexivity. Qed.

(* lines 352-366 *)
Example utf16_be_decode_error_05_1 : failed (utf16_be_decode_to_str [0x30; 0x53; 0xD8; 0x3D; 0x30; 0x6B; 0x30; 0x61; 0x30; 0x6F; 0xFF; 0x01] (zeros 3) true) = Some (DecodeError InvalidData (2, 4)%nat 3).
Proof. vm_compute. reflexivity. Qed.

(* lines 369-383 *)
Example utf16_be_decode_error_06_1 : failed (utf16_be_decode_to_str [0x30; 0x53; 0x30; 0x93; 0x30; 0x6B; 0xD8; 0x3D; 0x30; 0x6F; 0xFF; 0x01] (zeros 64) true) = Some (DecodeError InvalidData (6, 8)%nat 9).
Proof. vm_compute. reflexivity. Qed.

(* lines 386-398 *)
Example utf16_be_decode_error_07_1 : failed (utf16_be_decode_to_str [0xD8; 0x3D; 0xDE; 0x3A; 0xD8; 0x3D] (zeros 64) true) = Some (DecodeError InvalidData (4, 6)%nat 4).
Proof. vm_compute. reflexivity. Qed.

(* lines 401-413 *)
Example utf16_be_decode_error_08_1 : failed (utf16_be_decode_to_str [0xD8; 0x3D; 0xDE; 0x3A; 0xD8; 0x3D; 0xDE] (zeros 64) true) = Some (DecodeError InvalidData (4, 7)%nat 4).
Proof. vm_compute. reflexivity. Qed.

(* lines 416-428 *)
Example utf16_be_decode_error_09_1 : failed (utf16_be_decode_to_str [0xD8; 0x3D; 0xDE; 0x3A; 0xD8] (zeros 64) true) = Some (DecodeError InvalidData (4, 5)%nat 4).
Proof. vm_compute. reflexivity. Qed.


(** ** /repo/src/utf16_le.rs *)

(* lines 143-149 *)
Example utf16_le_encode_01_1 : returned (utf16_le_encode_from_str [0xE3; 0x81; 0x93; 0xE3; 0x82; 0x93; 0xE3; 0x81; 0xAB; 0xE3; 0x81; 0xA1; 0xE3; 0x81; 0xAF; 0xEF; 0xBC; 0x81] (zeros 1)) = Some ([], 0%nat).
Proof. vm_compute. reflexivity. Qed.

(* lines 152-158 *)
Example utf16_le_encode_02_1 : returned (utf16_le_encode_from_str [0xE3; 0x81; 0x93; 0xE3; 0x82; 0x93; 0xE3; 0x81; 0xAB; 0xE3; 0x81; 0xA1; 0xE3; 0x81; 0xAF; 0xEF; 0xBC; 0x81] (zeros 2)) = Some ([0x53; 0x30], 3%nat).
Proof. vm_compute. reflexivity. Qed.

(* lines 161-167 *)
Example utf16_le_encode_03_1 : returned (utf16_le_encode_from_str [0xE3; 0x81; 0x93; 0xE3; 0x82; 0x93; 0xE3; 0x81; 0xAB; 0xE3; 0x81; 0xA1; 0xE3; 0x81; 0xAF; 0xEF; 0xBC; 0x81] (zeros 3)) = Some ([0x53; 0x30], 3%nat).
Proof. vm_compute. reflexivity. Qed.

(* lines 170-176 *)
Example utf16_le_encode_04_1 : returned (utf16_le_encode_from_str [0xF0; 0x9F; 0x98; 0xBA; 0xF0; 0x9F; 0x98; 0xBC] (zeros 3)) = Some ([], 0%nat).
Proof. vm_compute. reflexivity. Qed.

(* lines 179-185 *)
Example utf16_le_encode_05_1 : returned (utf16_le_encode_from_str [0xF0; 0x9F; 0x98; 0xBA; 0xF0; 0x9F; 0x98; 0xBC] (zeros 4)) = Some ([0x3D; 0xD8; 0x3A; 0xDE], 4%nat).
Proof. vm_compute. reflexivity. Qed.

(* lines 188-194 *)
Example utf16_le_encode_06_1 : returned (utf16_le_encode_from_str [0xF0; 0x9F; 0x98; 0xBA; 0xF0; 0x9F; 0x98; 0xBC] (zeros 7)) = Some ([0x3D; 0xD8; 0x3A; 0xDE], 4%nat).
Proof. vm_compute. reflexivity. Qed.

(* lines 197-205 *)
Example utf16_le_decode_01_1 : returned (utf16_le_decode_to_str [0x53; 0x30; 0x93; 0x30; 0x6B; 0x30; 0x61; 0x30; 0x6F; 0x30; 0x01; 0xFF] (zeros 2) true) = Some ([], 0%nat).
Proof. vm_compute. reflexivity. Qed.

(* lines 208-216 *)
Example utf16_le_decode_02_1 : returned (utf16_le_decode_to_str [0x53; 0x30; 0x93; 0x30; 0x6B; 0x30; 0x61; 0x30; 0x6F; 0x30; 0x01; 0xFF] (zeros 3) true) = Some ([0xE3; 0x81; 0x93], 2%nat).
Proof. vm_compute. reflexivity. Qed.

(* lines 219-227 *)
Example utf16_le_decode_03_1 : returned (utf16_le_decode_to_str [0x53; 0x30; 0x93; 0x30; 0x6B; 0x30; 0x61; 0x30; 0x6F; 0x30; 0x01; 0xFF] (zeros 5) true) = Some ([0xE3; 0x81; 0x93], 2%nat).
Proof. vm_compute. reflexivity. Qed.

(* lines 230-236 *)
Example utf16_le_decode_04_1 : returned (utf16_le_decode_to_str [0x3D; 0xD8; 0x3A; 0xDE; 0x3D; 0xD8; 0x3C; 0xDE] (zeros 3) true) = Some ([], 0%nat).
Proof. vm_compute. reflexivity. Qed.

(* lines 239-245 *)
Example utf16_le_decode_05_1 : returned (utf16_le_decode_to_str [0x3D; 0xD8; 0x3A; 0xDE; 0x3D; 0xD8; 0x3C; 0xDE] (zeros 4) true) = Some ([0xF0; 0x9F; 0x98; 0xBA], 4%nat).
Proof. vm_compute. reflexivity. Qed.

(* lines 248-254 *)
Example utf16_le_decode_06_1 : returned (utf16_le_decode_to_str [0x3D; 0xD8; 0x3A; 0xDE; 0x3D; 0xD8; 0x3C; 0xDE] (zeros 7) true) = Some ([0xF0; 0x9F; 0x98; 0xBA], 4%nat).
Proof. vm_compute. reflexivity. Qed.

(* lines 257-263 *)
Example utf16_le_decode_07_1 : returned (utf16_le_decode_to_str [0x3D; 0xD8; 0x3A; 0xDE; 0x3D; 0xD8] (zeros 64) false) = Some ([0xF0; 0x9F; 0x98; 0xBA], 4%nat).
Proof. vm_compute. reflexivity. Qed.

(* lines 266-272 *)
Example utf16_le_decode_08_1 : returned (utf16_le_decode_to_str [0x3D; 0xD8; 0x3A; 0xDE; 0x3D; 0xD8; 0x3C] (zeros 64) false) = Some ([0xF0; 0x9F; 0x98; 0xBA], 4%nat).
Proof. vm_compute. reflexivity. Qed.

(* lines 275-281 *)
Example utf16_le_decode_09_1 : returned (utf16_le_decode_to_str [0x3D; 0xD8; 0x3A; 0xDE; 0x3D] (zeros 64) false) = Some ([0xF0; 0x9F; 0x98; 0xBA], 4%nat).
Proof. vm_compute. reflexivity. Qed.

(* lines 284-298 *)
Example utf16_le_decode_error_01_1 : failed (utf16_le_decode_to_str [0x3A; 0xDE; 0x93; 0x30; 0x6B; 0x30; 0x61; 0x30; 0x6F; 0x30; 0x01; 0xFF] (zeros 2) true) = Some (DecodeError InvalidData (0, 2)%nat 0).
Proof. vm_compute. reflexivity. Qed.

(* lines 301-315 *)
Example utf16_le_decode_error_02_1 : failed (utf16_le_decode_to_str [0x53; 0x30; 0x3A; 0xDE; 0x6B; 0x30; 0x61; 0x30; 0x6F; 0x30; 0x01; 0xFF] (zeros 3) true) = Some (DecodeError InvalidData (2, 4)%nat 3).
Proof. vm_compute. reflexivity. Qed.

(* lines 318-332 *)
Example utf16_le_decode_error_03_1 : failed (utf16_le_decode_to_str [0x53; 0x30; 0x93; 0x30; 0x6B; 0x30; 0x3A; 0xDE; 0x6F; 0x30; 0x01; 0xFF] (zeros 64) true) = Some (DecodeError InvalidData (6, 8)%nat 9).
Proof. vm_compute. reflexivity. Qed.

(* lines 335-349 *)
Example utf16_le_decode_error_04_1 : failed (utf16_le_decode_to_str [0x3D; 0xD8; 0x93; 0x30; 0x6B; 0x30; 0x61; 0x30; 0x6F; 0x30; 0x01; 0xFF] (zeros 2) true) = Some (DecodeError InvalidData (0, 2)%nat 0).
Proof. vm_compute. reflexivity. Qed.

(* lines 352-366 *)
Example utf16_le_decode_error_05_1 : failed (utf16_le_decode_to_str [0x53; 0x30; 0x3D; 0xD8; 0x6B; 0x30; 0x61; 0x30; 0x6F; 0x30; 0x01; 0xFF] (zeros 3) true) = Some (DecodeError InvalidData (2, 4)%nat 3).
Proof. vm_compute. reflexivity. Qed.

(* lines 369-383 *)
Example utf16_le_decode_error_06_1 : failed (utf16_le_decode_to_str [0x53; 0x30; 0x93; 0x30; 0x6B; 0x30; 0x3D; 0xD8; 0x6F; 0x30; 0x01; 0xFF] (zeros 64) true) = Some (DecodeError InvalidData (6, 8)%nat 9).
Proof. vm_compute. reflexivity. Qed.

(* lines 386-398 *)
Example utf16_le_decode_error_07_1 : failed (utf16_le_decode_to_str [0x3D; 0xD8; 0x3A; 0xDE; 0x3D; 0xD8] (zeros 64) true) = Some (DecodeError InvalidData (4, 6)%nat 4).
Proof. vm_compute. reflexivity. Qed.

(* lines 401-413 *)
Example utf16_le_decode_error_08_1 : failed (utf16_le_decode_to_str [0x3D; 0xD8; 0x3A; 0xDE; 0x3D; 0xD8; 0x3C] (zeros 64) true) = Some (DecodeError InvalidData (4, 7)%nat 4).
Proof. vm_compute. reflexivity. Qed.

(* lines 416-428 *)
Example utf16_le_decode_error_09_1 : failed (utf16_le_decode_to_str [0x3D; 0xD8; 0x3A; 0xDE; 0x3D] (zeros 64) true) = Some (DecodeError InvalidData (4, 5)%nat 4).
Proof. vm_compute. reflexivity. Qed.


(** ** /repo/src/utf32_be.rs *)

(* lines 91-97 *)
Example utf32_be_encode_01_1 : returned (utf32_be_encode_from_str [0xE3; 0x81; 0x93; 0xE3; 0x82; 0x93; 0xE3; 0x81; 0xAB; 0xE3; 0x81; 0xA1; 0xE3; 0x81; 0xAF; 0xEF; 0xBC; 0x81] (zeros 3)) = Some ([], 0%nat).
Proof. vm_compute. reflexivity. Qed.

(* lines 100-106 *)
Example utf32_be_encode_02_1 : returned (utf32_be_encode_from_str [0xE3; 0x81; 0x93; 0xE3; 0x82; 0x93; 0xE3; 0x81; 0xAB; 0xE3; 0x81; 0xA1; 0xE3; 0x81; 0xAF; 0xEF; 0xBC; 0x81] (zeros 4)) = Some ([0x00; 0x00; 0x30; 0x53], 3%nat).
Proof. vm_compute. reflexivity. Qed.

(* lines 109-115 *)
Example utf32_be_encode_03_1 : returned (utf32_be_encode_from_str [0xE3; 0x81; 0x93; 0xE3; 0x82; 0x93; 0xE3; 0x81; 0xAB; 0xE3; 0x81; 0xA1; 0xE3; 0x81; 0xAF; 0xEF; 0xBC; 0x81] (zeros 7)) = Some ([0x00; 0x00; 0x30; 0x53], 3%nat).
Proof. vm_compute. reflexivity. Qed.

(* lines 118-124 *)
Example utf32_be_encode_04_1 : returned (utf32_be_encode_from_str [0xF0; 0x9F; 0x98; 0xBA; 0xF0; 0x9F; 0x98; 0xBC] (zeros 3)) = Some ([], 0%nat).
Proof. vm_compute. reflexivity. Qed.

(* lines 127-133 *)
Example utf32_be_encode_05_1 : returned (utf32_be_encode_from_str [0xF0; 0x9F; 0x98; 0xBA; 0xF0; 0x9F; 0x98; 0xBC] (zeros 4)) = Some ([0x00; 0x01; 0xF6; 0x3A], 4%nat).
Proof. vm_compute. reflexivity. Qed.

(* lines 136-142 *)
Example utf32_be_encode_06_1 : returned (utf32_be_encode_from_str [0xF0; 0x9F; 0x98; 0xBA; 0xF0; 0x9F; 0x98; 0xBC] (zeros 7)) = Some ([0x00; 0x01; 0xF6; 0x3A], 4%nat).
Proof. vm_compute. reflexivity. Qed.

(* lines 145-154 *)
Example utf32_be_decode_01_1 : returned (utf32_be_decode_to_str [0x00; 0x00; 0x30; 0x53; 0x00; 0x00; 0x30; 0x93; 0x00; 0x00; 0x30; 0x6B; 0x00; 0x00; 0x30; 0x61; 0x00; 0x00; 0x30; 0x6F; 0x00; 0x00; 0xFF; 0x01] (zeros 2) true) = Some ([], 0%nat).
Proof. vm_compute. reflexivity. Qed.

(* lines 157-166 *)
Example utf32_be_decode_02_1 : returned (utf32_be_decode_to_str [0x00; 0x00; 0x30; 0x53; 0x00; 0x00; 0x30; 0x93; 0x00; 0x00; 0x30; 0x6B; 0x00; 0x00; 0x30; 0x61; 0x00; 0x00; 0x30; 0x6F; 0x00; 0x00; 0xFF; 0x01] (zeros 3) true) = Some ([0xE3; 0x81; 0x93], 4%nat).
Proof. vm_compute. reflexivity. Qed.

(* lines 169-178 *)
Example utf32_be_decode_03_1 : returned (utf32_be_decode_to_str [0x00; 0x00; 0x30; 0x53; 0x00; 0x00; 0x30; 0x93; 0x00; 0x00; 0x30; 0x6B; 0x00; 0x00; 0x30; 0x61; 0x00; 0x00; 0x30; 0x6F; 0x00; 0x00; 0xFF; 0x01] (zeros 5) true) = Some ([0xE3; 0x81; 0x93], 4%nat).
Proof. vm_compute. reflexivity. Qed.

(* lines 181-187 *)
Example utf32_be_decode_04_1 : returned (utf32_be_decode_to_str [0x00; 0x01; 0xF6; 0x3A; 0x00; 0x01; 0xF6; 0x3C] (zeros 3) true) = Some ([], 0%nat).
Proof. vm_compute. reflexivity. Qed.

(* lines 190-196 *)
Example utf32_be_decode_05_1 : returned (utf32_be_decode_to_str [0x00; 0x01; 0xF6; 0x3A; 0x00; 0x01; 0xF6; 0x3C] (zeros 4) true) = Some ([0xF0; 0x9F; 0x98; 0xBA], 4%nat).
Proof. vm_compute. reflexivity. Qed.

(* lines 199-205 *)
Example utf32_be_decode_06_1 : returned (utf32_be_decode_to_str [0x00; 0x01; 0xF6; 0x3A; 0x00; 0x01; 0xF6; 0x3C] (zeros 7) true) = Some ([0xF0; 0x9F; 0x98; 0xBA], 4%nat).
Proof. vm_compute. reflexivity. Qed.

(* lines 208-214 *)
Example utf32_be_decode_07_1 : returned (utf32_be_decode_to_str [0x00; 0x01; 0xF6; 0x3A; 0x00; 0x01; 0xF6] (zeros 64) false) = Some ([0xF0; 0x9F; 0x98; 0xBA], 4%nat).
Proof. vm_compute. reflexivity. Qed.

(* lines 217-223 *)
Example utf32_be_decode_08_1 : returned (utf32_be_decode_to_str [0x00; 0x01; 0xF6; 0x3A; 0x00; 0x01] (zeros 64) false) = Some ([0xF0; 0x9F; 0x98; 0xBA], 4%nat).
Proof. vm_compute. reflexivity. Qed.

(* lines 226-232 *)
Example utf32_be_decode_09_1 : returned (utf32_be_decode_to_str [0x00; 0x01; 0xF6; 0x3A; 0x00] (zeros 64) false) = Some ([0xF0; 0x9F; 0x98; 0xBA], 4%nat).
Proof. vm_compute. reflexivity. Qed.

(* lines 235-249 *)
Example utf32_be_decode_error_01_1 : failed (utf32_be_decode_to_str [0x00; 0x11; 0x00; 0x00; 0x00; 0x00; 0x30; 0x93; 0x00; 0x00; 0x30; 0x6B; 0x00; 0x00; 0x30; 0x61; 0x00; 0x00; 0x30; 0x6F; 0x00; 0x00; 0xFF; 0x01] (zeros 2) true) = Some (DecodeError InvalidData (0, 4)%nat 0).
Proof. vm_compute. reflexivity. Qed.

(* lines 252-266 *)
Example utf32_be_decode_error_02_1 : failed (utf32_be_decode_to_str [0x00; 0x00; 0xD8; 0x00; 0x00; 0x00; 0x30; 0x93; 0x00; 0x00; 0x30; 0x6B; 0x00; 0x00; 0x30; 0x61; 0x00; 0x00; 0x30; 0x6F; 0x00; 0x00; 0xFF; 0x01] (zeros 2) true) = Some (DecodeError InvalidData (0, 4)%nat 0).
Proof. vm_compute. reflexivity. Qed.

(* lines 269-283 *)
Example utf32_be_decode_error_03_1 : failed (utf32_be_decode_to_str [0x00; 0x00; 0xDF; 0xFF; 0x00; 0x00; 0x30; 0x93; 0x00; 0x00; 0x30; 0x6B; 0x00; 0x00; 0x30; 0x61; 0x00; 0x00; 0x30; 0x6F; 0x00; 0x00; 0xFF; 0x01] (zeros 64) true) = Some (DecodeError InvalidData (0, 4)%nat 0).
Proof. vm_compute. reflexivity. Qed.

(* lines 286-301 *)
Example utf32_be_decode_error_04_1 : failed (utf32_be_decode_to_str [0x00; 0x00; 0x30; 0x53; 0x00; 0x11; 0x00; 0x00; 0x00; 0x00; 0x30; 0x6B; 0x00; 0x00; 0x30; 0x61; 0x00; 0x00; 0x30; 0x6F; 0x00; 0x00; 0xFF; 0x01] (zeros 64) true) = Some (DecodeError InvalidData (4, 8)%nat 3).
Proof. vm_compute. reflexivity. Qed.

(* lines 286-301 *)
Example utf32_be_decode_error_04_2 : buffer_to 3 (utf32_be_decode_to_str [0x00; 0x00; 0x30; 0x53; 0x00; 0x11; 0x00; 0x00; 0x00; 0x00; 0x30; 0x6B; 0x00; 0x00; 0x30; 0x61; 0x00; 0x00; 0x30; 0x6F; 0x00; 0x00; 0xFF; 0x01] (zeros 64) true) = Some [0xE3; 0x81; 0x93].
Proof. vm_compute. reflexivity. Qed.

(* lines 304-319 *)
Example utf32_be_decode_error_05_1 : failed (utf32_be_decode_to_str [0x00; 0x00; 0x30; 0x53; 0x00; 0x00; 0xD8; 0x00; 0x00; 0x00; 0x30; 0x6B; 0x00; 0x00; 0x30; 0x61; 0x00; 0x00; 0x30; 0x6F; 0x00; 0x00; 0xFF; 0x01] (zeros 64) true) = Some (DecodeError InvalidData (4, 8)%nat 3).
Proof. vm_compute. reflexivity. Qed.

(* lines 304-319 *)
Example utf32_be_decode_error_05_2 : buffer_to 3 (utf32_be_decode_to_str [0x00; 0x00; 0x30; 0x53; 0x00; 0x00; 0xD8; 0x00; 0x00; 0x00; 0x30; 0x6B; 0x00; 0x00; 0x30; 0x61; 0x00; 0x00; 0x30; 0x6F; 0x00; 0x00; 0xFF; 0x01] (zeros 64) true) = Some [0xE3; 0x81; 0x93].
Proof. vm_compute. reflexivity. Qed.

(* lines 322-337 *)
Example utf32_be_decode_error_06_1 : failed (utf32_be_decode_to_str [0x00; 0x00; 0x30; 0x53; 0x00; 0x00; 0xDF; 0xFF; 0x00; 0x00; 0x30; 0x6B; 0x00; 0x00; 0x30; 0x61; 0x00; 0x00; 0x30; 0x6F; 0x00; 0x00; 0xFF; 0x01] (zeros 64) true) = Some (DecodeError InvalidData (4, 8)%nat 3).
Proof. vm_compute. reflexivity. Qed.

(* lines 322-337 *)
Example utf32_be_decode_error_06_2 : buffer_to 3 (utf32_be_decode_to_str [0x00; 0x00; 0x30; 0x53; 0x00; 0x00; 0xDF; 0xFF; 0x00; 0x00; 0x30; 0x6B; 0x00; 0x00; 0x30; 0x61; 0x00; 0x00; 0x30; 0x6F; 0x00; 0x00; 0xFF; 0x01] (zeros 64) true) = Some [0xE3; 0x81; 0x93].
Proof. vm_compute. reflexivity. Qed.

(* lines 340-352 *)
Example utf32_be_decode_error_07_1 : failed (utf32_be_decode_to_str [0x00; 0x01; 0xF6; 0x3A; 0x00; 0x01; 0xF6] (zeros 64) true) = Some (DecodeError InvalidData (4, 7)%nat 4).
Proof. vm_compute. reflexivity. Qed.

(* lines 340-352 *)
Example utf32_be_decode_error_07_2 : buffer_to 4 (utf32_be_decode_to_str [0x00; 0x01; 0xF6; 0x3A; 0x00; 0x01; 0xF6] (zeros 64) true) = Some [0xF0; 0x9F; 0x98; 0xBA].
Proof. vm_compute. reflexivity. Qed.

(* lines 355-367 *)
Example utf32_be_decode_error_08_1 : failed (utf32_be_decode_to_str [0x00; 0x01; 0xF6; 0x3A; 0x00; 0x01] (zeros 64) true) = Some (DecodeError InvalidData (4, 6)%nat 4).
Proof. vm_compute. reflexivity. Qed.

(* lines 355-367 *)
Example utf32_be_decode_error_08_2 : buffer_to 4 (utf32_be_decode_to_str [0x00; 0x01; 0xF6; 0x3A; 0x00; 0x01] (zeros 64) true) = Some [0xF0; 0x9F; 0x98; 0xBA].
Proof. vm_compute. reflexivity. Qed.

(* lines 370-382 *)
Example utf32_be_decode_error_09_1 : failed (utf32_be_decode_to_str [0x00; 0x01; 0xF6; 0x3A; 0x00] (zeros 64) true) = Some (DecodeError InvalidData (4, 5)%nat 4).
Proof. vm_compute. reflexivity. Qed.

(* lines 370-382 *)
Example utf32_be_decode_error_09_2 : buffer_to 4 (utf32_be_decode_to_str [0x00; 0x01; 0xF6; 0x3A; 0x00] (zeros 64) true) = Some [0xF0; 0x9F; 0x98; 0xBA].
Proof. vm_compute. reflexivity. Qed.


(** ** /repo/src/utf32_le.rs *)

(* lines 91-97 *)
Example utf32_le_encode_01_1 : returned (utf32_le_encode_from_str [0xE3; 0x81; 0x93; 0xE3; 0x82; 0x93; 0xE3; 0x81; 0xAB; 0xE3; 0x81; 0xA1; 0xE3; 0x81; 0xAF; 0xEF; 0xBC; 0x81] (zeros 3)) = Some ([], 0%nat).
Proof. vm_compute. reflexivity. Qed.

(* lines 100-106 *)
Example utf32_le_encode_02_1 : returned (utf32_le_encode_from_str [0xE3; 0x81; 0x93; 0xE3; 0x82; 0x93; 0xE3; 0x81; 0xAB; 0xE3; 0x81; 0xA1; 0xE3; 0x81; 0xAF; 0xEF; 0xBC; 0x81] (zeros 4)) = Some ([0x53; 0x30; 0x00; 0x00], 3%nat).
Proof. vm_compute. reflexivity. Qed.

(* lines 109-115 *)
Example utf32_le_encode_03_1 : returned (utf32_le_encode_from_str [0xE3; 0x81; 0x93; 0xE3; 0x82; 0x93; 0xE3; 0x81; 0xAB; 0xE3; 0x81; 0xA1; 0xE3; 0x81; 0xAF; 0xEF; 0xBC; 0x81] (zeros 7)) = Some ([0x53; 0x30; 0x00; 0x00], 3%nat).
Proof. vm_compute. reflexivity. Qed.

(* lines 118-124 *)
Example utf32_le_encode_04_1 : returned (utf32_le_encode_from_str [0xF0; 0x9F; 0x98; 0xBA; 0xF0; 0x9F; 0x98; 0xBC] (zeros 3)) = Some ([], 0%nat).
Proof. vm_compute. reflexivity. Qed.

(* lines 127-133 *)
Example utf32_le_encode_05_1 : returned (utf32_le_encode_from_str [0xF0; 0x9F; 0x98; 0xBA; 0xF0; 0x9F; 0x98; 0xBC] (zeros 4)) = Some ([0x3A; 0xF6; 0x01; 0x00], 4%nat).
Proof. vm_compute. reflexivity. Qed.

(* lines 136-142 *)
Example utf32_le_encode_06_1 : returned (utf32_le_encode_from_str [0xF0; 0x9F; 0x98; 0xBA; 0xF0; 0x9F; 0x98; 0xBC] (zeros 7)) = Some ([0x3A; 0xF6; 0x01; 0x00], 4%nat).
Proof. vm_compute. reflexivity. Qed.

(* lines 145-154 *)
Example utf32_le_decode_01_1 : returned (utf32_le_decode_to_str [0x53; 0x30; 0x00; 0x00; 0x93; 0x30; 0x00; 0x00; 0x6B; 0x30; 0x00; 0x00; 0x61; 0x30; 0x00; 0x00; 0x6F; 0x30; 0x00; 0x00; 0x01; 0xFF; 0x00; 0x00] (zeros 2) true) = Some ([], 0%nat).
Proof. vm_compute. reflexivity. Qed.

(* lines 157-166 *)
Example utf32_le_decode_02_1 : returned (utf32_le_decode_to_str [0x53; 0x30; 0x00; 0x00; 0x93; 0x30; 0x00; 0x00; 0x6B; 0x30; 0x00; 0x00; 0x61; 0x30; 0x00; 0x00; 0x6F; 0x30; 0x00; 0x00; 0x01; 0xFF; 0x00; 0x00] (zeros 3) true) = Some ([0xE3; 0x81; 0x93], 4%nat).
Proof. vm_compute. reflexivity. Qed.

(* lines 169-178 *)
Example utf32_le_decode_03_1 : returned (utf32_le_decode_to_str [0x53; 0x30; 0x00; 0x00; 0x93; 0x30; 0x00; 0x00; 0x6B; 0x30; 0x00; 0x00; 0x61; 0x30; 0x00; 0x00; 0x6F; 0x30; 0x00; 0x00; 0x01; 0xFF; 0x00; 0x00] (zeros 5) true) = Some ([0xE3; 0x81; 0x93], 4%nat).
Proof. vm_compute. reflexivity. Qed.

(* lines 181-187 *)
Example utf32_le_decode_04_1 : returned (utf32_le_decode_to_str [0x3A; 0xF6; 0x01; 0x00; 0x3C; 0xF6; 0x01; 0x00] (zeros 3) true) = Some ([], 0%nat).
Proof. vm_compute. reflexivity. Qed.

(* lines 190-196 *)
Example utf32_le_decode_05_1 : returned (utf32_le_decode_to_str [0x3A; 0xF6; 0x01; 0x00; 0x3C; 0xF6; 0x01; 0x00] (zeros 4) true) = Some ([0xF0; 0x9F; 0x98; 0xBA], 4%nat).
Proof. vm_compute. reflexivity. Qed.

(* lines 199-205 *)
Example utf32_le_decode_06_1 : returned (utf32_le_decode_to_str [0x3A; 0xF6; 0x01; 0x00; 0x3C; 0xF6; 0x01; 0x00] (zeros 7) true) = Some ([0xF0; 0x9F; 0x98; 0xBA], 4%nat).
Proof. vm_compute. reflexivity. Qed.

(* lines 208-214 *)
Example utf32_le_decode_07_1 : returned (utf32_le_decode_to_str [0x3A; 0xF6; 0x01; 0x00; 0x3C; 0xF6; 0x01] (zeros 64) false) = Some ([0xF0; 0x9F; 0x98; 0xBA], 4%nat).
Proof. vm_compute. reflexivity. Qed.

(* lines 217-223 *)
Example utf32_le_decode_08_1 : returned (utf32_le_decode_to_str [0x3A; 0xF6; 0x01; 0x00; 0x3C; 0xF6] (zeros 64) false) = Some ([0xF0; 0x9F; 0x98; 0xBA], 4%nat).
Proof. vm_compute. reflexivity. Qed.

(* lines 226-232 *)
Example utf32_le_decode_09_1 : returned (utf32_le_decode_to_str [0x3A; 0xF6; 0x01; 0x00; 0x3C] (zeros 64) false) = Some ([0xF0; 0x9F; 0x98; 0xBA], 4%nat).
Proof. vm_compute. reflexivity. Qed.

(* lines 235-249 *)
Example utf32_le_decode_error_01_1 : failed (utf32_le_decode_to_str [0x00; 0x00; 0x11; 0x00; 0x93; 0x30; 0x00; 0x00; 0x6B; 0x30; 0x00; 0x00; 0x61; 0x30; 0x00; 0x00; 0x6F; 0x30; 0x00; 0x00; 0x01; 0xFF; 0x00; 0x00] (zeros 2) true) = Some (DecodeError InvalidData (0, 4)%nat 0).
Proof. vm_compute. reflexivity. Qed.

(* lines 252-266 *)
Example utf32_le_decode_error_02_1 : failed (utf32_le_decode_to_str [0x00; 0xD8; 0x00; 0x00; 0x93; 0x30; 0x00; 0x00; 0x6B; 0x30; 0x00; 0x00; 0x61; 0x30; 0x00; 0x00; 0x6F; 0x30; 0x00; 0x00; 0x01; 0xFF; 0x00; 0x00] (zeros 2) true) = Some (DecodeError InvalidData (0, 4)%nat 0).
Proof. vm_compute. reflexivity. Qed.

(* lines 269-283 *)
Example utf32_le_decode_error_03_1 : failed (utf32_le_decode_to_str [0xFF; 0xDF; 0x00; 0x00; 0x93; 0x30; 0x00; 0x00; 0x6B; 0x30; 0x00; 0x00; 0x61; 0x30; 0x00; 0x00; 0x6F; 0x30; 0x00; 0x00; 0x01; 0xFF; 0x00; 0x00] (zeros 64) true) = Some (DecodeError InvalidData (0, 4)%nat 0).
Proof. vm_compute. reflexivity. Qed.

(* lines 286-301 *)
Example utf32_le_decode_error_04_1 : failed (utf32_le_decode_to_str [0x53; 0x30; 0x00; 0x00; 0x00; 0x00; 0x11; 0x00; 0x6B; 0x30; 0x00; 0x00; 0x61; 0x30; 0x00; 0x00; 0x6F; 0x30; 0x00; 0x00; 0x01; 0xFF; 0x00; 0x00] (zeros 64) true) = Some (DecodeError InvalidData (4, 8)%nat 3).
Proof. vm_compute. reflexivity. Qed.

(* lines 286-301 *)
Example utf32_le_decode_error_04_2 : buffer_to 3 (utf32_le_decode_to_str [0x53; 0x30; 0x00; 0x00; 0x00; 0x00; 0x11; 0x00; 0x6B; 0x30; 0x00; 0x00; 0x61; 0x30; 0x00; 0x00; 0x6F; 0x30; 0x00; 0x00; 0x01; 0xFF; 0x00; 0x00] (zeros 64) true) = Some [0xE3; 0x81; 0x93].
Proof. vm_compute. reflexivity. Qed.

(* lines 304-319 *)
Example utf32_le_decode_error_05_1 : failed (utf32_le_decode_to_str [0x53; 0x30; 0x00; 0x00; 0x00; 0xD8; 0x00; 0x00; 0x6B; 0x30; 0x00; 0x00; 0x61; 0x30; 0x00; 0x00; 0x6F; 0x30; 0x00; 0x00; 0x01; 0xFF; 0x00; 0x00] (zeros 64) true) = Some (DecodeError InvalidData (4, 8)%nat 3).
Proof. vm_compute. reflexivity. Qed.

(* lines 304-319 *)
Example utf32_le_decode_error_05_2 : buffer_to 3 (utf32_le_decode_to_str [0x53; 0x30; 0x00; 0x00; 0x00; 0xD8; 0x00; 0x00; 0x6B; 0x30; 0x00; 0x00; 0x61; 0x30; 0x00; 0x00; 0x6F; 0x30; 0x00; 0x00; 0x01; 0xFF; 0x00; 0x00] (zeros 64) true) = Some [0xE3; 0x81; 0x93].
Proof. vm_compute. reflexivity. Qed.

(* lines 322-337 *)
Example utf32_le_decode_error_06_1 : failed (utf32_le_decode_to_str [0x53; 0x30; 0x00; 0x00; 0xFF; 0xDF; 0x00; 0x00; 0x6B; 0x30; 0x00; 0x00; 0x61; 0x30; 0x00; 0x00; 0x6F; 0x30; 0x00; 0x00; 0x01; 0xFF; 0x00; 0x00] (zeros 64) true) = Some (DecodeError InvalidData (4, 8)%nat 3).
Proof. vm_compute. reflexivity. Qed.

(* lines 322-337 *)
Example utf32_le_decode_error_06_2 : buffer_to 3 (utf32_le_decode_to_str [0x53; 0x30; 0x00; 0x00; 0xFF; 0xDF; 0x00; 0x00; 0x6B; 0x30; 0x00; 0x00; 0x61; 0x30; 0x00; 0x00; 0x6F; 0x30; 0x00; 0x00; 0x01; 0xFF; 0x00; 0x00] (zeros 64) true) = Some [0xE3; 0x81; 0x93].
Proof. vm_compute. reflexivity. Qed.

(* lines 340-352 *)
Example utf32_le_decode_error_07_1 : failed (utf32_le_decode_to_str [0x3A; 0xF6; 0x01; 0x00; 0x3C; 0xF6; 0x01] (zeros 64) true) = Some (DecodeError InvalidData (4, 7)%nat 4).
Proof. vm_compute. reflexivity. Qed.

(* lines 340-352 *)
Example utf32_le_decode_error_07_2 : buffer_to 4 (utf32_le_decode_to_str [0x3A; 0xF6; 0x01; 0x00; 0x3C; 0xF6; 0x01] (zeros 64) true) = Some [0xF0; 0x9F; 0x98; 0xBA].
Proof. vm_compute. reflexivity. Qed.

(* lines 355-367 *)
Example utf32_le_decode_error_08_1 : failed (utf32_le_decode_to_str [0x3A; 0xF6; 0x01; 0x00; 0x3C; 0xF6] (zeros 64) true) = Some (DecodeError InvalidData (4, 6)%nat 4).
Proof. vm_compute. reflexivity. Qed.

(* lines 355-367 *)
Example utf32_le_decode_error_08_2 : buffer_to 4 (utf32_le_decode_to_str [0x3A; 0xF6; 0x01; 0x00; 0x3C; 0xF6] (zeros 64) true) = Some [0xF0; 0x9F; 0x98; 0xBA].
Proof. vm_compute. reflexivity. Qed.

(* lines 370-382 *)
Example utf32_le_decode_error_09_1 : failed (utf32_le_decode_to_str [0x3A; 0xF6; 0x01; 0x00; 0x3C] (zeros 64) true) = Some (DecodeError InvalidData (4, 5)%nat 4).
Proof. vm_compute. reflexivity. Qed.

(* lines 370-382 *)
Example utf32_le_decode_error_09_2 : buffer_to 4 (utf32_le_decode_to_str [0x3A; 0xF6; 0x01; 0x00; 0x3C] (zeros 64) true) = Some [0xF0; 0x9F; 0x98; 0xBA].
Proof. vm_compute. reflexivity. Qed.


(** ** /repo/src/single_byte.rs *)

(* lines 369-375 *)
Example single_byte_encode_01_1 : returned (sb_encode_from_str iso_8859_7 [0x48; 0x65; 0x6C; 0x6C; 0x6F; 0x20; 0x77; 0x6F; 0x72; 0x6C; 0x64; 0x21] (zeros 0)) = Some ([], 0%nat).
Proof. vm_compute. reflexivity. Qed.

(* lines 378-384 *)
Example single_byte_encode_02_1 : returned (sb_encode_from_str iso_8859_7 [0x48; 0x65; 0x6C; 0x6C; 0x6F; 0x20; 0x77; 0x6F; 0x72; 0x6C; 0x64; 0x21] (zeros 1)) = Some ([0x48], 1%nat).
Proof. vm_compute. reflexivity. Qed.

(* lines 387-393 *)
Example single_byte_encode_03_1 : returned (sb_encode_from_str iso_8859_7 [0x48; 0x65; 0x6C; 0x6C; 0x6F; 0x20; 0x77; 0x6F; 0x72; 0x6C; 0x64; 0x21] (zeros 2)) = Some ([0x48; 0x65], 2%nat).
Proof. vm_compute. reflexivity. Qed.

(* lines 396-402 *)
Example single_byte_encode_04_1 : returned (sb_encode_from_str iso_8859_7 [0x48; 0x65; 0x6C; 0x6C; 0x6F; 0x20; 0x77; 0x6F; 0x72; 0x6C; 0x64; 0x21] (zeros 64)) = Some ([0x48; 0x65; 0x6C; 0x6C; 0x6F; 0x20; 0x77; 0x6F; 0x72; 0x6C; 0x64; 0x21], 12%nat).
Proof. vm_compute. reflexivity. Qed.

(* lines 405-411 *)
Example single_byte_encode_05_1 : returned (sb_encode_from_str iso_8859_7 [0x48; 0x65; 0x6C; 0x6C; 0x6F; 0x20; 0x77; 0x6F; 0x72; 0x6C; 0x64; 0x21; 0xE3; 0x81; 0x93] (zeros 12)) = Some ([0x48; 0x65; 0x6C; 0x6C; 0x6F; 0x20; 0x77; 0x6F; 0x72; 0x6C; 0x64; 0x21], 12%nat).
Proof. vm_compute. reflexivity. Qed.

(* lines 414-422 *)
Example single_byte_decode_01_1 : returned (sb_decode_to_str iso_8859_7 [0x48; 0x65; 0x6C; 0x6C; 0x6F; 0x20; 0x77; 0x6F; 0x72; 0x6C; 0x64; 0x21] (zeros 0)) = Some ([], 0%nat).
Proof. vm_compute. reflexivity. Qed.

(* lines 425-433 *)
Example single_byte_decode_02_1 : returned (sb_decode_to_str iso_8859_7 [0x48; 0x65; 0x6C; 0x6C; 0x6F; 0x20; 0x77; 0x6F; 0x72; 0x6C; 0x64; 0x21] (zeros 1)) = Some ([0x48], 1%nat).
Proof. vm_compute. reflexivity. Qed.

(* lines 436-444 *)
Example single_byte_decode_03_1 : returned (sb_decode_to_str iso_8859_7 [0x48; 0x65; 0x6C; 0x6C; 0x6F; 0x20; 0x77; 0x6F; 0x72; 0x6C; 0x64; 0x21] (zeros 2)) = Some ([0x48; 0x65], 2%nat).
Proof. vm_compute. reflexivity. Qed.

(* lines 447-455 *)
Example single_byte_decode_04_1 : returned (sb_decode_to_str iso_8859_7 [0x48; 0x65; 0x6C; 0x6C; 0x6F; 0x20; 0x77; 0x6F; 0x72; 0x6C; 0x64; 0x21] (zeros 64)) = Some ([0x48; 0x65; 0x6C; 0x6C; 0x6F; 0x20; 0x77; 0x6F; 0x72; 0x6C; 0x64; 0x21], 12%nat).
Proof. vm_compute. reflexivity. Qed.

(* lines 458-467 *)
Example single_byte_decode_05_1 : returned (sb_decode_to_str iso_8859_7 [0xC1; 0xC2; 0xC3; 0xC4; 0xC5; 0xC6; 0xC7; 0xC8; 0xC9; 0xCA; 0xCB; 0xCC; 0xCD; 0xCE; 0xCF; 0xD0; 0xD1; 0xD3; 0xD4; 0xD5; 0xD6; 0xD7; 0xD8; 0xD9] (zeros 128)) = Some ([0xCE; 0x91; 0xCE; 0x92; 0xCE; 0x93; 0xCE; 0x94; 0xCE; 0x95; 0xCE; 0x96; 0xCE; 0x97; 0xCE; 0x98; 0xCE; 0x99; 0xCE; 0x9A; 0xCE; 0x9B; 0xCE; 0x9C; 0xCE; 0x9D; 0xCE; 0x9E; 0xCE; 0x9F; 0xCE; 0xA0; 0xCE; 0xA1; 0xCE; 0xA3; 0xCE; 0xA4; 0xCE; 0xA5; 0xCE; 0xA6; 0xCE; 0xA7; 0xCE; 0xA8; 0xCE; 0xA9], 24%nat).
Proof. vm_compute. reflexivity. Qed.

(* lines 470-481 *)
Example single_byte_encode_error_01_1 : failed (sb_encode_from_str iso_8859_7 [0xE3; 0x81; 0x93; 0x65; 0x6C; 0x6C; 0x6F; 0x20; 0x77; 0x6F; 0x72; 0x6C; 0x64; 0x21] (zeros 64)) = Some (EncodeError 0x3053 (0, 3)%nat 0).
Proof. vm_compute. reflexivity. Qed.

(* lines 484-495 *)
Example single_byte_encode_error_02_1 : failed (sb_encode_from_str iso_8859_7 [0xC3; 0x80; 0x65; 0x6C; 0x6C; 0x6F; 0x20; 0x77; 0x6F; 0x72; 0x6C; 0x64; 0x21] (zeros 64)) = Some (EncodeError 0xC0 (0, 2)%nat 0).
Proof. vm_compute. reflexivity. Qed.

(* lines 498-509 *)
Example single_byte_encode_error_03_1 : failed (sb_encode_from_str iso_8859_7 [0x48; 0xE3; 0x81; 0x93; 0x6C; 0x6C; 0x6F; 0x20; 0x77; 0x6F; 0x72; 0x6C; 0x64; 0x21] (zeros 64)) = Some (EncodeError 0x3053 (1, 4)%nat 1).
Proof. vm_compute. reflexivity. Qed.

(* lines 512-523 *)
Example single_byte_encode_error_04_1 : failed (sb_encode_from_str iso_8859_7 [0x48; 0xC3; 0x80; 0x6C; 0x6C; 0x6F; 0x20; 0x77; 0x6F; 0x72; 0x6C; 0x64; 0x21] (zeros 64)) = Some (EncodeError 0xC0 (1, 3)%nat 1).
Proof. vm_compute. reflexivity. Qed.

(* lines 526-537 *)
Example single_byte_encode_error_05_1 : failed (sb_encode_from_str iso_8859_7 [0x48; 0x65; 0xE3; 0x81; 0x93; 0x6C; 0x6F; 0x20; 0x77; 0x6F; 0x72; 0x6C; 0x64; 0x21] (zeros 3)) = Some (EncodeError 0x3053 (2, 5)%nat 2).
Proof. vm_compute. reflexivity. Qed.

(* lines 540-551 *)
Example single_byte_encode_error_06_1 : failed (sb_encode_from_str iso_8859_7 [0x48; 0x65; 0xC3; 0x80; 0x6C; 0x6F; 0x20; 0x77; 0x6F; 0x72; 0x6C; 0x64; 0x21] (zeros 3)) = Some (EncodeError 0xC0 (2, 4)%nat 2).
Proof. vm_compute. reflexivity. Qed.

(* lines 554-568 *)
Example single_byte_decode_error_01_1 : failed (sb_decode_to_str iso_8859_7 [0x48; 0xAE; 0x6C; 0x6C; 0x6F; 0x20; 0x77; 0x6F; 0x72; 0x6C; 0x64; 0x21] (zeros 64)) = Some (DecodeError InvalidData (1, 2)%nat 1).
Proof. vm_compute. reflexivity. Qed.

(* lines 571-585 *)
Example single_byte_decode_error_02_1 : failed (sb_decode_to_str iso_8859_7 [0x48; 0xD2; 0x6C; 0x6C; 0x6F; 0x20; 0x77; 0x6F; 0x72; 0x6C; 0x64; 0x21] (zeros 64)) = Some (DecodeError InvalidData (1, 2)%nat 1).
Proof. vm_compute. reflexivity. Qed.

(* lines 588-602 *)
Example single_byte_decode_error_03_1 : failed (sb_decode_to_str iso_8859_7 [0x48; 0xFF; 0x6C; 0x6C; 0x6F; 0x20; 0x77; 0x6F; 0x72; 0x6C; 0x64; 0x21] (zeros 64)) = Some (DecodeError InvalidData (1, 2)%nat 1).
Proof. vm_compute. reflexivity. Qed.

(* lines 605-616 *)
Example single_byte_ascii_encode_error_01_1 : failed (sb_encode_from_str ascii [0xC2; 0x80; 0x65; 0x6C; 0x6C; 0x6F; 0x20; 0x77; 0x6F; 0x72; 0x6C; 0x64; 0x21] (zeros 64)) = Some (EncodeError 0x80 (0, 2)%nat 0).
Proof. vm_compute. reflexivity. Qed.

(* lines 619-630 *)
Example single_byte_ascii_encode_error_02_1 : failed (sb_encode_from_str ascii [0xC3; 0xBF; 0x65; 0x6C; 0x6C; 0x6F; 0x20; 0x77; 0x6F; 0x72; 0x6C; 0x64; 0x21] (zeros 64)) = Some (EncodeError 0xFF (0, 2)%nat 0).
Proof. vm_compute. reflexivity. Qed.

(* lines 633-647 *)
Example single_byte_ascii_decode_error_01_1 : failed (sb_decode_to_str ascii [0x48; 0x80; 0x6C; 0x6C; 0x6F; 0x20; 0x77; 0x6F; 0x72; 0x6C; 0x64; 0x21] (zeros 64)) = Some (DecodeError InvalidData (1, 2)%nat 1).
Proof. vm_compute. reflexivity. Qed.

(* lines 650-664 *)
Example single_byte_ascii_decode_error_02_1 : failed (sb_decode_to_str ascii [0x48; 0xFF; 0x6C; 0x6C; 0x6F; 0x20; 0x77; 0x6F; 0x72; 0x6C; 0x64; 0x21] (zeros 64)) = Some (DecodeError InvalidData (1, 2)%nat 1).
Proof. vm_compute. reflexivity. Qed.

(* lines 667-677 *)
Example single_byte_encode_latin1_01_1 : forallb (fun i => same (returned (sb_encode_from_str iso_8859_1 (encode_utf8 i) (zeros 64))) [i] (len_utf8 i))
    (map N.of_nat (seq 0 256)) = true.
Proof. vm_compute. reflexivity. Qed.

(* lines 680-688 *)
Example single_byte_decode_latin1_01_1 : forallb (fun i => same (returned (sb_decode_to_str iso_8859_1 [i] (zeros 64))) (encode_utf8 i) 1)
    (map N.of_nat (seq 0 256)) = true.
Proof. vm_compute. reflexivity. Qed.


(** ** /repo/src/big5_whatwg.rs *)

(* lines 221-288 *)
Example big5_whatwg_decode_01_1 : returned (big5_decode_to_str [0x61; 0x62] (zeros 256) true) = Some ([0x61; 0x62], 2%nat).
Proof. vm_compute. reflexivity. Qed.

(* lines 221-288 *)
Example big5_whatwg_decode_01_2 : returned (big5_decode_to_str [0x87; 0x40] (zeros 256) true) = Some ([0xE4; 0x8F; 0xB0], 2%nat).
Proof. vm_compute. reflexivity. Qed.

(* lines 221-288 *)
Example big5_whatwg_decode_01_3 : returned (big5_decode_to_str [0xFE; 0xFE] (zeros 256) true) = Some ([0xE7; 0xA7; 0x94], 2%nat).
Proof. vm_compute. reflexivity. Qed.

(* lines 221-288 *)
Example big5_whatwg_decode_01_4 : returned (big5_decode_to_str [0xFE; 0xFD] (zeros 256) true) = Some ([0xF0; 0xA9; 0x84; 0x8D], 2%nat).
Proof. vm_compute. reflexivity. Qed.

(* lines 221-288 *)
Example big5_whatwg_decode_01_5 : returned (big5_decode_to_str [0x88; 0x62] (zeros 256) true) = Some ([0xC3; 0x8A; 0xCC; 0x84], 2%nat).
Proof. vm_compute. reflexivity. Qed.

(* lines 221-288 *)
Example big5_whatwg_decode_01_6 : returned (big5_decode_to_str [0x88; 0x64] (zeros 256) true) = Some ([0xC3; 0x8A; 0xCC; 0x8C], 2%nat).
Proof. vm_compute. reflexivity. Qed.

(* lines 221-288 *)
Example big5_whatwg_decode_01_7 : returned (big5_decode_to_str [0x88; 0x66] (zeros 256) true) = Some ([0xC3; 0x8A], 2%nat).
Proof. vm_compute. reflexivity. Qed.

(* lines 221-288 *)
Example big5_whatwg_decode_01_8 : returned (big5_decode_to_str [0x88; 0xA3] (zeros 256) true) = Some ([0xC3; 0xAA; 0xCC; 0x84], 2%nat).
Proof. vm_compute. reflexivity. Qed.

(* lines 221-288 *)
Example big5_whatwg_decode_01_9 : returned (big5_decode_to_str [0x88; 0xA5] (zeros 256) true) = Some ([0xC3; 0xAA; 0xCC; 0x8C], 2%nat).
Proof. vm_compute. reflexivity. Qed.

(* lines 221-288 *)
Example big5_whatwg_decode_01_10 : returned (big5_decode_to_str [0x88; 0xA7] (zeros 256) true) = Some ([0xC3; 0xAA], 2%nat).
Proof. vm_compute. reflexivity. Qed.

(* lines 221-288 *)
Example big5_whatwg_decode_01_11 : returned (big5_decode_to_str [0x99; 0xD4] (zeros 256) true) = Some ([0xE8; 0xA6; 0x91], 2%nat).
Proof. vm_compute. reflexivity. Qed.

(* lines 221-288 *)
Example big5_whatwg_decode_01_12 : returned (big5_decode_to_str [0x99; 0xD5] (zeros 256) true) = Some ([0xF0; 0xA7; 0xA5; 0xA7], 2%nat).
Proof. vm_compute. reflexivity. Qed.

(* lines 221-288 *)
Example big5_whatwg_decode_01_13 : returned (big5_decode_to_str [0x99; 0xD6] (zeros 256) true) = Some ([0xE8; 0xA8; 0xA9], 2%nat).
Proof. vm_compute. reflexivity. Qed.

(* lines 221-288 *)
Example big5_whatwg_decode_01_14 : returned (big5_decode_to_str [0x61; 0x87; 0x40; 0x62] (zeros 256) true) = Some ([0x61; 0xE4; 0x8F; 0xB0; 0x62], 4%nat).
Proof. vm_compute. reflexivity. Qed.

(* lines 221-288 *)
Example big5_whatwg_decode_01_15 : returned (big5_decode_to_str [0x61; 0xFE; 0xFE; 0x62] (zeros 256) true) = Some ([0x61; 0xE7; 0xA7; 0x94; 0x62], 4%nat).
Proof. vm_compute. reflexivity. Qed.

(* lines 221-288 *)
Example big5_whatwg_decode_01_16 : returned (big5_decode_to_str [0x61; 0xFE; 0xFD; 0x62] (zeros 256) true) = Some ([0x61; 0xF0; 0xA9; 0x84; 0x8D; 0x62], 4%nat).
Proof. vm_compute. reflexivity. Qed.

(* lines 221-288 *)
Example big5_whatwg_decode_01_17 : returned (big5_decode_to_str [0x61; 0x88; 0x62; 0x62] (zeros 256) true) = Some ([0x61; 0xC3; 0x8A; 0xCC; 0x84; 0x62], 4%nat).
Proof. vm_compute. reflexivity. Qed.

(* lines 221-288 *)
Example big5_whatwg_decode_01_18 : returned (big5_decode_to_str [0x61; 0x88; 0x64; 0x62] (zeros 256) true) = Some ([0x61; 0xC3; 0x8A; 0xCC; 0x8C; 0x62], 4%nat).
Proof. vm_compute. reflexivity. Qed.

(* lines 221-288 *)
Example big5_whatwg_decode_01_19 : returned (big5_decode_to_str [0x61; 0x88; 0x66; 0x62] (zeros 256) true) = Some ([0x61; 0xC3; 0x8A; 0x62], 4%nat).
Proof. vm_compute. reflexivity. Qed.

(* lines 221-288 *)
Example big5_whatwg_decode_01_20 : returned (big5_decode_to_str [0x61; 0x88; 0xA3; 0x62] (zeros 256) true) = Some ([0x61; 0xC3; 0xAA; 0xCC; 0x84; 0x62], 4%nat).
Proof. vm_compute. reflexivity. Qed.

(* lines 221-288 *)
Example big5_whatwg_decode_01_21 : returned (big5_decode_to_str [0x61; 0x88; 0xA5; 0x62] (zeros 256) true) = Some ([0x61; 0xC3; 0xAA; 0xCC; 0x8C; 0x62], 4%nat).
Proof. vm_compute. reflexivity. Qed.

(* lines 221-288 *)
Example big5_whatwg_decode_01_22 : returned (big5_decode_to_str [0x61; 0x88; 0xA7; 0x62] (zeros 256) true) = Some ([0x61; 0xC3; 0xAA; 0x62], 4%nat).
Proof. vm_compute. reflexivity. Qed.

(* lines 221-288 *)
Example big5_whatwg_decode_01_23 : returned (big5_decode_to_str [0x61; 0x99; 0xD4; 0x62] (zeros 256) true) = Some ([0x61; 0xE8; 0xA6; 0x91; 0x62], 4%nat).
Proof. vm_compute. reflexivity. Qed.

(* lines 221-288 *)
Example big5_whatwg_decode_01_24 : returned (big5_decode_to_str [0x61; 0x99; 0xD5; 0x62] (zeros 256) true) = Some ([0x61; 0xF0; 0xA7; 0xA5; 0xA7; 0x62], 4%nat).
Proof. vm_compute. reflexivity. Qed.

(* lines 221-288 *)
Example big5_whatwg_decode_01_25 : returned (big5_decode_to_str [0x61; 0x99; 0xD6; 0x62] (zeros 256) true) = Some ([0x61; 0xE8; 0xA8; 0xA9; 0x62], 4%nat).
Proof. vm_compute. reflexivity. Qed.

(* lines 291-299 *)
Example big5_whatwg_decode_02_1 : returned (big5_decode_to_str [0xA4; 0xB5; 0xA4; 0xE9; 0xC7; 0x56; 0xC6; 0xEA; 0xC6; 0xEA; 0xC7; 0x6F; 0xA1; 0x49] (zeros 2) true) = Some ([], 0%nat).
Proof. vm_compute. reflexivity. Qed.

(* lines 302-310 *)
Example big5_whatwg_decode_03_1 : returned (big5_decode_to_str [0xA4; 0xB5; 0xA4; 0xE9; 0xC7; 0x56; 0xC6; 0xEA; 0xC6; 0xEA; 0xC7; 0x6F; 0xA1; 0x49] (zeros 3) true) = Some ([0xE4; 0xBB; 0x8A], 2%nat).
Proof. vm_compute. reflexivity. Qed.

(* lines 313-321 *)
Example big5_whatwg_decode_04_1 : returned (big5_decode_to_str [0xA4; 0xB5; 0xA4; 0xE9; 0xC7; 0x56; 0xC6; 0xEA; 0xC6; 0xEA; 0xC7; 0x6F; 0xA1; 0x49] (zeros 5) true) = Some ([0xE4; 0xBB; 0x8A], 2%nat).
Proof. vm_compute. reflexivity. Qed.

(* lines 324-332 *)
Example big5_whatwg_decode_05_1 : returned (big5_decode_to_str [0xA4; 0xB5; 0x80; 0x61; 0xC7; 0x56; 0xC6; 0xEA; 0xC6; 0xEA; 0xC7; 0x6F; 0xA1; 0x49] (zeros 3) true) = Some ([0xE4; 0xBB; 0x8A], 2%nat).
Proof. vm_compute. reflexivity. Qed.

(* lines 335-341 *)
Example big5_whatwg_decode_06_1 : returned (big5_decode_to_str [0xA4; 0xB5; 0xA4; 0xE9; 0x61; 0xC7; 0x56; 0x62] (zeros 11) true) = Some ([0xE4; 0xBB; 0x8A; 0xE6; 0x97; 0xA5; 0x61; 0xE3; 0x81; 0xAF; 0x62], 8%nat).
Proof. vm_compute. reflexivity. Qed.

(* lines 344-352 *)
Example big5_whatwg_decode_07_1 : returned (big5_decode_to_str [0xA4; 0xB5; 0xA4; 0xE9; 0xC7; 0x56; 0xC6; 0xEA; 0xC6; 0xEA; 0xC7; 0x6F; 0xA1] (zeros 64) false) = Some ([0xE4; 0xBB; 0x8A; 0xE6; 0x97; 0xA5; 0xE3; 0x81; 0xAF; 0xE3; 0x81; 0x84; 0xE3; 0x81; 0x84; 0xE3; 0x82; 0x88], 12%nat).
Proof. vm_compute. reflexivity. Qed.

(* lines 355-367 *)
Example big5_whatwg_decode_error_01_1 : failed (big5_decode_to_str [0x80; 0x61] (zeros 256) true) = Some (DecodeError InvalidData (0, 1)%nat 0).
Proof. vm_compute. reflexivity. Qed.

(* lines 355-367 *)
Example big5_whatwg_decode_error_01_2 : failed (big5_decode_to_str [0xFF; 0x61] (zeros 256) true) = Some (DecodeError InvalidData (0, 1)%nat 0).
Proof. vm_compute. reflexivity. Qed.

(* lines 355-367 *)
Example big5_whatwg_decode_error_01_3 : failed (big5_decode_to_str [0xFE; 0x39] (zeros 256) true) = Some (DecodeError InvalidData (0, 1)%nat 0).
Proof. vm_compute. reflexivity. Qed.

(* lines 355-367 *)
Example big5_whatwg_decode_error_01_4 : failed (big5_decode_to_str [0x87; 0x66] (zeros 256) true) = Some (DecodeError InvalidData (0, 1)%nat 0).
Proof. vm_compute. reflexivity. Qed.

(* lines 355-367 *)
Example big5_whatwg_decode_error_01_5 : failed (big5_decode_to_str [0x81; 0x40] (zeros 256) true) = Some (DecodeError InvalidData (0, 1)%nat 0).
Proof. vm_compute. reflexivity. Qed.

(* lines 355-367 *)
Example big5_whatwg_decode_error_01_6 : failed (big5_decode_to_str [0x81; 0xA0] (zeros 256) true) = Some (DecodeError InvalidData (0, 2)%nat 0).
Proof. vm_compute. reflexivity. Qed.

(* lines 355-367 *)
Example big5_whatwg_decode_error_01_7 : failed (big5_decode_to_str [0x81; 0xFE] (zeros 256) true) = Some (DecodeError InvalidData (0, 2)%nat 0).
Proof. vm_compute. reflexivity. Qed.

(* lines 370-384 *)
Example big5_whatwg_decode_error_02_1 : failed (big5_decode_to_str [0x80; 0x61; 0xA4; 0xE9; 0xC7; 0x56; 0xC6; 0xEA; 0xC6; 0xEA; 0xC7; 0x6F; 0xA1; 0x49] (zeros 2) true) = Some (DecodeError InvalidData (0, 1)%nat 0).
Proof. vm_compute. reflexivity. Qed.

(* lines 387-405 *)
Example big5_whatwg_decode_error_03_1 : failed (big5_decode_to_str [0xA4; 0xB5; 0x80; 0x61; 0xC7; 0x56; 0xC6; 0xEA; 0xC6; 0xEA; 0xC7; 0x6F; 0xA1; 0x49] (zeros 4) true) = Some (DecodeError InvalidData (2, 3)%nat 3).
Proof. vm_compute. reflexivity. Qed.

(* lines 387-405 *)
Example big5_whatwg_decode_error_03_2 : buffer_to 3 (big5_decode_to_str [0xA4; 0xB5; 0x80; 0x61; 0xC7; 0x56; 0xC6; 0xEA; 0xC6; 0xEA; 0xC7; 0x6F; 0xA1; 0x49] (zeros 4) true) = Some [0xE4; 0xBB; 0x8A].
Proof. vm_compute. reflexivity. Qed.

(* lines 408-426 *)
Example big5_whatwg_decode_error_04_1 : failed (big5_decode_to_str [0xA4; 0xB5; 0xA4; 0xE9; 0xC7; 0x56; 0x80; 0x61; 0xC6; 0xEA; 0xC7; 0x6F; 0xA1; 0x49] (zeros 64) true) = Some (DecodeError InvalidData (6, 7)%nat 9).
Proof. vm_compute. reflexivity. Qed.

(* lines 408-426 *)
Example big5_whatwg_decode_error_04_2 : buffer_to 9 (big5_decode_to_str [0xA4; 0xB5; 0xA4; 0xE9; 0xC7; 0x56; 0x80; 0x61; 0xC6; 0xEA; 0xC7; 0x6F; 0xA1; 0x49] (zeros 64) true) = Some [0xE4; 0xBB; 0x8A; 0xE6; 0x97; 0xA5; 0xE3; 0x81; 0xAF].
Proof. vm_compute. reflexivity. Qed.

(* lines 429-447 *)
Example big5_whatwg_decode_error_05_1 : failed (big5_decode_to_str [0xA4; 0xB5; 0xA4; 0xE9; 0xC7; 0x56; 0xC6; 0xEA; 0xC6; 0xEA; 0xC7; 0x6F; 0xA1] (zeros 64) true) = Some (DecodeError InvalidData (12, 13)%nat 18).
Proof. vm_compute. reflexivity. Qed.

(* lines 429-447 *)
Example big5_whatwg_decode_error_05_2 : buffer_to 18 (big5_decode_to_str [0xA4; 0xB5; 0xA4; 0xE9; 0xC7; 0x56; 0xC6; 0xEA; 0xC6; 0xEA; 0xC7; 0x6F; 0xA1] (zeros 64) true) = Some [0xE4; 0xBB; 0x8A; 0xE6; 0x97; 0xA5; 0xE3; 0x81; 0xAF; 0xE3; 0x81; 0x84; 0xE3; 0x81; 0x84; 0xE3; 0x82; 0x88].
Proof. vm_compute. reflexivity. Qed.

(* lines 450-456 *)
Example big5_whatwg_encode_01_1 : returned (big5_encode_from_str [0xE4; 0xBB; 0x8A; 0xE6; 0x97; 0xA5; 0xE3; 0x81; 0xAF; 0xE3; 0x81; 0x84; 0xE3; 0x81; 0x84; 0xE3; 0x82; 0x88; 0xEF; 0xBC; 0x81] (zeros 1) true) = Some ([], 0%nat).
Proof. vm_compute. reflexivity. Qed.

(* lines 459-465 *)
Example big5_whatwg_encode_02_1 : returned (big5_encode_from_str [0xE4; 0xBB; 0x8A; 0xE6; 0x97; 0xA5; 0xE3; 0x81; 0xAF; 0xE3; 0x81; 0x84; 0xE3; 0x81; 0x84; 0xE3; 0x82; 0x88; 0xEF; 0xBC; 0x81] (zeros 2) true) = Some ([0xA4; 0xB5], 3%nat).
Proof. vm_compute. reflexivity. Qed.

(* lines 468-474 *)
Example big5_whatwg_encode_03_1 : returned (big5_encode_from_str [0xE4; 0xBB; 0x8A; 0xE6; 0x97; 0xA5; 0xE3; 0x81; 0xAF; 0xE3; 0x81; 0x84; 0xE3; 0x81; 0x84; 0xE3; 0x82; 0x88; 0xEF; 0xBC; 0x81] (zeros 3) true) = Some ([0xA4; 0xB5], 3%nat).
Proof. vm_compute. reflexivity. Qed.

(* lines 477-483 *)
Example big5_whatwg_encode_04_1 : returned (big5_encode_from_str [0xE4; 0xBB; 0x8A; 0xE6; 0x97; 0xA5; 0x61; 0xE3; 0x81; 0xAF; 0x62; 0xE3; 0x81; 0x84; 0xE3; 0x81; 0x84; 0xE3; 0x82; 0x88; 0xEF; 0xBC; 0x81] (zeros 8) true) = Some ([0xA4; 0xB5; 0xA4; 0xE9; 0x61; 0xC7; 0x56; 0x62], 11%nat).
Proof. vm_compute. reflexivity. Qed.

(* lines 486-492 *)
Example big5_whatwg_encode_05_1 : returned (big5_encode_from_str [0xE4; 0xBB; 0x8A; 0xE6; 0x97; 0xA5; 0xF0; 0x9F; 0x98; 0xBA; 0xE3; 0x81; 0xAF; 0xE3; 0x81; 0x84; 0xE3; 0x81; 0x84; 0xE3; 0x82; 0x88; 0xEF; 0xBC; 0x81] (zeros 4) true) = Some ([0xA4; 0xB5; 0xA4; 0xE9], 6%nat).
Proof. vm_compute. reflexivity. Qed.

(* lines 495-501 *)
Example big5_whatwg_encode_06_1 : returned (big5_encode_from_str [0xC3; 0x8A; 0xCC; 0x84] (zeros 64) true) = Some ([0x88; 0x62], 4%nat).
Proof. vm_compute. reflexivity. Qed.

(* lines 504-510 *)
Example big5_whatwg_encode_07_1 : returned (big5_encode_from_str [0xC3; 0x8A; 0xCC; 0x84] (zeros 64) false) = Some ([0x88; 0x62], 4%nat).
Proof. vm_compute. reflexivity. Qed.

(* lines 513-519 *)
Example big5_whatwg_encode_08_1 : returned (big5_encode_from_str [0xC3; 0x8A] (zeros 64) true) = Some ([0x88; 0x66], 2%nat).
Proof. vm_compute. reflexivity. Qed.

(* lines 522-528 *)
Example big5_whatwg_encode_09_1 : returned (big5_encode_from_str [0xC3; 0x8A] (zeros 64) false) = Some ([], 0%nat).
Proof. vm_compute. reflexivity. Qed.

(* lines 531-537 *)
Example big5_whatwg_encode_10_1 : returned (big5_encode_from_str [0xC3; 0x8A; 0xE3; 0x82; 0x88] (zeros 64) true) = Some ([0x88; 0x66; 0xC7; 0x6F], 5%nat).
Proof. vm_compute. reflexivity. Qed.

(* lines 540-546 *)
Example big5_whatwg_encode_11_1 : returned (big5_encode_from_str [0xC3; 0x8A; 0xE3; 0x82; 0x88] (zeros 64) false) = Some ([0x88; 0x66; 0xC7; 0x6F], 5%nat).
Proof. vm_compute. reflexivity. Qed.

(* lines 549-560 *)
Example big5_whatwg_encode_error_01_1 : failed (big5_encode_from_str [0xF0; 0x9F; 0x98; 0xBA; 0xE4; 0xBB; 0x8A; 0xE6; 0x97; 0xA5; 0xE3; 0x81; 0xAF; 0xE3; 0x81; 0x84; 0xE3; 0x81; 0x84; 0xE3; 0x82; 0x88; 0xEF; 0xBC; 0x81] (zeros 64) true) = Some (EncodeError 0x1F63A (0, 4)%nat 0).
Proof. vm_compute. reflexivity. Qed.

(* lines 563-575 *)
Example big5_whatwg_encode_error_02_1 : failed (big5_encode_from_str [0xE4; 0xBB; 0x8A; 0xE6; 0x97; 0xA5; 0xF0; 0x9F; 0x98; 0xBA; 0xE3; 0x81; 0xAF; 0xE3; 0x81; 0x84; 0xE3; 0x81; 0x84; 0xE3; 0x82; 0x88; 0xEF; 0xBC; 0x81] (zeros 64) true) = Some (EncodeError 0x1F63A (6, 10)%nat 4).
Proof. vm_compute. reflexivity. Qed.

(* lines 563-575 *)
Example big5_whatwg_encode_error_02_2 : buffer_to 4 (big5_encode_from_str [0xE4; 0xBB; 0x8A; 0xE6; 0x97; 0xA5; 0xF0; 0x9F; 0x98; 0xBA; 0xE3; 0x81; 0xAF; 0xE3; 0x81; 0x84; 0xE3; 0x81; 0x84; 0xE3; 0x82; 0x88; 0xEF; 0xBC; 0x81] (zeros 64) true) = Some [0xA4; 0xB5; 0xA4; 0xE9].
Proof. vm_compute. reflexivity. Qed.


(** ** /repo/src/shiftjis_whatwg.rs *)

(* lines 248-269 *)
Example shiftjis_whatwg_decode_01_1 : returned (sjis_decode_to_str [] (zeros 256) true) = Some ([], 0%nat).
Proof. vm_compute. reflexivity. Qed.

(* lines 248-269 *)
Example shiftjis_whatwg_decode_01_2 : returned (sjis_decode_to_str [0x61; 0x62] (zeros 256) true) = Some ([0x61; 0x62], 2%nat).
Proof. vm_compute. reflexivity. Qed.

(* lines 248-269 *)
Example shiftjis_whatwg_decode_01_3 : returned (sjis_decode_to_str [0xA1] (zeros 256) true) = Some ([0xEF; 0xBD; 0xA1], 1%nat).
Proof. vm_compute. reflexivity. Qed.

(* lines 248-269 *)
Example shiftjis_whatwg_decode_01_4 : returned (sjis_decode_to_str [0xDF] (zeros 256) true) = Some ([0xEF; 0xBE; 0x9F], 1%nat).
Proof. vm_compute. reflexivity. Qed.

(* lines 248-269 *)
Example shiftjis_whatwg_decode_01_5 : returned (sjis_decode_to_str [0xF0; 0x40] (zeros 256) true) = Some ([0xEE; 0x80; 0x80], 2%nat).
Proof. vm_compute. reflexivity. Qed.

(* lines 248-269 *)
Example shiftjis_whatwg_decode_01_6 : returned (sjis_decode_to_str [0xF9; 0xFC] (zeros 256) true) = Some ([0xEE; 0x9D; 0x97], 2%nat).
Proof. vm_compute. reflexivity. Qed.

(* lines 248-269 *)
Example shiftjis_whatwg_decode_01_7 : returned (sjis_decode_to_str [0xFA; 0x40] (zeros 256) true) = Some ([0xE2; 0x85; 0xB0], 2%nat).
Proof. vm_compute. reflexivity. Qed.

(* lines 248-269 *)
Example shiftjis_whatwg_decode_01_8 : returned (sjis_decode_to_str [0x81; 0x40] (zeros 256) true) = Some ([0xE3; 0x80; 0x80], 2%nat).
Proof. vm_compute. reflexivity. Qed.

(* lines 248-269 *)
Example shiftjis_whatwg_decode_01_9 : returned (sjis_decode_to_str [0xEE; 0xFC] (zeros 256) true) = Some ([0xEF; 0xBC; 0x82], 2%nat).
Proof. vm_compute. reflexivity. Qed.

(* lines 248-269 *)
Example shiftjis_whatwg_decode_01_10 : returned (sjis_decode_to_str [0xFA; 0x40] (zeros 256) true) = Some ([0xE2; 0x85; 0xB0], 2%nat).
Proof. vm_compute. reflexivity. Qed.

(* lines 248-269 *)
Example shiftjis_whatwg_decode_01_11 : returned (sjis_decode_to_str [0xFC; 0x4B] (zeros 256) true) = Some ([0xE9; 0xBB; 0x91], 2%nat).
Proof. vm_compute. reflexivity. Qed.

(* lines 272-278 *)
Example shiftjis_whatwg_decode_02_1 : returned (sjis_decode_to_str [0x8D; 0xA1; 0x93; 0xFA; 0x82; 0xCD; 0x82; 0xA2; 0x82; 0xA2; 0x82; 0xE6; 0x81; 0x49] (zeros 2) true) = Some ([], 0%nat).
Proof. vm_compute. reflexivity. Qed.

(* lines 281-287 *)
Example shiftjis_whatwg_decode_03_1 : returned (sjis_decode_to_str [0x8D; 0xA1; 0x93; 0xFA; 0x82; 0xCD; 0x82; 0xA2; 0x82; 0xA2; 0x82; 0xE6; 0x81; 0x49] (zeros 3) true) = Some ([0xE4; 0xBB; 0x8A], 2%nat).
Proof. vm_compute. reflexivity. Qed.

(* lines 290-296 *)
Example shiftjis_whatwg_decode_04_1 : returned (sjis_decode_to_str [0x8D; 0xA1; 0x93; 0xFA; 0x82; 0xCD; 0x82; 0xA2; 0x82; 0xA2; 0x82; 0xE6; 0x81; 0x49] (zeros 5) true) = Some ([0xE4; 0xBB; 0x8A], 2%nat).
Proof. vm_compute. reflexivity. Qed.

(* lines 299-305 *)
Example shiftjis_whatwg_decode_05_1 : returned (sjis_decode_to_str [0x8D; 0xA1; 0x81; 0x3F; 0x82; 0xCD; 0x82; 0xA2; 0x82; 0xA2; 0x82; 0xE6; 0x81; 0x49] (zeros 3) true) = Some ([0xE4; 0xBB; 0x8A], 2%nat).
Proof. vm_compute. reflexivity. Qed.

(* lines 308-314 *)
Example shiftjis_whatwg_decode_06_1 : returned (sjis_decode_to_str [0x8D; 0xA1; 0x93; 0xFA; 0x61; 0xD6; 0x82; 0xCD; 0x62] (zeros 14) true) = Some ([0xE4; 0xBB; 0x8A; 0xE6; 0x97; 0xA5; 0x61; 0xEF; 0xBE; 0x96; 0xE3; 0x81; 0xAF; 0x62], 9%nat).
Proof. vm_compute. reflexivity. Qed.

(* lines 317-323 *)
Example shiftjis_whatwg_decode_07_1 : returned (sjis_decode_to_str [0x8D; 0xA1; 0x93; 0xFA; 0x82; 0xCD; 0x82; 0xA2; 0x82; 0xA2; 0x82; 0xE6; 0x81] (zeros 64) false) = Some ([0xE4; 0xBB; 0x8A; 0xE6; 0x97; 0xA5; 0xE3; 0x81; 0xAF; 0xE3; 0x81; 0x84; 0xE3; 0x81; 0x84; 0xE3; 0x82; 0x88], 12%nat).
Proof. vm_compute. reflexivity. Qed.

(* lines 328-339 *)
Example shiftjis_whatwg_decode_error_01_1 : failed (sjis_decode_to_str [0xA0] (zeros 256) true) = Some (DecodeError InvalidData (0, 1)%nat 0).
Proof. vm_compute. reflexivity. Qed.

(* lines 328-339 *)
Example shiftjis_whatwg_decode_error_01_2 : failed (sjis_decode_to_str [0xA0; 0x2B] (zeros 256) true) = Some (DecodeError InvalidData (0, 1)%nat 0).
Proof. vm_compute. reflexivity. Qed.

(* lines 328-339 *)
Example shiftjis_whatwg_decode_error_01_3 : failed (sjis_decode_to_str [0xE0; 0x2B] (zeros 256) true) = Some (DecodeError InvalidData (0, 1)%nat 0).
Proof. vm_compute. reflexivity. Qed.

(* lines 328-339 *)
Example shiftjis_whatwg_decode_error_01_4 : failed (sjis_decode_to_str [0xEF; 0xFC] (zeros 256) true) = Some (DecodeError InvalidData (0, 2)%nat 0).
Proof. vm_compute. reflexivity. Qed.

(* lines 328-339 *)
Example shiftjis_whatwg_decode_error_01_5 : failed (sjis_decode_to_str [0x81; 0x3F] (zeros 256) true) = Some (DecodeError InvalidData (0, 1)%nat 0).
Proof. vm_compute. reflexivity. Qed.

(* lines 328-339 *)
Example shiftjis_whatwg_decode_error_01_6 : failed (sjis_decode_to_str [0xEE; 0xFD] (zeros 256) true) = Some (DecodeError InvalidData (0, 2)%nat 0).
Proof. vm_compute. reflexivity. Qed.

(* lines 328-339 *)
Example shiftjis_whatwg_decode_error_01_7 : failed (sjis_decode_to_str [0xFA; 0x3F] (zeros 256) true) = Some (DecodeError InvalidData (0, 1)%nat 0).
Proof. vm_compute. reflexivity. Qed.

(* lines 328-339 *)
Example shiftjis_whatwg_decode_error_01_8 : failed (sjis_decode_to_str [0xFC; 0x4C] (zeros 256) true) = Some (DecodeError InvalidData (0, 1)%nat 0).
Proof. vm_compute. reflexivity. Qed.

(* lines 342-354 *)
Example shiftjis_whatwg_decode_error_02_1 : failed (sjis_decode_to_str [0x81; 0x3F; 0x93; 0xFA; 0x82; 0xCD; 0x82; 0xA2; 0x82; 0xA2; 0x82; 0xE6; 0x81; 0x49] (zeros 2) true) = Some (DecodeError InvalidData (0, 1)%nat 0).
Proof. vm_compute. reflexivity. Qed.

(* lines 357-373 *)
Example shiftjis_whatwg_decode_error_03_1 : failed (sjis_decode_to_str [0x8D; 0xA1; 0x81; 0x3F; 0x82; 0xCD; 0x82; 0xA2; 0x82; 0xA2; 0x82; 0xE6; 0x81; 0x49] (zeros 4) true) = Some (DecodeError InvalidData (2, 3)%nat 3).
Proof. vm_compute. reflexivity. Qed.

(* lines 357-373 *)
Example shiftjis_whatwg_decode_error_03_2 : buffer_to 3 (sjis_decode_to_str [0x8D; 0xA1; 0x81; 0x3F; 0x82; 0xCD; 0x82; 0xA2; 0x82; 0xA2; 0x82; 0xE6; 0x81; 0x49] (zeros 4) true) = Some [0xE4; 0xBB; 0x8A].
Proof. vm_compute. reflexivity. Qed.

(* lines 376-392 *)
Example shiftjis_whatwg_decode_error_04_1 : failed (sjis_decode_to_str [0x8D; 0xA1; 0x93; 0xFA; 0x82; 0xCD; 0x81; 0x3F; 0x82; 0xA2; 0x82; 0xE6; 0x81; 0x49] (zeros 64) true) = Some (DecodeError InvalidData (6, 7)%nat 9).
Proof. vm_compute. reflexivity. Qed.

(* lines 376-392 *)
Example shiftjis_whatwg_decode_error_04_2 : buffer_to 9 (sjis_decode_to_str [0x8D; 0xA1; 0x93; 0xFA; 0x82; 0xCD; 0x81; 0x3F; 0x82; 0xA2; 0x82; 0xE6; 0x81; 0x49] (zeros 64) true) = Some [0xE4; 0xBB; 0x8A; 0xE6; 0x97; 0xA5; 0xE3; 0x81; 0xAF].
Proof. vm_compute. reflexivity. Qed.

(* lines 395-411 *)
Example shiftjis_whatwg_decode_error_05_1 : failed (sjis_decode_to_str [0x8D; 0xA1; 0x93; 0xFA; 0x82; 0xCD; 0x82; 0xA2; 0x82; 0xA2; 0x82; 0xE6; 0x81] (zeros 64) true) = Some (DecodeError InvalidData (12, 13)%nat 18).
Proof. vm_compute. reflexivity. Qed.

(* lines 395-411 *)
Example shiftjis_whatwg_decode_error_05_2 : buffer_to 18 (sjis_decode_to_str [0x8D; 0xA1; 0x93; 0xFA; 0x82; 0xCD; 0x82; 0xA2; 0x82; 0xA2; 0x82; 0xE6; 0x81] (zeros 64) true) = Some [0xE4; 0xBB; 0x8A; 0xE6; 0x97; 0xA5; 0xE3; 0x81; 0xAF; 0xE3; 0x81; 0x84; 0xE3; 0x81; 0x84; 0xE3; 0x82; 0x88].
Proof. vm_compute. reflexivity. Qed.

(* lines 416-447 *)
Example shiftjis_whatwg_encode_01_1 : returned (sjis_encode_from_str [] (zeros 256)) = Some ([], 0%nat).
Proof. vm_compute. reflexivity. Qed.

(* lines 416-447 *)
Example shiftjis_whatwg_encode_01_2 : returned (sjis_encode_from_str [0x61; 0x62] (zeros 256)) = Some ([0x61; 0x62], 2%nat).
Proof. vm_compute. reflexivity. Qed.

(* lines 416-447 *)
Example shiftjis_whatwg_encode_01_3 : returned (sjis_encode_from_str [0xC2; 0x80] (zeros 256)) = Some ([0x80], 2%nat).
Proof. vm_compute. reflexivity. Qed.

(* lines 416-447 *)
Example shiftjis_whatwg_encode_01_4 : returned (sjis_encode_from_str [0xC2; 0xA5] (zeros 256)) = Some ([0x5C], 2%nat).
Proof. vm_compute. reflexivity. Qed.

(* lines 416-447 *)
Example shiftjis_whatwg_encode_01_5 : returned (sjis_encode_from_str [0xE2; 0x80; 0xBE] (zeros 256)) = Some ([0x7E], 3%nat).
Proof. vm_compute. reflexivity. Qed.

(* lines 416-447 *)
Example shiftjis_whatwg_encode_01_6 : returned (sjis_encode_from_str [0xE2; 0x88; 0x92] (zeros 256)) = Some ([0x81; 0x7C], 3%nat).
Proof. vm_compute. reflexivity. Qed.

(* lines 416-447 *)
Example shiftjis_whatwg_encode_01_7 : returned (sjis_encode_from_str [0xEF; 0xBD; 0xA1] (zeros 256)) = Some ([0xA1], 3%nat).
Proof. vm_compute. reflexivity. Qed.

(* lines 416-447 *)
Example shiftjis_whatwg_encode_01_8 : returned (sjis_encode_from_str [0xEF; 0xBE; 0x9F] (zeros 256)) = Some ([0xDF], 3%nat).
Proof. vm_compute. reflexivity. Qed.

(* lines 416-447 *)
Example shiftjis_whatwg_encode_01_9 : returned (sjis_encode_from_str [0xEE; 0x80; 0x80] (zeros 256)) = Some ([0xF0; 0x40], 3%nat).
Proof. vm_compute. reflexivity. Qed.

(* lines 416-447 *)
Example shiftjis_whatwg_encode_01_10 : returned (sjis_encode_from_str [0xEE; 0x9D; 0x97] (zeros 256)) = Some ([0xF9; 0xFC], 3%nat).
Proof. vm_compute. reflexivity. Qed.

(* lines 416-447 *)
Example shiftjis_whatwg_encode_01_11 : returned (sjis_encode_from_str [0xE3; 0x80; 0x80] (zeros 256)) = Some ([0x81; 0x40], 3%nat).
Proof. vm_compute. reflexivity. Qed.

(* lines 450-456 *)
Example shiftjis_whatwg_encode_02_1 : returned (sjis_encode_from_str [0xE4; 0xBB; 0x8A; 0xE6; 0x97; 0xA5; 0xE3; 0x81; 0xAF; 0xE3; 0x81; 0x84; 0xE3; 0x81; 0x84; 0xE3; 0x82; 0x88; 0xEF; 0xBC; 0x81] (zeros 1)) = Some ([], 0%nat).
Proof. vm_compute. reflexivity. Qed.

(* lines 459-465 *)
Example shiftjis_whatwg_encode_03_1 : returned (sjis_encode_from_str [0xE4; 0xBB; 0x8A; 0xE6; 0x97; 0xA5; 0xE3; 0x81; 0xAF; 0xE3; 0x81; 0x84; 0xE3; 0x81; 0x84; 0xE3; 0x82; 0x88; 0xEF; 0xBC; 0x81] (zeros 2)) = Some ([0x8D; 0xA1], 3%nat).
Proof. vm_compute. reflexivity. Qed.

(* lines 468-474 *)
Example shiftjis_whatwg_encode_04_1 : returned (sjis_encode_from_str [0xE4; 0xBB; 0x8A; 0xE6; 0x97; 0xA5; 0xE3; 0x81; 0xAF; 0xE3; 0x81; 0x84; 0xE3; 0x81; 0x84; 0xE3; 0x82; 0x88; 0xEF; 0xBC; 0x81] (zeros 3)) = Some ([0x8D; 0xA1], 3%nat).
Proof. vm_compute. reflexivity. Qed.

(* lines 477-483 *)
Example shiftjis_whatwg_encode_05_1 : returned (sjis_encode_from_str [0xE4; 0xBB; 0x8A; 0xE6; 0x97; 0xA5; 0x61; 0xEF; 0xBE; 0x96; 0xE3; 0x81; 0xAF; 0x62; 0xE3; 0x81; 0x84; 0xE3; 0x81; 0x84; 0xE3; 0x82; 0x88; 0xEF; 0xBC; 0x81] (zeros 9)) = Some ([0x8D; 0xA1; 0x93; 0xFA; 0x61; 0xD6; 0x82; 0xCD; 0x62], 14%nat).
Proof. vm_compute. reflexivity. Qed.

(* lines 486-492 *)
Example shiftjis_whatwg_encode_06_1 : returned (sjis_encode_from_str [0xE4; 0xBB; 0x8A; 0xE6; 0x97; 0xA5; 0xF0; 0x9F; 0x98; 0xBA; 0xE3; 0x81; 0xAF; 0xE3; 0x81; 0x84; 0xE3; 0x81; 0x84; 0xE3; 0x82; 0x88; 0xEF; 0xBC; 0x81] (zeros 4)) = Some ([0x8D; 0xA1; 0x93; 0xFA], 6%nat).
Proof. vm_compute. reflexivity. Qed.

(* lines 495-506 *)
Example shiftjis_whatwg_encode_error_01_1 : failed (sjis_encode_from_str [0xF0; 0x9F; 0x98; 0xBA; 0xE4; 0xBB; 0x8A; 0xE6; 0x97; 0xA5; 0xE3; 0x81; 0xAF; 0xE3; 0x81; 0x84; 0xE3; 0x81; 0x84; 0xE3; 0x82; 0x88; 0xEF; 0xBC; 0x81] (zeros 64)) = Some (EncodeError 0x1F63A (0, 4)%nat 0).
Proof. vm_compute. reflexivity. Qed.

(* lines 509-521 *)
Example shiftjis_whatwg_encode_error_02_1 : failed (sjis_encode_from_str [0xE4; 0xBB; 0x8A; 0xE6; 0x97; 0xA5; 0xF0; 0x9F; 0x98; 0xBA; 0xE3; 0x81; 0xAF; 0xE3; 0x81; 0x84; 0xE3; 0x81; 0x84; 0xE3; 0x82; 0x88; 0xEF; 0xBC; 0x81] (zeros 64)) = Some (EncodeError 0x1F63A (6, 10)%nat 4).
Proof. vm_compute. reflexivity. Qed.

(* lines 509-521 *)
Example shiftjis_whatwg_encode_error_02_2 : buffer_to 4 (sjis_encode_from_str [0xE4; 0xBB; 0x8A; 0xE6; 0x97; 0xA5; 0xF0; 0x9F; 0x98; 0xBA; 0xE3; 0x81; 0xAF; 0xE3; 0x81; 0x84; 0xE3; 0x81; 0x84; 0xE3; 0x82; 0x88; 0xEF; 0xBC; 0x81] (zeros 64)) = Some [0x8D; 0xA1; 0x93; 0xFA].
Proof. vm_compute. reflexivity. Qed.
