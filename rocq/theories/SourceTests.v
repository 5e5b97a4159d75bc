(* The tests in /repo/tests and in the modules of /repo/src, as programs. *)
From Coq Require Import List NArith String.
From Coq.Init Require Import Byte.
From Verif Require Import Prelude RustSyntax RustEval RustProgram RustLink FileTests SourceCrate TestData.
From Verif Require Spec.
Import ListNotations.
Local Open Scope string_scope.
Local Open Scope N_scope.
Local Open Scope list_scope.

(** ** Tests without parameters *)

(* a test in the module m: no assertion fails and nothing else panics *)
Definition passes (max : N) (prog : program) (fuel depth : nat) (m : path) (f : fn) : Prop :=
  exists r, call max prog fuel depth m f [] = Ret (unit_value, r).

(* const X: &[u8] = include_bytes!("..."), with the contents of the files *)
Definition get_bytes (file : string -> list N) (x : string) (i : item) : option value :=
  match i with
  | IConst y (TyRef false (TySlice (TyPath [t] []))) (EMacro f [ELit (LStr p)]) =>
      if is x y then if is t "u8" then if is f "include_bytes" then Some (VBytes (file (text p))) else None else None else None
  | _ => None
  end.
(* a test program in one file, linked with the crate *)
Definition test_program (max : N) (file : string -> list N) (items : list item) : program :=
  let prog := link "text_encoding" (text_encoding max) items in
  Program (find_fn prog)
    (fun m p =>
       match m, p with
       | [], [x] => match first (get_bytes file x) items with Some v => Some v | None => find_const prog m p end
       | _, _ => find_const prog m p
       end).
Definition tests_of (items : list item) : list (string * fn) :=
  flat_map (fun i => match i with IFn true x f => [(x, f)] | _ => [] end) items.

(* the files in /repo/tests/test_data *)
Definition octets (l : list byte) : list N := map Byte.to_N l.
Definition checked_in (f : string) : list N :=
  if is f "test_data/whatwg/big5_whatwg_test_decode_in.txt" then octets big5_decode_in
  else if is f "test_data/whatwg/big5_whatwg_test_decode_out.txt" then octets big5_decode_out
  else if is f "test_data/whatwg/big5_whatwg_test_encode_in.txt" then octets big5_encode_in
  else if is f "test_data/whatwg/big5_whatwg_test_encode_out.txt" then octets big5_encode_out
  else if is f "test_data/whatwg/shiftjis_whatwg_test_decode_in.txt" then octets shiftjis_decode_in
  else if is f "test_data/whatwg/shiftjis_whatwg_test_decode_out.txt" then octets shiftjis_decode_out
  else if is f "test_data/whatwg/shiftjis_whatwg_test_encode_in.txt" then octets shiftjis_encode_in
  else if is f "test_data/whatwg/shiftjis_whatwg_test_encode_out.txt" then octets shiftjis_encode_out
  else [].

(** ** Tests with a parameter, which proptest! runs on generated values *)

(* a value that the expression after `in` may generate.  A string is a regular expression: this allows any text.
   vec(lo..=hi, 0..n): this allows any length. *)
Inductive Generates : expr -> value -> Prop :=
| generates_text s cs : Spec.text cs -> Generates (ELit (LStr s)) (VStr (Spec.utf8 cs))
| generates_bytes lo hi sizes bs : hi < 256 -> Forall (fun b => lo <= b <= hi) bs ->
    Generates (ECall ["vec"] [ERange (Some (ELit (LInt lo "u8"))) (Some (ELit (LInt hi ""))) true; sizes]) (VBytes bs).
(* the test returns when its parameter x has the value v *)
Definition returns_on (max : N) (prog : program) (fuel depth : nat) (x : string) (body : expr) (v : value) : Prop :=
  exists r, eval max prog fuel depth [] body [(x, v)] = Ret (r, SVal unit_value).
Definition size (v : value) : N := match v with VStr l | VBytes l => N.of_nat (List.length l) | _ => 0 end.
