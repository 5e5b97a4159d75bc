(* Vocabulary in which the model of the Rust code is written: outcomes of a computation, checked
   memory and arithmetic operations, loops with break / continue / return.
   Nothing in this file is specific to the crate. *)
From Coq Require Import List NArith Arith Bool.
Import ListNotations.

(* What running a piece of Rust code can lead to. [Panic]: an index, slice, copy_from_slice, unwrap or
   checked subtraction failed. [UB]: the precondition of an unsafe function was violated.
   [Diverge]: a loop used up its fuel (the models give every loop more fuel than it has items). *)
Inductive outcome (A : Type) : Type :=
| Ret (a : A)
| Panic
| UB
| Diverge.
Arguments Ret {A} _.
Arguments Panic {A}.
Arguments UB {A}.
Arguments Diverge {A}.

(* Sequencing: the second part only runs if the first returned. *)
Definition bind {A B} (m : outcome A) (k : A -> outcome B) : outcome B :=
  match m with
  | Ret a => k a
  | Panic => Panic
  | UB => UB
  | Diverge => Diverge
  end.

Notation "'let*' x ':=' m 'in' k" := (bind m (fun x => k))
  (at level 200, x ident, m at level 100, k at level 200, right associativity).

(* Rust's Result<T, E>. *)
Inductive result (T E : Type) : Type :=
| Ok (t : T)
| Err (e : E).
Arguments Ok {T E} _.
Arguments Err {T E} _.

(* Loop control: what one execution of a loop body decides. *)
Inductive ctl (S R : Type) : Type :=
| Continue (s : S)
| Break (s : S)
| Return (r : R).
Arguments Continue {S R} _.
Arguments Break {S R} _.
Arguments Return {S R} _.

(* `loop { body }` over the mutable state s; [inl]: left by break, [inr]: by return. *)
Fixpoint loop {S R} (fuel : nat) (body : S -> outcome (ctl S R)) (s : S) : outcome (S + R) :=
  match fuel with
  | O => Diverge
  | Datatypes.S f =>
      let* c := body s in
      match c with
      | Continue s' => loop f body s'
      | Break s' => Ret (inl s')
      | Return r => Ret (inr r)
      end
  end.

(* l[i] *)
Definition idx {A} (l : list A) (i : nat) : outcome A :=
  match nth_error l i with Some x => Ret x | None => Panic end.

(* *l.get_unchecked(i) *)
Definition idx_unchecked {A} (l : list A) (i : nat) : outcome A :=
  match nth_error l i with Some x => Ret x | None => UB end.

(* l[i] = v *)
Definition upd {A} (l : list A) (i : nat) (v : A) : outcome (list A) :=
  if i <? length l then Ret (firstn i l ++ v :: skipn (S i) l) else Panic.

(* &l[..n] *)
Definition slice_to {A} (l : list A) (n : nat) : outcome (list A) :=
  if n <=? length l then Ret (firstn n l) else Panic.

(* l[a..b].copy_from_slice(src) *)
Definition copy_at {A} (l : list A) (a b : nat) (src : list A) : outcome (list A) :=
  if (a <=? b) && (b <=? length l) && (length src =? b - a)
  then Ret (firstn a l ++ src ++ skipn b l) else Panic.

(* a - b on unsigned integers *)
Definition sub_chk (a b : N) : outcome N :=
  if (b <=? a)%N then Ret (a - b)%N else Panic.

(* x.unwrap() *)
Definition unwrap {A} (o : option A) : outcome A :=
  match o with Some a => Ret a | None => Panic end.

(* `x as u8`, `x as u16`, and the wrap-around of u32 operations that discard bits *)
Definition as_u8 (x : N) : N := (x mod 256)%N.
Definition as_u16 (x : N) : N := (x mod 65536)%N.
Definition as_u32 (x : N) : N := (x mod 4294967296)%N.
