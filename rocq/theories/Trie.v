(* Finite maps with positive keys, for fast lookups by computation. *)
From Coq Require Import PArith.

Inductive trie (V : Type) := TLeaf | TNode (l : trie V) (v : option V) (r : trie V).
Arguments TLeaf {V}.
Arguments TNode {V} _ _ _.

Fixpoint tget {V} (t : trie V) (k : positive) : option V :=
  match t with
  | TLeaf => None
  | TNode l v r => match k with xH => v | xO k => tget l k | xI k => tget r k end
  end.

Fixpoint tset {V} (t : trie V) (k : positive) (x : V) : trie V :=
  let '(l, v, r) := match t with TLeaf => (TLeaf, None, TLeaf) | TNode l v r => (l, v, r) end in
  match k with
  | xH => TNode l (Some x) r
  | xO k => TNode (tset l k x) v r
  | xI k => TNode l v (tset r k x)
  end.

Lemma tget_set {V} k (x : V) : forall k' t, tget (tset t k x) k' = if Pos.eqb k k' then Some x else tget t k'.
Proof. induction k; destruct k', t; cbn; rewrite ?IHk; try reflexivity; destruct k'; reflexivity. Qed.
