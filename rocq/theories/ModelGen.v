(* The table generators: /repo/encoding_tables/single_byte/generate_ascii_ext_tables.py,
   /repo/encoding_tables/whatwg/generate_big5.py and generate_shiftjis.py.
   Modelled from the parsed file (a list of pairs in file order) to the two tables; reading and writing text files is not.
   Python ints are unbounded and never negative here. *)
From Coq Require Import List NArith Bool.
From Verif Require Import Trie.
Import ListNotations.
Local Open Scope N_scope.

(** ** Python built-ins *)

(* list.sort(), for elements compared by leb.  Any sorting algorithm gives the same list if leb is a total order. *)
Fixpoint merge {A} (leb : A -> A -> bool) (l1 : list A) : list A -> list A :=
  fix merge_aux (l2 : list A) : list A :=
    match l1, l2 with
    | [], _ => l2
    | _, [] => l1
    | a :: r1, b :: r2 => if leb a b then a :: merge leb r1 l2 else b :: merge_aux r2
    end.
Fixpoint push {A} (leb : A -> A -> bool) (stack : list (option (list A))) (l : list A) : list (option (list A)) :=
  match stack with
  | [] => [Some l]
  | None :: s => Some l :: s
  | Some l' :: s => None :: push leb s (merge leb l' l)
  end.
Fixpoint merge_stack {A} (leb : A -> A -> bool) (stack : list (option (list A))) : list A :=
  match stack with
  | [] => []
  | None :: s => merge_stack leb s
  | Some l :: s => merge leb l (merge_stack leb s)
  end.
Definition sort {A} (leb : A -> A -> bool) (l : list A) : list A :=
  merge_stack leb (fold_left (fun s a => push leb s [a]) l []).

(* comparison of tuples *)
Definition pair_leb (a b : N * N) : bool := (fst a <? fst b) || ((fst a =? fst b) && (snd a <=? snd b)).
Definition entry_leb (a b : N * (N * N)) : bool := (fst a <? fst b) || ((fst a =? fst b) && pair_leb (snd a) (snd b)).

(* set() of code points *)
Definition pyset := trie unit.
Definition empty : pyset := TLeaf.
Definition mem (c : N) (s : pyset) : bool := match tget s (N.succ_pos c) with Some _ => true | None => false end.
Definition add (c : N) (s : pyset) : pyset := tset s (N.succ_pos c) tt.
(* s & {c} *)
Definition intersect1 (s : pyset) (c : N) : pyset := if mem c s then add c empty else empty.

(** ** Shared pieces *)

(* the loops "for (index, codepoint) in table: while i < index: ..." :
   generate_big5.py:66-73, generate_shiftjis.py:57-64, generate_ascii_ext_tables.py:31-38 *)
Fixpoint dec_fill (i : N) (table : list (N * N)) : list (option N) :=
  match table with
  | [] => []
  | (index, codepoint) :: rest =>
      repeat None (N.to_nat (index - i)) ++ Some codepoint :: dec_fill (N.max i index + 1) rest
  end.

(* None is written as '\u{FFFD}' itself: generate_big5.py:93-96, generate_shiftjis.py:84-87, generate_ascii_ext_tables.py:79-82 *)
Definition written (c : option N) : N := match c with Some c => c | None => 0xFFFD end.

(* "remove all except the first entries": generate_big5.py:39-46, generate_shiftjis.py:30-37 *)
Fixpoint dedup_first (seen : pyset) (table : list (N * N)) : list (N * N) :=
  match table with
  | [] => []
  | (index, codepoint) :: rest =>
      if mem codepoint seen then dedup_first seen rest
      else (index, codepoint) :: dedup_first (add codepoint seen) rest
  end.

(** ** generate_big5.py *)

(* generate_big5.py:4-10 index_to_bytes *)
Definition big5_index_to_bytes (i : N) : N * N :=
  let lead := i / 157 + 0x81 in
  let trail := i mod 157 in
  let offset := if trail <? 0x3f then 0x40 else 0x62 in
  (lead, trail + offset).

(* generate_big5.py:13-17 bytes_to_index *)
Definition big5_bytes_to_index (lead tail : N) : N :=
  let offset := if tail <? 0x7F then 0x40 else 0x62 in
  (lead - 0x81) * 157 + (tail - offset).

(* generate_big5.py:33 *)
Definition keep_last : list N := [0x2550; 0x255E; 0x2561; 0x256A; 0x5341; 0x5345].

(* generate_big5.py:29-35, the loop over the reversed table *)
Fixpoint dedup_last (seen : pyset) (table : list (N * N)) : list (N * N) :=
  match table with
  | [] => []
  | (index, codepoint) :: rest =>
      if mem codepoint seen then dedup_last seen rest
      else (index, codepoint) ::
           dedup_last (if existsb (N.eqb codepoint) keep_last then add codepoint seen else seen) rest
  end.

(* generate_big5.py:20-46 deduped_table *)
Definition big5_deduped_table (table : list (N * N)) : list (N * N) :=
  dedup_first empty (rev' (dedup_last empty (rev' table))).

(* generate_big5.py:49-59 load_table_file after parsing, 62-77 generate_big5_tables, 88-105 the written constants *)
Definition generate_big5_tables (lines : list (N * N)) : list N * list (N * (N * N)) :=
  let table := sort pair_leb lines in
  let dec_table := dec_fill 0 table in
  let enc_table := sort entry_leb (map (fun ic => (snd ic, big5_index_to_bytes (fst ic))) (big5_deduped_table table)) in
  (map written dec_table, enc_table).

(** ** generate_shiftjis.py *)

(* generate_shiftjis.py:4-11 index_to_bytes *)
Definition sjis_index_to_bytes (i : N) : N * N :=
  let lead := i / 188 in
  let lead_offset := if lead <? 0x1F then 0x81 else 0xC1 in
  let trail := i mod 188 in
  let trail_offset := if trail <? 0x3F then 0x40 else 0x41 in
  (lead + lead_offset, trail + trail_offset).

(* generate_shiftjis.py:14-19 bytes_to_index *)
Definition sjis_bytes_to_index (lead tail : N) : N :=
  let lead_offset := if lead <? 0xA0 then 0x81 else 0xC1 in
  let tail_offset := if tail <? 0x7F then 0x40 else 0x41 in
  (lead - lead_offset) * 188 + tail - tail_offset.

(* generate_shiftjis.py:22-37 deduped_table *)
Definition sjis_deduped_table (table : list (N * N)) : list (N * N) :=
  dedup_first empty (filter (fun ic => (fst ic <? 8272) || (8835 <? fst ic)) table).

(* generate_shiftjis.py:40-50, 53-68, 79-96 *)
Definition generate_shiftjis_tables (lines : list (N * N)) : list N * list (N * (N * N)) :=
  let table := sort pair_leb lines in
  let dec_table := dec_fill 0 table in
  let enc_table := sort entry_leb (map (fun ic => (snd ic, sjis_index_to_bytes (fst ic))) (sjis_deduped_table table)) in
  (map written dec_table, enc_table).

(** ** generate_ascii_ext_tables.py *)

(* lines 19-24: the first 128 entries must be (i, i); None models the exception (or an IndexError).
   Returns what follows them (28) *)
Fixpoint check_ascii (n : nat) (i : N) (table : list (N * N)) : option (list (N * N)) :=
  match n with
  | O => Some table
  | S n =>
      match table with
      | (b, c) :: rest => if (b =? i) && (c =? i) then check_ascii n (i + 1) rest else None
      | [] => None
      end
  end.

(* lines 43-48; `seen &= {item[1]}` intersects *)
Fixpoint single_byte_enc (seen : pyset) (table : list (N * N)) : list (N * N) :=
  match table with
  | [] => []
  | (b, c) :: rest =>
      if mem c seen then single_byte_enc seen rest
      else (c, b) :: single_byte_enc (intersect1 seen c) rest
  end.

(* lines 7-49 and 74-91 *)
Definition generate_ascii_ext_encoding (lines : list (N * N)) : option (list N * list (N * N)) :=
  match check_ascii 128 0 (sort pair_leb lines) with
  | None => None
  | Some table =>
      let dec_table := dec_fill 0 (map (fun bc => (fst bc - 128, snd bc)) table) in
      let dec_table := dec_table ++ repeat None (128 - length dec_table) in
      Some (map written dec_table, sort pair_leb (single_byte_enc empty table))
  end.
