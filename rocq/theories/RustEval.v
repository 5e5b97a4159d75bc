(* An interpreter for the part of Rust in RustSyntax.v.  Nothing in this file is specific to the crate.

   It gives a meaning to programs that the compiler accepts; it does not check types, lifetimes, borrows or visibility.
   - References are not modelled as addresses: `&e` is the value of e.  This is right for programs that the borrow checker accepts,
     because what a shared reference points to does not change while it is in use.  A `&mut` argument is passed by value and result:
     when the function returns, the variable the reference was made of gets the final value of the parameter.
     So a variable that holds a `&mut` reference (from iter_mut) has the value of what it refers to.  A Vec<u8> is a value like
     an array of bytes, a String a value like a str; running out of memory is not modelled.
   - Integers are u8, u16, u32 and usize, where [max] is usize::MAX.  Arithmetic out of the range of its type is a panic, as in
     a debug build.
   - The type of an integer literal without a suffix is not inferred from the whole function as the compiler does.  It is left
     open ([VLit]) until the literal meets a typed operand, parameter or result, except that a literal that is bound by itself to a
     variable (`let mut i = 0`) is a usize.  Operands of different types have no meaning, so that a guess that differs from what the
     compiler infers cannot give a different result: it gives none.
   - What has no meaning here is [stuck]. *)
From Coq Require Import List NArith Arith Bool String Ascii.
From Verif Require Import Prelude RustCore RustSyntax.
Import ListNotations.
Local Open Scope string_scope.
Local Open Scope N_scope.
Local Open Scope list_scope.

(** ** Values *)

Inductive ity := U8 | U16 | U32 | Usize.

Inductive value :=
| VLit (n : N)                                 (* an integer whose type is not known yet *)
| VInt (t : ity) (n : N)
| VBool (b : bool)
| VChar (c : N)
| VStr (s : list N)                            (* a str, by its bytes *)
| VBytes (bs : list N)                         (* a slice or array of u8 *)
| VArr (vs : list value)                       (* a slice or array of other elements *)
| VTuple (vs : list value)
| VIter (vs : list value)                      (* an iterator, by the items it is going to yield *)
| VRange (lo hi : option value) (incl : bool)
| VCon (c : string) (vs : list value)          (* a variant of an enum: Some(v), None, Ok(v), DecodeErrorCause::InvalidData *)
| VStruct (s : string) (fs : list (string * value))
| VClosure (ps : list pat) (e : expr).

Definition unit_value : value := VTuple [].

(* no meaning; the outcome is that of undefined behaviour, which the theorems about programs exclude *)
Definition stuck {A} : outcome A := UB.

Definition ity_eqb (a b : ity) : bool :=
  match a, b with U8, U8 | U16, U16 | U32, U32 | Usize, Usize => true | _, _ => false end.

(* local variables, the innermost first *)
Definition env := list (string * value).
Fixpoint lookup (x : string) (r : env) : option value :=
  match r with
  | [] => None
  | (y, v) :: r => if String.eqb x y then Some v else lookup x r
  end.
Fixpoint assign (x : string) (v : value) (r : env) : outcome env :=
  match r with
  | [] => stuck
  | (y, w) :: r => if String.eqb x y then Ret ((y, v) :: r) else let* r := assign x v r in Ret ((y, w) :: r)
  end.
(* the variables of r' without those declared since r *)
Fixpoint same_size (r r' : env) : bool :=
  match r, r' with
  | [], [] => true
  | _ :: r, _ :: r' => same_size r r'
  | _, _ => false
  end.
Fixpoint leave (r r' : env) : env :=
  match r' with
  | [] => []
  | _ :: t => if same_size r r' then r' else leave r t
  end.

(* how the evaluation of an expression ends *)
Inductive sig := SVal (v : value) | SBreak | SContinue | SReturn (v : value).

(* the values of an iterator's items *)
Definition ints (bs : list N) : list value := map (VInt U8) bs.

Section Machine.
Variable max : N.

(* the largest value of a type *)
Definition ity_max (t : ity) : N := match t with U8 => 0xFF | U16 => 0xFFFF | U32 => 0xFFFFFFFF | Usize => max end.
Definition ity_bits (t : ity) : N := match t with U8 => 8 | U16 => 16 | U32 => 32 | Usize => N.size max end.
Definition int_type (s : string) : option ity :=
  if String.eqb s "u8" then Some U8
  else if String.eqb s "u16" then Some U16
  else if String.eqb s "u32" then Some U32
  else if String.eqb s "usize" then Some Usize
  else None.
(* n as a value of the type, if it is in range *)
Definition in_type (t : ity) (n : N) : outcome value := if n <=? ity_max t then Ret (VInt t n) else Panic.
(* an open literal as a value of the type *)
Definition lit_as (t : ity) (n : N) : outcome value := if n <=? ity_max t then Ret (VInt t n) else stuck.
Definition usize (n : nat) : value := VInt Usize (N.of_nat n).

(** ** Operators *)

Definition arith (op : binop) (t : ity) (a b : N) : outcome value :=
  match op with
  | Add => in_type t (a + b)
  | Sub => if b <=? a then Ret (VInt t (a - b)) else Panic
  | Mul => in_type t (a * b)
  | Div => if b =? 0 then Panic else Ret (VInt t (a / b))
  | Rem => if b =? 0 then Panic else Ret (VInt t (a mod b))
  | BitAnd => Ret (VInt t (N.land a b))
  | BitOr => Ret (VInt t (N.lor a b))
  | Eq => Ret (VBool (a =? b))
  | Ne => Ret (VBool (negb (a =? b)))
  | Lt => Ret (VBool (a <? b))
  | Le => Ret (VBool (a <=? b))
  | Gt => Ret (VBool (b <? a))
  | Ge => Ret (VBool (b <=? a))
  | Shl | Shr => stuck
  end.
Definition shift (op : binop) (t : ity) (a b : N) : outcome value :=
  if b <? ity_bits t then
    match op with
    | Shl => Ret (VInt t (N.shiftl a b mod (ity_max t + 1)))
    | Shr => Ret (VInt t (N.shiftr a b))
    | _ => stuck
    end
  else Panic.
Definition is_shift (op : binop) : bool := match op with Shl | Shr => true | _ => false end.
Definition binary (op : binop) (a b : value) : outcome value :=
  match a, b with
  | VInt t a, VInt u b => if is_shift op then shift op t a b else if ity_eqb t u then arith op t a b else stuck
  | VInt t a, VLit b =>
      if is_shift op then shift op t a b else let* u := lit_as t b in arith op t a b
  | VLit a, VInt t b => if is_shift op then stuck else let* u := lit_as t a in arith op t a b
  | VChar a, VChar b => match op with Eq => Ret (VBool (a =? b)) | Ne => Ret (VBool (negb (a =? b))) | _ => stuck end
  | _, _ => stuck
  end.

(* v as t *)
Definition cast (v : value) (t : ty) : outcome value :=
  match t with
  | TyPath [s] [] =>
      match int_type s with
      | Some t =>
          match v with
          | VInt _ n => Ret (VInt t (n mod (ity_max t + 1)))
          | VChar c => Ret (VInt t (c mod (ity_max t + 1)))
          | _ => stuck
          end
      | None =>
          match v with
          | VInt U8 n => if String.eqb s "char" then Ret (VChar n) else stuck
          | _ => stuck
          end
      end
  | _ => stuck
  end.

(* equality, as in assert_eq!; an open literal equals an integer of any type *)
Fixpoint same (a b : value) : bool :=
  let fix all (l m : list value) : bool :=
    match l, m with
    | [], [] => true
    | x :: l, y :: m => same x y && all l m
    | _, _ => false
    end in
  let fix all_bytes (l : list value) (m : list N) : bool :=
    match l, m with
    | [], [] => true
    | VInt U8 x :: l, y :: m | VLit x :: l, y :: m => (x =? y) && all_bytes l m
    | _, _ => false
    end in
  match a, b with
  | VLit x, VLit y | VLit x, VInt _ y | VInt _ x, VLit y => x =? y
  | VInt t x, VInt u y => ity_eqb t u && (x =? y)
  | VBool x, VBool y => Bool.eqb x y
  | VChar x, VChar y => x =? y
  | VStr x, VStr y | VBytes x, VBytes y => if list_eq_dec N.eq_dec x y then true else false
  | VArr x, VBytes y | VBytes y, VArr x => all_bytes x y
  | VArr x, VArr y | VTuple x, VTuple y => all x y
  | VCon c x, VCon d y => String.eqb c d && all x y
  | VStruct c x, VStruct d y =>
      String.eqb c d &&
      (fix fields (l m : list (string * value)) : bool :=
         match l, m with
         | [], [] => true
         | (f, x) :: l, (g, y) :: m => String.eqb f g && same x y && fields l m
         | _, _ => false
         end) x y
  | _, _ => false
  end.

(** ** Types of parameters and results *)

(* the elements of an array as bytes *)
Fixpoint as_bytes (vs : list value) : outcome (list N) :=
  match vs with
  | [] => Ret []
  | VInt U8 n :: vs => let* l := as_bytes vs in Ret (n :: l)
  | VLit n :: vs => let* u := lit_as U8 n in let* l := as_bytes vs in Ret (n :: l)
  | _ => stuck
  end.
Definition is_u8 (t : ty) : bool := match t with TyPath [s] [] => String.eqb s "u8" | _ => false end.

(* a value where the type t is expected: open literals become integers of the type *)
Fixpoint coerce (t : ty) (v : value) : outcome value :=
  let fix all (ts : list ty) (vs : list value) : outcome (list value) :=
    match ts, vs with
    | [], [] => Ret []
    | t :: ts, v :: vs => let* v := coerce t v in let* vs := all ts vs in Ret (v :: vs)
    | _, _ => stuck
    end in
  match t with
  | TyRef _ t => coerce t v
  | TySlice t | TyArr t _ =>
      match v with
      | VArr vs =>
          if is_u8 t then let* l := as_bytes vs in Ret (VBytes l)
          else
            let* vs := (fix each (vs : list value) : outcome (list value) :=
                          match vs with
                          | [] => Ret []
                          | v :: vs => let* v := coerce t v in let* vs := each vs in Ret (v :: vs)
                          end) vs in
            Ret (VArr vs)
      | _ => Ret v
      end
  | TyTuple ts =>
      match v with
      | VTuple vs => let* vs := all ts vs in Ret (VTuple vs)
      | _ => Ret v
      end
  | TyPath [s] [t] =>
      match v with
      | VCon c [w] => if String.eqb s "Option" && String.eqb c "Some" then let* w := coerce t w in Ret (VCon c [w]) else Ret v
      | VArr vs => if String.eqb s "Vec" && is_u8 t then let* l := as_bytes vs in Ret (VBytes l) else Ret v
      | _ => Ret v
      end
  | TyPath [s] [] =>
      match v, int_type s with
      | VLit n, Some t => lit_as t n
      | _, _ => Ret v
      end
  | _ => Ret v
  end.

(** ** Literals and patterns *)

Definition literal_value (l : lit) : outcome value :=
  match l with
  | LInt n s =>
      match s with
      | EmptyString => Ret (VLit n)
      | _ => match int_type s with Some t => lit_as t n | None => stuck end
      end
  | LBool b => Ret (VBool b)
  | LChar c => Ret (VChar c)
  | LStr s => Ret (VStr s)
  | LByteStr s => Ret (VBytes s)
  end.

(* the variables a pattern binds if it matches *)
Fixpoint match_pat (p : pat) (v : value) (r : env) : outcome (option env) :=
  let fix all (ps : list pat) (vs : list value) (r : env) : outcome (option env) :=
    match ps, vs with
    | [], [] => Ret (Some r)
    | p :: ps, v :: vs =>
        let* o := match_pat p v r in
        match o with Some r => all ps vs r | None => Ret None end
    | _, _ => stuck
    end in
  match p with
  | PWild => Ret (Some r)
  | PVar x => Ret (Some ((x, v) :: r))
  | PLit l =>
      match l, v with
      | LInt n _, VInt _ m => Ret (if n =? m then Some r else None)
      | LChar n, VChar m => Ret (if n =? m then Some r else None)
      | _, _ => stuck
      end
  | PTuple ps => match v with VTuple vs => all ps vs r | _ => stuck end
  | PRef p => match_pat p v r
  | PCon c ps =>
      match v with
      | VCon d vs => if String.eqb (last c "") d then all ps vs r else Ret None
      | _ => stuck
      end
  end.

(** ** Indices *)

(* an index *)
Definition index_of (v : value) : outcome nat :=
  match v with
  | VInt Usize n => Ret (N.to_nat n)
  | VLit n => Ret (N.to_nat n)
  | _ => stuck
  end.
(* the bounds of a range of indices of something of the given length *)
Definition bounds (lo hi : option value) (len : nat) : outcome (nat * nat) :=
  let* a := (match lo with None => Ret 0%nat | Some v => index_of v end) in
  let* b := (match hi with None => Ret len | Some v => index_of v end) in
  Ret (a, b).
Definition slice {A} (l : list A) (a b : nat) : outcome (list A) :=
  if (a <=? b)%nat && (b <=? List.length l)%nat then Ret (firstn (b - a) (skipn a l)) else Panic.

(* v[i] *)
Definition index (v i : value) : outcome value :=
  match i with
  | VRange lo hi false =>
      match v with
      | VBytes l => let* ab := bounds lo hi (List.length l) in let* l := slice l (fst ab) (snd ab) in Ret (VBytes l)
      | VArr l => let* ab := bounds lo hi (List.length l) in let* l := slice l (fst ab) (snd ab) in Ret (VArr l)
      | VStr s =>
          let* ab := bounds lo hi (List.length s) in
          if is_char_boundary s (fst ab) && is_char_boundary s (snd ab)
          then let* l := slice s (fst ab) (snd ab) in Ret (VStr l) else Panic
      | _ => stuck
      end
  | _ =>
      let* n := index_of i in
      match v with
      | VBytes l => let* b := idx l n in Ret (VInt U8 b)
      | VArr l => idx l n
      | _ => stuck
      end
  end.

(** ** Functions and methods of core *)

(* strings without writing their quotes *)
Definition is (s t : string) : bool := String.eqb s t.

Definition le_bytes (t : ity) (n : N) : outcome (list N) :=
  match t with U16 => Ret (u16_to_le_bytes n) | U32 => Ret (u32_to_le_bytes n) | _ => stuck end.
Definition be_bytes (t : ity) (n : N) : outcome (list N) :=
  match t with U16 => Ret (u16_to_be_bytes n) | U32 => Ret (u32_to_be_bytes n) | _ => stuck end.
Definition from_le (t : ity) (l : list N) : outcome value :=
  match t, l with
  | U16, [a; b] => Ret (VInt U16 (u16_from_le_bytes a b))
  | U32, [a; b; c; d] => Ret (VInt U32 (u32_from_le_bytes a b c d))
  | _, _ => stuck
  end.
Definition from_be (t : ity) (l : list N) : outcome value :=
  match t, l with
  | U16, [a; b] => Ret (VInt U16 (u16_from_be_bytes a b))
  | U32, [a; b; c; d] => Ret (VInt U32 (u32_from_be_bytes a b c d))
  | _, _ => stuck
  end.
Definition some_char (o : option N) : value := match o with Some c => VCon "Some" [VChar c] | None => VCon "None" [] end.

(* functions, by the last two segments of their paths *)
Definition core_fn (m f : string) (args : list value) : outcome value :=
  match args with
  | [v] =>
      if is m "char" && is f "from_u32" then match v with VInt U32 n => Ret (some_char (from_u32 n)) | _ => stuck end
      else if is m "char" && is f "from_u32_unchecked" then
        match v with VInt U32 n => let* c := from_u32_unchecked n in Ret (VChar c) | _ => stuck end
      else if is m "str" && is f "from_utf8" then
        match v with
        | VBytes l =>
            let n := utf8_valid_up_to l in
            Ret (if (n =? List.length l)%nat then VCon "Ok" [VStr l] else VCon "Err" [VStruct "Utf8Error" [("valid_up_to", usize n)]])
        | _ => stuck
        end
      else if is m "str" && is f "from_utf8_unchecked" then
        match v with VBytes l => let* s := from_utf8_unchecked l in Ret (VStr s) | _ => stuck end
      else
        match int_type m, v with
        | Some t, VBytes l => if is f "from_le_bytes" then from_le t l else if is f "from_be_bytes" then from_be t l else stuck
        | _, _ => stuck
        end
  | [] =>
      if is m "Vec" && is f "new" then Ret (VArr [])
      else if is m "String" && is f "new" then Ret (VStr [])
      else stuck
  | _ => stuck
  end.

(* methods that change nothing *)
Definition core_method (v : value) (f : string) (args : list value) : outcome value :=
  match args with
  | [] =>
      if is f "len" then
        match v with
        | VStr l | VBytes l => Ret (usize (List.length l))
        | VArr l => Ret (usize (List.length l))
        | _ => stuck
        end
      else if is f "as_bytes" then match v with VStr l => Ret (VBytes l) | _ => stuck end
      else if is f "iter" then
        match v with VBytes l => Ret (VIter (ints l)) | VArr l => Ret (VIter l) | _ => stuck end
      else if is f "char_indices" then
        match v with
        | VStr l => let* cs := char_indices l in Ret (VIter (map (fun p => VTuple [usize (fst p); VChar (snd p)]) cs))
        | _ => stuck
        end
      else if is f "clone" then Ret v
      else if is f "unwrap" then
        match v with
        | VCon c [w] => if is c "Some" || is c "Ok" then Ret w else if is c "Err" then Panic else stuck
        | VCon c [] => if is c "None" then Panic else stuck
        | _ => stuck
        end
      else if is f "valid_up_to" then
        match v with
        | VStruct c [(_, w)] => if is c "Utf8Error" then Ret w else stuck
        | _ => stuck
        end
      else if is f "len_utf8" then match v with VChar c => Ret (usize (len_utf8 c)) | _ => stuck end
      else if is f "len_utf16" then match v with VChar c => Ret (usize (len_utf16 c)) | _ => stuck end
      else if is f "to_le_bytes" then match v with VInt t n => let* l := le_bytes t n in Ret (VBytes l) | _ => stuck end
      else if is f "to_be_bytes" then match v with VInt t n => let* l := be_bytes t n in Ret (VBytes l) | _ => stuck end
      else if is f "is_empty" then
        match v with VStr l | VBytes l => Ret (VBool (match l with [] => true | _ => false end)) | _ => stuck end
      else if is f "chars" then
        match v with
        | VStr l => let* cs := char_indices l in Ret (VIter (map (fun p => VChar (snd p)) cs))
        | _ => stuck
        end
      else stuck
  | [a] =>
      if is f "chunks" then
        let* n := index_of a in
        match v with VBytes l => if (n =? 0)%nat then Panic else Ret (VIter (map VBytes (chunks n l))) | _ => stuck end
      else if is f "is_char_boundary" then
        let* n := index_of a in
        match v with VStr l => Ret (VBool (is_char_boundary l n)) | _ => stuck end
      else stuck
  | _ => stuck
  end.

Definition char_key (v : value) : outcome N := match v with VChar c => Ret c | _ => stuck end.
(* slice::binary_search_by_key, with the keys of the elements given; see RustCore.v.  The place in an Err is not modelled. *)
Definition search (keys : list N) (key : value) : outcome value :=
  let* k := char_key key in
  let* o := binary_search_by_key (map (fun c => (c, tt)) keys) k in
  Ret (match o with Some i => VCon "Ok" [usize i] | None => VCon "Err" [unit_value] end).
Fixpoint map_m {A B} (f : A -> outcome B) (l : list A) : outcome (list B) :=
  match l with
  | [] => Ret []
  | x :: l => let* y := f x in let* l := map_m f l in Ret (y :: l)
  end.

(* the items that a `for` loop goes through *)
Definition items_of (v : value) : outcome (list value) :=
  match v with
  | VIter l => Ret l
  | VRange (Some (VLit a)) (Some (VInt t b)) incl =>
      let* u := lit_as t a in
      let n := if incl then b + 1 - a else b - a in
      Ret (map (fun i => VInt t (a + N.of_nat i)) (seq 0 (N.to_nat n)))
  | _ => stuck
  end.

(** ** Expressions *)

(* the functions and constants a path stands for in a module *)
Record program := Program {
  find_fn : path -> path -> option (path * fn);     (* with the module the function is in *)
  find_const : path -> path -> option value
}.
Variable prog : program.
Variable fuel : nat.      (* the number of times a loop may run *)

(* continue with the value, unless the evaluation ended otherwise *)
Definition then_ (m : outcome (env * sig)) (k : env -> value -> outcome (env * sig)) : outcome (env * sig) :=
  let* p := m in
  match snd p with
  | SVal v => k (fst p) v
  | s => Ret (fst p, s)
  end.
Definition value_of (r : env) (m : outcome value) : outcome (env * sig) := let* v := m in Ret (r, SVal v).

(* leave the scope that was entered in r *)
Definition scoped (r : env) (m : outcome (env * sig)) : outcome (env * sig) :=
  let* p := m in Ret (leave r (fst p), snd p).

(* what the end of a loop body means for the loop *)
Definition loop_ctl {S} (mk : env -> S) (p : env * sig) : ctl S (env * value) :=
  match snd p with
  | SVal _ | SContinue => Continue (mk (fst p))
  | SBreak => Break (mk (fst p))
  | SReturn v => Return (fst p, v)
  end.
Definition loop_end {S} (get : S -> env) (m : outcome (S + env * value)) : outcome (env * sig) :=
  let* e := m in
  match e with
  | inl s => Ret (get s, SVal unit_value)
  | inr (r, v) => Ret (r, SReturn v)
  end.

(* the variable that `&mut x`, or x itself if it is a reference, stands for *)
Definition referent (e : expr) : option string :=
  match e with
  | ERef true (EPath [x]) => Some x
  | EPath [x] => Some x
  | _ => None
  end.
Definition write_back (e : expr) (v : value) (r : env) : outcome env :=
  match referent e with Some x => assign x v r | None => Ret r end.
(* after a call: the final values of the parameters of type &mut T *)
Fixpoint write_backs (ps : list (string * ty)) (args : list expr) (final : env) (r : env) : outcome env :=
  match ps, args with
  | [], [] => Ret r
  | (x, TyRef true _) :: ps, a :: args =>
      match lookup x final with
      | Some v => let* r := write_back a v r in write_backs ps args final r
      | None => stuck
      end
  | _ :: ps, _ :: args => write_backs ps args final r
  | _, _ => stuck
  end.

Fixpoint bind_params (ps : list (string * ty)) (vs : list value) : outcome env :=
  match ps, vs with
  | [], [] => Ret []
  | (x, t) :: ps, v :: vs => let* v := coerce t v in let* r := bind_params ps vs in Ret ((x, v) :: r)
  | _, _ => stuck
  end.

(* a literal that is bound by itself to a variable is a usize *)
Definition let_value (p : pat) (e : expr) (v : value) : outcome value :=
  match p, e, v with
  | PVar _, ELit (LInt n EmptyString), VLit _ => lit_as Usize n
  | _, _, _ => Ret v
  end.

(* [e, ...] *)
Definition is_byte (v : value) : bool := match v with VInt U8 _ => true | _ => false end.
Definition array (vs : list value) : outcome value :=
  if match vs with [] => false | _ => forallb is_byte vs end then let* l := as_bytes vs in Ret (VBytes l) else Ret (VArr vs).

Definition option_con (o : option value) : value := match o with Some v => VCon "Some" [v] | None => VCon "None" [] end.

(* an open literal that is stored in a variable gets the type of the variable *)
Definition retype (old new : value) : outcome value :=
  match old, new with
  | VInt t _, VLit n => lit_as t n
  | _, _ => Ret new
  end.

Section Parts.
(* how expressions inside the one at hand are evaluated *)
Variable ev : expr -> env -> outcome (env * sig).

(* expressions from left to right *)
Fixpoint eval_list (es : list expr) (r : env) (k : env -> list value -> outcome (env * sig)) : outcome (env * sig) :=
  match es with
  | [] => k r []
  | e :: es => then_ (ev e r) (fun r v => eval_list es r (fun r vs => k r (v :: vs)))
  end.
Definition eval_opt (o : option expr) (r : env) (k : env -> option value -> outcome (env * sig)) : outcome (env * sig) :=
  match o with
  | None => k r None
  | Some e => then_ (ev e r) (fun r v => k r (Some v))
  end.
(* e if the pattern matches, else what is next *)
Definition branch (p : pat) (v : value) (r : env) (e : expr) (next : outcome (env * sig)) : outcome (env * sig) :=
  let* o := match_pat p v r in
  match o with
  | Some r' => scoped r (ev e r')
  | None => next
  end.
Definition else_ (b : option expr) (r : env) : outcome (env * sig) :=
  match b with Some b => ev b r | None => Ret (r, SVal unit_value) end.
Fixpoint arms (l : list (pat * expr)) (v : value) (r : env) : outcome (env * sig) :=
  match l with
  | [] => stuck
  | (p, e) :: l => branch p v r e (arms l v r)
  end.
Fixpoint statements (tail : option expr) (ss : list stmt) (r : env) : outcome (env * sig) :=
  match ss with
  | [] => else_ tail r
  | SLet p t e :: ss =>
      then_ (ev e r) (fun r v =>
        let* v := let_value p e v in
        let* v := (match t with Some t => coerce t v | None => Ret v end) in
        let* o := match_pat p v r in
        match o with Some r => statements tail ss r | None => stuck end)
  | SExpr e :: ss => then_ (ev e r) (fun r _ => statements tail ss r)
  end.
(* x = v *)
Definition set_var (x : string) (v : value) (r : env) : outcome (env * sig) :=
  match lookup x r with
  | Some w => let* v := retype w v in let* r := assign x v r in Ret (r, SVal unit_value)
  | None => stuck
  end.
(* x[i] = v *)
Definition set_index (x : string) (i v : value) (r : env) : outcome (env * sig) :=
  match lookup x r with
  | Some (VBytes l) =>
      let* n := index_of i in
      let* b := (match v with
                 | VInt U8 b => Ret b
                 | VLit b => let* u := lit_as U8 b in Ret b
                 | _ => stuck
                 end) in
      let* l := upd l n b in
      let* r := assign x (VBytes l) r in
      Ret (r, SVal unit_value)
  | _ => stuck
  end.
(* x[i].copy_from_slice(s) *)
Definition copy_slice (x : string) (i s : value) (r : env) : outcome (env * sig) :=
  match lookup x r, i, s with
  | Some (VBytes l), VRange lo hi false, VBytes s =>
      let* ab := bounds lo hi (List.length l) in
      let* l := copy_at l (fst ab) (snd ab) s in
      let* r := assign x (VBytes l) r in
      Ret (r, SVal unit_value)
  | _, _, _ => stuck
  end.
(* x.extend_from_slice(s), where x is a Vec<u8> *)
Definition extend_slice (x : string) (s : value) (r : env) : outcome (env * sig) :=
  match lookup x r, s with
  | Some (VBytes l), VBytes s => let* r := assign x (VBytes (l ++ s)) r in Ret (r, SVal unit_value)
  | _, _ => stuck
  end.
(* x.extend(s), where x is a String and s an iterator over chars *)
Definition extend_string (x : string) (s : value) (r : env) : outcome (env * sig) :=
  match lookup x r, s with
  | Some (VStr l), VIter cs =>
      let* cs := map_m char_key cs in
      let* r := assign x (VStr (l ++ flat_map encode_utf8 cs)) r in
      Ret (r, SVal unit_value)
  | _, _ => stuck
  end.
(* c.encode_utf8(a): writes to the buffer, and returns the part it has written *)
Definition write_utf8 (c b : value) (a : expr) (r : env) : outcome (env * sig) :=
  match c, b with
  | VChar c, VBytes b =>
      let s := encode_utf8 c in
      let* b := copy_at b 0 (List.length s) s in
      let* r := write_back a (VBytes b) r in
      Ret (r, SVal (VStr s))
  | _, _ => stuck
  end.
(* e.next(), where v is the value of e: advances the iterator, if it is in a variable *)
Definition next_item (e : expr) (v : value) (r : env) : outcome (env * sig) :=
  match v with
  | VIter l =>
      let* r := write_back e (VIter (tl l)) r in
      Ret (r, SVal (option_con (hd_error l)))
  | _ => stuck
  end.
(* the key of an element, |p| body *)
Definition key_of (p : pat) (body : expr) (r : env) (x : value) : outcome N :=
  let* o := match_pat p x r in
  match o with
  | Some r' =>
      let* q := ev body r' in
      match snd q with SVal w => char_key w | _ => stuck end
  | None => stuck
  end.
Definition search_by_key (p : pat) (body : expr) (v k : value) (r : env) : outcome (env * sig) :=
  match v with
  | VArr l => let* keys := map_m (key_of p body r) l in value_of r (search keys k)
  | _ => stuck
  end.
Definition while_body (c body : expr) (r : env) : outcome (ctl env (env * value)) :=
  let* p := then_ (ev c r) (fun r v =>
    match v with VBool true => ev body r | VBool false => Ret (r, SBreak) | _ => stuck end) in
  Ret (loop_ctl (fun r => r) p).
Definition while_let_body (p : pat) (e body : expr) (r : env) : outcome (ctl env (env * value)) :=
  let* q := then_ (ev e r) (fun r v => branch p v r body (Ret (r, SBreak))) in
  Ret (loop_ctl (fun r => r) q).
Definition for_body (p : pat) (body : expr) (s : list value * env) : outcome (ctl (list value * env) (env * value)) :=
  match fst s with
  | [] => Ret (Break s)
  | it :: its =>
      let* q := branch p it (snd s) body stuck in
      Ret (loop_ctl (fun r => (its, r)) q)
  end.
(* for y in x.iter_mut(), where x is a Vec<u8>; the state: the final elements so far, those to come *)
Definition for_mut_body (y : string) (body : expr) (s : list N * list N * env) : outcome (ctl (list N * list N * env) (env * value)) :=
  let '(done, todo, r) := s in
  match todo with
  | [] => Ret (Break s)
  | b :: todo =>
      let* q := ev body ((y, VInt U8 b) :: r) in
      match lookup y (fst q), snd q with
      | Some (VInt U8 b), SVal _ => Ret (Continue (done ++ [b], todo, leave r (fst q)))
      | _, _ => stuck
      end
  end.
Definition for_mut (x y : string) (body : expr) (r : env) : outcome (env * sig) :=
  match lookup x r with
  | Some (VBytes l) =>
      let* e := loop fuel (for_mut_body y body) ([], l, r) in
      match e with
      | inl (done, _, r) => let* r := assign x (VBytes done) r in Ret (r, SVal unit_value)
      | inr _ => stuck
      end
  | _ => stuck
  end.
End Parts.

(* for y in x.iter_mut() *)
Definition for_mut_of (p : pat) (e : expr) : option (string * string) :=
  match e with
  | EMethod (EPath [x]) f [] => if is f "iter_mut" then match p with PVar y => Some (x, y) | _ => None end else None
  | _ => None
  end.

(* a function that has been called with the arguments vs: its result and the final values of its parameters;
   ev: the evaluation of its body *)
Definition apply_fn (ev : expr -> env -> outcome (env * sig)) (f : fn) (vs : list value) : outcome (value * env) :=
  let* r0 := bind_params (fn_params f) vs in
  let* q := ev (fn_body f) r0 in
  let* v := (match snd q with SVal v | SReturn v => Ret v | _ => stuck end) in
  let* v := (match fn_ret f with Some t => coerce t v | None => Ret v end) in
  Ret (v, fst q).

(* m: the module of the code that is evaluated; r: the local variables *)
Fixpoint eval (depth : nat) (m : path) (e : expr) (r : env) {struct depth} : outcome (env * sig) :=
  match depth with
  | O => Diverge
  | S d =>
      let ev := eval d m in
      match e with
      | ELit l => value_of r (literal_value l)
      | EPath p =>
          match (match p with [x] => lookup x r | _ => None end) with
          | Some v => Ret (r, SVal v)
          | None =>
              match find_const prog m p with
              | Some v => Ret (r, SVal v)
              | None => Ret (r, SVal (VCon (last p "") []))
              end
          end
      | ETuple es => eval_list ev es r (fun r vs => Ret (r, SVal (VTuple vs)))
      | EArr es => eval_list ev es r (fun r vs => value_of r (array vs))
      | ERepeat e n =>
          then_ (ev e r) (fun r v => then_ (ev n r) (fun r n =>
            value_of r (let* n := index_of n in
                        match v with
                        | VInt U8 b => Ret (VBytes (repeat b n))
                        | _ => Ret (VArr (repeat v n))
                        end)))
      | EStruct p fs => eval_list ev (map snd fs) r (fun r vs => Ret (r, SVal (VStruct (last p "") (combine (map fst fs) vs))))
      | ERef _ e | EDeref e => ev e r
      | ENot e => then_ (ev e r) (fun r v => match v with VBool b => Ret (r, SVal (VBool (negb b))) | _ => stuck end)
      | EBin op a b => then_ (ev a r) (fun r a => then_ (ev b r) (fun r b => value_of r (binary op a b)))
      | EAnd a b => then_ (ev a r) (fun r v => match v with VBool true => ev b r | VBool false => Ret (r, SVal v) | _ => stuck end)
      | EOr a b => then_ (ev a r) (fun r v => match v with VBool false => ev b r | VBool true => Ret (r, SVal v) | _ => stuck end)
      | ECast e t => then_ (ev e r) (fun r v => value_of r (cast v t))
      | EField e f =>
          then_ (ev e r) (fun r v =>
            match v with
            | VTuple [a; b] => if is f "0" then Ret (r, SVal a) else if is f "1" then Ret (r, SVal b) else stuck
            | VStruct _ fs => match lookup f fs with Some w => Ret (r, SVal w) | None => stuck end
            | _ => stuck
            end)
      | EIndex e i => then_ (ev e r) (fun r v => then_ (ev i r) (fun r i => value_of r (index v i)))
      | ERange lo hi incl => eval_opt ev lo r (fun r lo => eval_opt ev hi r (fun r hi => Ret (r, SVal (VRange lo hi incl))))
      | ECall p args =>
          match find_fn prog m p with
          | Some (m', f) =>
              eval_list ev args r (fun r vs =>
                let* q := apply_fn (eval d m') f vs in
                let* r := write_backs (fn_params f) args (snd q) r in
                Ret (r, SVal (fst q)))
          | None =>
              match rev p with
              | [c] => eval_list ev args r (fun r vs => Ret (r, SVal (VCon c vs)))
              | f :: t :: _ => eval_list ev args r (fun r vs => value_of r (core_fn t f vs))
              | [] => stuck
              end
          end
      | EMethod e f args =>
          if is f "next" then then_ (ev e r) (fun r v => next_item e v r)
          else if is f "copy_from_slice" then
            match e, args with
            | EIndex (EPath [x]) i, [a] => then_ (ev i r) (fun r i => then_ (ev a r) (fun r s => copy_slice x i s r))
            | _, _ => stuck
            end
          else if is f "extend_from_slice" || is f "extend" then
            match e, args with
            | EPath [x], [a] => then_ (ev a r) (fun r s => if is f "extend" then extend_string x s r else extend_slice x s r)
            | _, _ => stuck
            end
          else if is f "encode_utf8" then
            match args with
            | [a] => then_ (ev e r) (fun r c => then_ (ev a r) (fun r b => write_utf8 c b a r))
            | _ => stuck
            end
          else if is f "binary_search_by_key" then
            match args with
            | [k; EClosure [p] body] => then_ (ev e r) (fun r v => then_ (ev k r) (fun r k => search_by_key ev p body v k r))
            | _ => stuck
            end
          else then_ (ev e r) (fun r v => eval_list ev args r (fun r vs => value_of r (core_method v f vs)))
      | EMacro f args =>
          if is f "assert_eq" then
            eval_list ev args r (fun r vs =>
              match vs with
              | [a; b] => if same a b then Ret (r, SVal unit_value) else Panic
              | _ => stuck
              end)
          else if is f "panic" then Panic
          else if is f "vec" then match args with [e] => ev e r | _ => stuck end
          else stuck
      | EClosure ps e => Ret (r, SVal (VClosure ps e))
      | EBlock ss tail => scoped r (statements ev tail ss r)
      | EIf c a b =>
          then_ (ev c r) (fun r v => match v with VBool true => ev a r | VBool false => else_ ev b r | _ => stuck end)
      | EIfLet p e a b => then_ (ev e r) (fun r v => branch ev p v r a (else_ ev b r))
      | EMatch e l => then_ (ev e r) (fun r v => arms ev l v r)
      | EWhile c body => loop_end (fun r => r) (loop fuel (while_body ev c body) r)
      | EWhileLet p e body => loop_end (fun r => r) (loop fuel (while_let_body ev p e body) r)
      | EFor p e body =>
          match for_mut_of p e with
          | Some (x, y) => for_mut ev x y body r
          | None => then_ (ev e r) (fun r v => let* its := items_of v in loop_end snd (loop fuel (for_body ev p body) (its, r)))
          end
      | EAssign place e =>
          then_ (ev e r) (fun r v =>
            match place with
            | EPath [x] | EDeref (EPath [x]) => set_var x v r
            | EIndex (EPath [x]) i => then_ (ev i r) (fun r i => set_index x i v r)
            | _ => stuck
            end)
      | EOpAssign op place e =>
          then_ (ev e r) (fun r v =>
            match place with
            | EPath [x] =>
                match lookup x r with
                | Some w => let* w := binary op w v in set_var x w r
                | None => stuck
                end
            | _ => stuck
            end)
      | EBreak => Ret (r, SBreak)
      | EContinue => Ret (r, SContinue)
      | EReturn o => eval_opt ev o r (fun r o => Ret (r, SReturn (match o with Some v => v | None => unit_value end)))
      end
  end.

(* a call of a function from outside: its result and the final values of its parameters *)
Definition call (depth : nat) (m : path) (f : fn) (vs : list value) : outcome (value * env) := apply_fn (eval depth m) f vs.
End Machine.
