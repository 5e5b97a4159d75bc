(* An interpreter for the part of Python in PySyntax.v.  Nothing in this file is specific to the scripts.
   Lists, sets and file objects are values here, not references.  Where that would make a difference the interpreter gives up
   (Wrong): a mutable value is not stored twice (a name that holds one is not assigned to another name, lists and tuples have no
   mutable elements), a parameter and the list a loop runs over are not changed, a mutable parameter is not returned.
   It also gives up where Python's behaviour is not modelled.
   Simplified: as in ModelScripts.v, text files are UTF-8 and int() knows ASCII digits only (everything else is an exception);
   a loop over a file decodes the file when it starts, Python does so piece by piece; what is written is on the disk at once. *)
From Coq Require Import List NArith ZArith Bool String Ascii.
From Verif Require Import Prelude RustCore FileText ModelGen ModelScripts ModelFiles PySyntax.
Import ListNotations.
Local Open Scope string_scope.
Local Open Scope list_scope.

(** ** Values and the world *)

(* file objects: for reading, for reading and read to the end, for writing text, for writing bytes *)
Inductive mode := MRead | MDone | MText | MBytes.
Inductive value :=
| VNone
| VBool (b : bool)
| VInt (z : Z)
| VStr (cs : list N)                  (* code points *)
| VBytes (bs : list N)
| VTuple (vs : list value)
| VList (vs : list value)
| VSet (zs : list Z)                  (* only sets of integers *)
| VIter (vs : list value)             (* what range and enumerate return *)
| VFile (p : path) (m : mode)
| VExc.                               (* an exception as an object *)
Definition mutable (v : value) : bool :=
  match v with VList _ | VSet _ | VIter _ | VFile _ _ => true | _ => false end.

(* the files; which were opened, for reading and for writing *)
Record world := World { disk : files; reads : list path; writes : list path }.

Inductive res (A : Type) :=
| Val (a : A) (w : world)
| Raise (w : world)                   (* an exception *)
| Wrong                               (* outside the model *)
| Out.                                (* out of fuel *)
Arguments Val {A}. Arguments Raise {A}. Arguments Wrong {A}. Arguments Out {A}.
Definition bind {A B} (r : res A) (k : A -> world -> res B) : res B :=
  match r with Val a w => k a w | Raise w => Raise w | Wrong => Wrong | Out => Out end.
Definition maybe {A} (o : option A) (w : world) : res A := match o with Some a => Val a w | None => Raise w end.

(* the local variables *)
Definition env := string -> option value.
Definition no_env : env := fun _ => None.
Definition upd (x : string) (v : value) (s : env) : env := fun y => if String.eqb x y then Some v else s y.

(** ** Files *)

Definition path_eqb (p q : path) : bool := if list_eq_dec string_dec p q then true else false.
Definition among (p : path) (l : list path) : bool := existsb (path_eqb p) l.

Fixpoint ascii_string (cs : list N) : option string :=
  match cs with
  | [] => Some EmptyString
  | c :: r => if (c <? 128)%N then option_map (String (ascii_of_N c)) (ascii_string r) else None
  end.
(* a relative path; dir: the working directory *)
Definition resolve (dir : path) (cs : list N) : option path :=
  match ascii_string cs with
  | Some s => if existsb (String.eqb EmptyString) (segments s) then None else Some (at_ dir s)
  | None => None
  end.

(* open: for reading a file that exists; for writing, which empties the file.
   Not modelled: opening a file again that was opened for writing, and opening for writing a file that was opened *)
Definition open_read (dir : path) (cs : list N) (w : world) : res value :=
  match resolve dir cs with
  | None => Wrong
  | Some p =>
      if among p (writes w) then Wrong
      else match disk w p with
           | Some _ => Val (VFile p MRead) (World (disk w) (p :: reads w) (writes w))
           | None => Raise w
           end
  end.
Definition open_write (dir : path) (cs : list N) (m : mode) (w : world) : res value :=
  match resolve dir cs with
  | None => Wrong
  | Some p =>
      if among p (reads w) || among p (writes w) then Wrong
      else Val (VFile p m) (World (write (disk w) p []) (reads w) (p :: writes w))
  end.
(* write: at the end of the file (the only place, as no file is opened twice for writing) *)
Definition append (p : path) (bs : list N) (w : world) : world :=
  World (write (disk w) p (match disk w p with Some old => old ++ bs | None => bs end)) (reads w) (writes w).

(* surrogates cannot be encoded *)
Definition encodable (cs : list N) : bool := forallb (fun c => (c <? 0xD800) || (0xDFFF <? c))%N cs.
Definition utf8_encode (cs : list N) : option (list N) := if encodable cs then Some (py_encode cs) else None.

(* "for line in file": the lines with their ends *)
Fixpoint lines_from (line : list N) (cs : list N) : list (list N) :=
  match cs with
  | [] => match line with [] => [] | _ => [rev' line] end
  | c :: r => if (c =? 10)%N then rev' (c :: line) :: lines_from [] r else lines_from (c :: line) r
  end.
Definition read_lines (file : list N) : option (list value) :=
  option_map (fun cs => map VStr (lines_from [] (py_newlines cs))) (py_decode file).

(** ** Operations on values *)

Fixpoint prefix (a b : list N) : bool :=
  match a, b with
  | [], _ => true
  | x :: a, y :: b => (x =? y)%N && prefix a b
  | _, [] => false
  end.
Definition str_is (cs : list N) (s : string) : bool :=
  match ascii_string cs with Some s' => String.eqb s' s | None => false end.

(* the integers in a list, if it has nothing else *)
Fixpoint ints (vs : list value) : option (list Z) :=
  match vs with
  | [] => Some []
  | VInt z :: r => option_map (cons z) (ints r)
  | _ => None
  end.
Definition has (z : Z) (zs : list Z) : bool := existsb (Z.eqb z) zs.

Definition str_eqb (a b : list N) : bool := if list_eq_dec N.eq_dec a b then true else false.
Definition compare (op : cmpop) (a b : value) : option bool :=
  match op, a, b with
  | Lt, VInt a, VInt b => Some (a <? b)%Z
  | Gt, VInt a, VInt b => Some (b <? a)%Z
  | Le, VInt a, VInt b => Some (a <=? b)%Z
  | Ge, VInt a, VInt b => Some (b <=? a)%Z
  | Eq, VInt a, VInt b => Some (a =? b)%Z
  | Ne, VInt a, VInt b => Some (negb (a =? b)%Z)
  | Eq, VStr a, VStr b => Some (str_eqb a b)
  | Ne, VStr a, VStr b => Some (negb (str_eqb a b))
  | In, VInt a, VSet b => Some (has a b)
  | NotIn, VInt a, VSet b => Some (negb (has a b))
  | In, VInt a, VList b => option_map (has a) (ints b)
  | NotIn, VInt a, VList b => option_map (fun b => negb (has a b)) (ints b)
  | Is, a, VNone => Some match a with VNone => true | _ => false end
  | IsNot, a, VNone => Some match a with VNone => false | _ => true end
  | _, _, _ => None
  end.
(* // and % round down, as Z.div and Z.modulo *)
Definition binary (op : binop) (a b : value) (w : world) : res value :=
  match op, a, b with
  | Add, VInt a, VInt b => Val (VInt (a + b)) w
  | Sub, VInt a, VInt b => Val (VInt (a - b)) w
  | Mul, VInt a, VInt b => Val (VInt (a * b)) w
  | FloorDiv, VInt a, VInt b => if (b =? 0)%Z then Raise w else Val (VInt (a / b)) w
  | Mod, VInt a, VInt b => if (b =? 0)%Z then Raise w else Val (VInt (a mod b)) w
  | Add, VStr a, VStr b => Val (VStr (a ++ b)) w
  | _, _, _ => Wrong
  end.
Definition index (a i : value) (w : world) : res value :=
  match a, i with
  | VList vs, VInt i | VTuple vs, VInt i => if (i <? 0)%Z then Wrong else maybe (nth_error vs (Z.to_nat i)) w
  | _, _ => Wrong
  end.
(* a[i:] *)
Definition slice_from (a i : value) (w : world) : res value :=
  match a, i with
  | VList vs, VInt i => if (i <? 0)%Z then Wrong else Val (VList (skipn (Z.to_nat i) vs)) w
  | _, _ => Wrong
  end.

(* list.sort, for integers and tuples of integers (of tuples ...) that all have the same shape.
   Elements that are equal in this order are the same, so that any sorting algorithm gives the same list *)
Inductive shape := SInt | STuple (l : list shape).
Fixpoint shape_of (v : value) : option shape :=
  match v with
  | VInt _ => Some SInt
  | VTuple vs =>
      option_map STuple
        ((fix shapes vs := match vs with
          | [] => Some []
          | v :: r => match shape_of v, shapes r with Some a, Some b => Some (a :: b) | _, _ => None end
          end) vs)
  | _ => None
  end.
Fixpoint shape_eqb (a b : shape) : bool :=
  match a, b with
  | SInt, SInt => true
  | STuple l, STuple m =>
      (fix eqs l m := match l, m with [], [] => true | a :: l, b :: m => shape_eqb a b && eqs l m | _, _ => false end) l m
  | _, _ => false
  end.
Definition has_shape (s : shape) (v : value) : bool := match shape_of v with Some s' => shape_eqb s s' | None => false end.
Definition sortable (vs : list value) : bool :=
  match vs with
  | [] => true
  | v :: r => match shape_of v with Some s => forallb (has_shape s) r | None => false end
  end.
(* comparison of values of the same shape: tuples by their first elements that differ *)
Fixpoint value_compare (a b : value) : comparison :=
  match a, b with
  | VInt a, VInt b => Z.compare a b
  | VTuple l, VTuple m =>
      (fix lex l m := match l, m with
       | a :: l, b :: m => match value_compare a b with Datatypes.Eq => lex l m | c => c end
       | _, _ => Datatypes.Eq
       end) l m
  | _, _ => Datatypes.Eq
  end.
Definition value_leb (a b : value) : bool := match value_compare a b with Datatypes.Gt => false | _ => true end.

(* str.format with the replacement fields {}, {:X} and {:0nX} *)
Fixpoint until_brace (cs : list N) : option (list N * list N) :=
  match cs with
  | [] => None
  | c :: r =>
      if (c =? 125)%N then Some ([], r)
      else match until_brace r with Some (a, r) => Some (c :: a, r) | None => None end
  end.
Definition format_field (spec : list N) (v : value) : option (list N) :=
  match spec, v with
  | [], VInt z => if (z <? 0)%Z then None else Some (py_dec (Z.to_N z))
  | [], VStr s => Some s
  | 58%N :: spec, VInt z =>
      if (z <? 0)%Z then None
      else match spec with
           | [88%N] => Some (py_hex 0 (Z.to_N z))
           | [48%N; d; 88%N] => match py_digit d with Some d => if (d <? 10)%N then Some (py_hex (N.to_nat d) (Z.to_N z)) else None | None => None end
           | _ => None
           end
  | _, _ => None
  end.
Fixpoint format (fuel : nat) (cs : list N) (args : list value) : option (list N) :=
  match fuel with
  | O => None
  | S f =>
      match cs with
      | [] => Some []
      | c :: r =>
          if (c =? 123)%N then
            if match r with d :: _ => (d =? 123)%N | [] => false end then option_map (cons c) (format f (tl r) args)
            else match until_brace r, args with
                 | Some (spec, r), v :: args =>
                     match format_field spec v, format f r args with
                     | Some a, Some b => Some (a ++ b)
                     | _, _ => None
                     end
                 | _, _ => None
                 end
          else if (c =? 125)%N then
            if match r with d :: _ => (d =? 125)%N | [] => false end then option_map (cons c) (format f (tl r) args) else None
          else option_map (cons c) (format f r args)
      end
  end.

Definition range (a b : Z) : list value := map (fun k => VInt (a + Z.of_nat k)) (seq 0 (Z.to_nat (b - a))).
Fixpoint enumerate (i : Z) (vs : list value) : list value :=
  match vs with
  | [] => []
  | v :: r => VTuple [VInt i; v] :: enumerate (i + 1) r
  end.
(* the values of bytes([...]) *)
Definition byte_values (zs : list Z) : option (list N) :=
  if forallb (fun z => (0 <=? z) && (z <? 256))%Z zs then Some (map Z.to_N zs) else None.

(** ** Built-in functions and methods *)

Definition builtin (dir : path) (f : string) (args : list value) (kwargs : list (string * value)) (w : world) : res value :=
  if String.eqb f "open" then
    match args, kwargs with
    | [VStr p], [] => open_read dir p w
    | [VStr p; VStr m], [] => if str_is m "wb" then open_write dir p MBytes w else Wrong
    | [VStr p], [(k, VStr m)] =>
        if String.eqb k "mode" && str_is m "w" then open_write dir p MText w else Wrong
    | _, _ => Wrong
    end
  else
    match kwargs with
    | _ :: _ => Wrong
    | [] =>
        if String.eqb f "int" then
          match args with
          | [VStr s] => maybe (option_map (fun n => VInt (Z.of_N n)) (py_int s)) w
          | [VStr s; VInt b] => if (b =? 16)%Z then maybe (option_map (fun n => VInt (Z.of_N n)) (py_int16 s)) w else Wrong
          | _ => Wrong
          end
        else if String.eqb f "len" then
          match args with [VList l] | [VTuple l] => Val (VInt (Z.of_nat (List.length l))) w | _ => Wrong end
        else if String.eqb f "range" then
          match args with [VInt a; VInt b] => Val (VIter (range a b)) w | _ => Wrong end
        else if String.eqb f "enumerate" then
          match args with [VList l] => Val (VIter (enumerate 0 l)) w | _ => Wrong end
        else if String.eqb f "set" then
          match args with [] => Val (VSet []) w | _ => Wrong end
        else if String.eqb f "chr" then
          match args with
          | [VInt z] => if (0 <=? z)%Z && (z <=? 0x10FFFF)%Z then Val (VStr [Z.to_N z]) w else Raise w
          | _ => Wrong
          end
        else if String.eqb f "bytes" then
          match args with
          | [VList l] | [VTuple l] => match ints l with Some zs => maybe (option_map VBytes (byte_values zs)) w | None => Wrong end
          | [VStr s; VStr c] => if str_is c "utf-8" then maybe (option_map VBytes (utf8_encode s)) w else Wrong
          | _ => Wrong
          end
        else if String.eqb f "Exception" then
          match args with [VStr _] => Val VExc w | _ => Wrong end
        else Wrong
    end.

(* methods that do not change the value they are called on *)
Definition method (a : value) (m : string) (args : list value) (w : world) : res value :=
  match a with
  | VStr s =>
      if String.eqb m "split" then
        match args with [] => Val (VList (map VStr (py_split s))) w | _ => Wrong end
      else if String.eqb m "startswith" then
        match args with [VStr t] => Val (VBool (prefix t s)) w | _ => Wrong end
      else if String.eqb m "format" then
        match format (S (List.length s)) s args with Some t => Val (VStr t) w | None => Wrong end
      else if String.eqb m "encode" then
        match args with [VStr c] => if str_is c "utf-8" then maybe (option_map VBytes (utf8_encode s)) w else Wrong | _ => Wrong end
      else Wrong
  | VFile p MText =>
      if String.eqb m "write" then
        match args with
        | [VStr s] =>
            match utf8_encode s with
            | Some bs => Val (VInt (Z.of_nat (List.length s))) (append p bs w)
            | None => Raise w
            end
        | _ => Wrong
        end
      else Wrong
  | VFile p MBytes =>
      if String.eqb m "write" then
        match args with
        | [VBytes bs] => Val (VInt (Z.of_nat (List.length bs))) (append p bs w)
        | _ => Wrong
        end
      else Wrong
  | _ => Wrong
  end.
(* methods that change the value they are called on; the changed value *)
Definition changing (m : string) : bool := existsb (String.eqb m) ["sort"; "reverse"; "add"].
Definition change (a : value) (m : string) (args : list value) : option value :=
  match a, args with
  | VList l, [] =>
      if String.eqb m "sort" then if sortable l then Some (VList (sort value_leb l)) else None
      else if String.eqb m "reverse" then Some (VList (rev' l))
      else None
  | VSet s, [VInt z] => if String.eqb m "add" then Some (VSet (if has z s then s else z :: s)) else None
  | _, _ => None
  end.
(* x op= a; the value of x afterwards, whether it is the same object as before *)
Definition augment (op : binop) (x a : value) (w : world) : res (value * bool) :=
  match op, x, a with
  | Add, VList l, VList m => Val (VList (l ++ m), true) w
  | BitAnd, VSet s, VSet t => Val (VSet (filter (fun z => has z t) s), true) w
  | _, _, _ => bind (binary op x a w) (fun v w => Val (v, false) w)
  end.

(** ** Expressions *)

Definition elements (vs : list value) : bool := forallb (fun v => negb (mutable v)) vs.
Definition iterable (v : value) : option (list value) := match v with VList l | VIter l => Some l | _ => None end.

Fixpoint bind_names (xs : list string) (vs : list value) (s : env) : option env :=
  match xs, vs with
  | [], [] => Some s
  | x :: xs, v :: vs => bind_names xs vs (upd x v s)
  | _, _ => None
  end.
(* assigning to a target; an exception for a tuple of another length *)
Definition bind_target (t : target) (v : value) (s : env) (w : world) : res env :=
  match t, v with
  | TName x, _ => Val (upd x v s) w
  | TTuple xs, VTuple vs => maybe (bind_names xs vs s) w
  | TTuple _, _ => Wrong
  end.

Section Eval.
  Variable dir : path.                                                  (* the working directory *)
  Variable call : string -> option (list value -> world -> res value).  (* the functions of the program *)

  Fixpoint eval (e : expr) (s : env) (w : world) {struct e} : res value :=
    let evals := fix evals (es : list expr) (w : world) : res (list value) :=
      match es with
      | [] => Val [] w
      | e :: r => bind (eval e s w) (fun v w => bind (evals r w) (fun vs w => Val (v :: vs) w))
      end in
    let cond (r : res value) (k : bool -> world -> res value) : res value :=
      bind r (fun v w => match v with VBool b => k b w | _ => Wrong end) in
    match e with
    | EName x => match s x with Some v => Val v w | None => Wrong end
    | EInt n => Val (VInt (Z.of_N n)) w
    | EStr cs => Val (VStr cs) w
    | ENone => Val VNone w
    | ETuple es => bind (evals es w) (fun vs w => if elements vs then Val (VTuple vs) w else Wrong)
    | EList es => bind (evals es w) (fun vs w => if elements vs then Val (VList vs) w else Wrong)
    | ESet es => bind (evals es w) (fun vs w => match ints vs with Some zs => Val (VSet (nodup Z.eq_dec zs)) w | None => Wrong end)
    | EComp e t l c =>
        bind (eval l s w) (fun v w =>
          match iterable v with
          | None => Wrong
          | Some vs =>
              bind ((fix go (vs : list value) (w : world) : res (list value) :=
                match vs with
                | [] => Val [] w
                | v :: r =>
                    bind (bind_target t v s w) (fun s w =>
                      bind (match c with
                            | None => Val true w
                            | Some c => bind (eval c s w) (fun v w => match v with VBool b => Val b w | _ => Wrong end)
                            end) (fun b w =>
                        if b then bind (eval e s w) (fun v w => bind (go r w) (fun vs w => Val (v :: vs) w)) else go r w))
                end) vs w) (fun vs w => if elements vs then Val (VList vs) w else Wrong)
          end)
    | ECond c a b => cond (eval c s w) (fun t w => if t then eval a s w else eval b s w)
    | EAnd a b => cond (eval a s w) (fun t w => if t then cond (eval b s w) (fun t w => Val (VBool t) w) else Val (VBool false) w)
    | EOr a b => cond (eval a s w) (fun t w => if t then Val (VBool true) w else cond (eval b s w) (fun t w => Val (VBool t) w))
    | ENot a => cond (eval a s w) (fun t w => Val (VBool (negb t)) w)
    | ECmp op a b =>
        bind (eval a s w) (fun a w => bind (eval b s w) (fun b w =>
          match compare op a b with Some t => Val (VBool t) w | None => Wrong end))
    | EBin op a b => bind (eval a s w) (fun a w => bind (eval b s w) (fun b w => binary op a b w))
    | EIndex a i => bind (eval a s w) (fun a w => bind (eval i s w) (fun i w => index a i w))
    | EFrom a i => bind (eval a s w) (fun a w => bind (eval i s w) (fun i w => slice_from a i w))
    | ECall f args kwargs =>
        match s f with
        | Some _ => Wrong
        | None =>
            bind (evals args w) (fun vs w =>
            bind ((fix go (l : list (string * expr)) (w : world) : res (list (string * value)) :=
                    match l with
                    | [] => Val [] w
                    | (k, e) :: r => bind (eval e s w) (fun v w => bind (go r w) (fun vs w => Val ((k, v) :: vs) w))
                    end) kwargs w) (fun ks w =>
            match call f with
            | Some g => match ks with [] => g vs w | _ => Wrong end
            | None => builtin dir f vs ks w
            end))
        end
    | EMethod a m args => bind (eval a s w) (fun a w => bind (evals args w) (fun vs w => method a m vs w))
    end.

  (** ** Statements *)

  Inductive outcome :=
  | Next (s : env) (w : world)
  | Again (s : env) (w : world)            (* continue *)
  | Return (v : value) (w : world)
  | Failed (w : world)                     (* an exception *)
  | Stuck                                  (* outside the model *)
  | Spent.                                 (* out of fuel *)
  Definition after {A} (r : res A) (k : A -> world -> outcome) : outcome :=
    match r with Val a w => k a w | Raise w => Failed w | Wrong => Stuck | Out => Spent end.
  Definition seq_ (o : outcome) (k : env -> world -> outcome) : outcome :=
    match o with Next s w => k s w | _ => o end.

  (* an expression whose value, if mutable, is not held by a name *)
  Definition fresh (e : expr) : bool :=
    match e with EName _ | ECond _ _ _ | EAnd _ _ | EOr _ _ => false | _ => true end.
  (* a value that may be stored *)
  Definition storable (e : expr) (v : value) : bool := fresh e || negb (mutable v).
  Definition frozen_in (x : string) (frozen : list string) : bool := existsb (String.eqb x) frozen.
  (* the names that hold what a loop runs over *)
  Fixpoint names_in (e : expr) : list string :=
    match e with
    | EName x => [x]
    | ECall _ args _ => (fix go es := match es with [] => [] | e :: r => names_in e ++ go r end) args
    | ECond c a b => names_in a ++ names_in b
    | EAnd a b | EOr a b => names_in a ++ names_in b
    | _ => []
    end.

  (* fuel: of every while loop; frozen: names whose values may not be changed *)
  Variable fuel : nat.
  Fixpoint exec (st : stmt) (frozen : list string) (s : env) (w : world) {struct st} : outcome :=
    let block := fix block (l : list stmt) (frozen : list string) (s : env) (w : world) : outcome :=
      match l with
      | [] => Next s w
      | st :: r => seq_ (exec st frozen s w) (block r frozen)
      end in
    let cond (e : expr) (s : env) (w : world) (k : bool -> world -> outcome) : outcome :=
      after (eval e s w) (fun v w => match v with VBool b => k b w | _ => Stuck end) in
    match st with
    | SExpr (EMethod (EName x) m args) =>
        if changing m then
          match s x with
          | None => Stuck
          | Some a =>
              if frozen_in x frozen then Stuck
              else
                after ((fix evals (es : list expr) (w : world) : res (list value) :=
                         match es with
                         | [] => Val [] w
                         | e :: r => bind (eval e s w) (fun v w => bind (evals r w) (fun vs w => Val (v :: vs) w))
                         end) args w) (fun vs w =>
                  match change a m vs with Some a => Next (upd x a s) w | None => Stuck end)
          end
        else after (eval (EMethod (EName x) m args) s w) (fun _ w => Next s w)
    | SExpr e => after (eval e s w) (fun _ w => Next s w)
    | SAssign x e => after (eval e s w) (fun v w => if storable e v then Next (upd x v s) w else Stuck)
    | SAug op x e =>
        match s x with
        | None => Stuck
        | Some a =>
            after (eval e s w) (fun v w => after (augment op a v w) (fun b w =>
              if snd b && frozen_in x frozen then Stuck else Next (upd x (fst b) s) w))
        end
    | SIf c a b => cond c s w (fun t w => if t then block a frozen s w else block b frozen s w)
    | SWhile c body =>
        (fix loop (k : nat) (s : env) (w : world) : outcome :=
          match k with
          | O => Spent
          | S k =>
              cond c s w (fun t w =>
                if t then
                  match block body frozen s w with
                  | Next s w | Again s w => loop k s w
                  | o => o
                  end
                else Next s w)
          end) fuel s w
    | SFor t e body =>
        after (eval e s w) (fun v w =>
          let run (frozen : list string) :=
            (fix loop (vs : list value) (s : env) (w : world) : outcome :=
              match vs with
              | [] => Next s w
              | v :: r =>
                  after (bind_target t v s w) (fun s w =>
                    match block body frozen s w with
                    | Next s w | Again s w => loop r s w
                    | o => o
                    end)
              end) in
          match v, e with
          | VFile p MRead, EName x =>
              if frozen_in x frozen then Stuck
              else match disk w p with
                   | None => Stuck
                   | Some file =>
                       match read_lines file with
                       | None => Failed w
                       | Some vs => run frozen vs (upd x (VFile p MDone) s) w
                       end
                   end
          | _, _ => match iterable v with Some vs => run (names_in e ++ frozen) vs s w | None => Stuck end
          end)
    | SReturn e =>
        after (eval e s w) (fun v w =>
          if storable e v || match e with EName x => negb (frozen_in x frozen) | _ => false end then Return v w else Stuck)
    | SRaise e => after (eval e s w) (fun v w => match v with VExc => Failed w | _ => Stuck end)
    | SContinue => Again s w
    | SDef _ _ _ => Stuck
    end.
  Fixpoint block (l : list stmt) (frozen : list string) (s : env) (w : world) : outcome :=
    match l with
    | [] => Next s w
    | st :: r => seq_ (exec st frozen s w) (block r frozen)
    end.
End Eval.

(** ** Programs *)

Record func := Func { f_name : string; f_params : list string; f_body : list stmt }.
(* the functions at the start of a program, and the statements after them *)
Fixpoint split_defs (l : list stmt) : list func * list stmt :=
  match l with
  | SDef f ps b :: r => let (fs, r) := split_defs r in (Func f ps b :: fs, r)
  | _ => ([], l)
  end.

(* a later definition replaces an earlier one *)
Definition lookup (fs : list func) (f : string) : option func := find (fun d => String.eqb (f_name d) f) (rev fs).
(* what a call gives that ends in this way *)
Definition returned (o : outcome) : res value :=
  match o with
  | Next _ w => Val VNone w
  | Return v w => Val v w
  | Failed w => Raise w
  | Again _ _ | Stuck => Wrong
  | Spent => Out
  end.
(* calling a function; fuel: the depth of calls and the iterations of while loops *)
Fixpoint apply (dir : path) (fs : list func) (fuel : nat) (d : func) (vs : list value) (w : world) : res value :=
  match fuel with
  | O => Out
  | S n =>
      match bind_names (f_params d) vs no_env with
      | None => Wrong
      | Some s =>
          returned (block dir (fun f => option_map (apply dir fs n) (lookup fs f)) n (f_body d) (f_params d) s w)
      end
  end.
(* the functions of a program *)
Definition calls (dir : path) (fs : list func) (fuel : nat) (f : string) : option (list value -> world -> res value) :=
  option_map (apply dir fs fuel) (lookup fs f).

(* a program, run as a script in a directory *)
Definition run_script (dir : path) (program : list stmt) (fuel : nat) (f : files) : res unit :=
  let (fs, main) := split_defs program in
  match block dir (calls dir fs fuel) fuel main [] (upd "__name__" (VStr (str "__main__")) no_env) (World f [] []) with
  | Next _ w => Val tt w
  | Failed w => Raise w
  | Return _ _ | Again _ _ | Stuck => Wrong
  | Spent => Out
  end.
