(* The format of the index files of the Encoding Standard and of the Unicode mapping files, and the part of Rust's lexical
   grammar that is needed to say what a file of tables means.  Independent of the scripts. *)
From Coq Require Import List NArith Arith Bool.
From Verif Require Import Encodings Spec FileText FileSingle.
Import ListNotations.
Local Open Scope N_scope.

(** ** Index and mapping files, by lines of code points *)

(* white space: the code points with the property White_Space (Unicode), and the four information separators *)
Definition white : list N :=
  [9; 10; 11; 12; 13; 28; 29; 30; 31; 32; 133; 160; 5760; 8192; 8193; 8194; 8195; 8196; 8197; 8198; 8199; 8200; 8201; 8202;
   8232; 8233; 8239; 8287; 12288].
Definition blanks (s : list N) : Prop := Forall (fun c => In c white) s.

(* c is the digit for d *)
Definition Digit (base c d : N) : Prop :=
  d < base /\ ((d < 10 /\ c = 48 + d) \/ (10 <= d < 16 /\ (c = 55 + d \/ c = 87 + d))).

Inductive Numeral (base : N) : list N -> N -> Prop :=
| Numeral_one c d : Digit base c d -> Numeral base [c] d
| Numeral_more s n c d : Numeral base s n -> Digit base c d -> Numeral base (s ++ [c]) (n * base + d).

(* 0x... *)
Definition Hex (s : list N) (n : N) : Prop := exists s', s = 48 :: 120 :: s' /\ Numeral 16 s' n.

(* what follows the last field that matters: nothing, or a blank and anything *)
Definition rest_of_line (s : list N) : Prop := s = [] \/ exists c r, s = c :: r /\ In c white.

(* encoding_tables/whatwg/index-*.txt: decimal pointer, code point in hexadecimal *)
Inductive IndexLine : list N -> option (N * N) -> Prop :=
| Index_empty s : blanks s -> IndexLine s None
| Index_word s1 w s2 : blanks s1 -> Forall (fun c => ~ In c white) w -> blanks s2 -> IndexLine (s1 ++ w ++ s2) None   (* no second field *)
| Index_comment s r : blanks s -> IndexLine (s ++ 35 :: r) None
| Index_entry s1 f1 p s2 f2 c r :
    blanks s1 -> Numeral 10 f1 p -> blanks s2 -> s2 <> [] -> Hex f2 c -> rest_of_line r ->
    IndexLine (s1 ++ f1 ++ s2 ++ f2 ++ r) (Some (p, c)).

(* encoding_tables/single_byte/ascii_ext/*.txt: byte and code point in hexadecimal; # instead of the code point if the byte is
   undefined *)
Inductive MappingLine : list N -> option (N * N) -> Prop :=
| Mapping_empty s : blanks s -> MappingLine s None
| Mapping_word s1 w s2 : blanks s1 -> Forall (fun c => ~ In c white) w -> blanks s2 -> MappingLine (s1 ++ w ++ s2) None
| Mapping_comment s r : blanks s -> MappingLine (s ++ 35 :: r) None
| Mapping_undefined s1 f1 b s2 r :
    blanks s1 -> Hex f1 b -> blanks s2 -> s2 <> [] -> MappingLine (s1 ++ f1 ++ s2 ++ 35 :: r) None
| Mapping_entry s1 f1 b s2 f2 c r :
    blanks s1 -> Hex f1 b -> blanks s2 -> s2 <> [] -> Hex f2 c -> rest_of_line r ->
    MappingLine (s1 ++ f1 ++ s2 ++ f2 ++ r) (Some (b, c)).

(* a file: lines end with \n, \r\n or \r; the last one need not *)
Definition LineEnd (eol rest : list N) : Prop := eol = [10] \/ eol = [13; 10] \/ (eol = [13] /\ forall r, rest <> 10 :: r).
Inductive FileLines (LineMeans : list N -> option (N * N) -> Prop) : list N -> list (N * N) -> Prop :=
| File_end : FileLines LineMeans [] []
| File_line l m eol rest t :
    LineMeans l m -> ~ In 10 l -> ~ In 13 l -> LineEnd eol rest -> FileLines LineMeans rest t ->
    FileLines LineMeans (l ++ eol ++ rest) (match m with Some e => [e] | None => [] end ++ t)
| File_last l m : LineMeans l m -> ~ In 10 l -> ~ In 13 l -> l <> [] ->
    FileLines LineMeans l (match m with Some e => [e] | None => [] end).

(** ** Tokens of Rust source text *)

Inductive token :=
| TIdent (name : list N)
| TLifetime (name : list N)
| TChar (c : N)
| TInt (n : N)
| TPunct (c : N).

Definition digit_of (c : N) : option N :=
  if (48 <=? c) && (c <=? 57) then Some (c - 48)
  else if (65 <=? c) && (c <=? 70) then Some (c - 55)
  else if (97 <=? c) && (c <=? 102) then Some (c - 87)
  else None.
Definition is_digit (base c : N) : bool := match digit_of c with Some d => d <? base | None => false end.
Definition value (base : N) (s : list N) : N :=
  fold_left (fun n c => n * base + match digit_of c with Some d => d | None => 0 end) s 0.

Definition letter (c : N) : bool := ((65 <=? c) && (c <=? 90)) || ((97 <=? c) && (c <=? 122)) || (c =? 95).
Definition name_char (c : N) : bool := letter c || ((48 <=? c) && (c <=? 57)).

(* the longest prefix of characters satisfying p, and the rest *)
Fixpoint span (p : N -> bool) (s : list N) : list N * list N :=
  match s with
  | [] => ([], [])
  | c :: r => if p c then (let '(a, b) := span p r in (c :: a, b)) else ([], s)
  end.

Definition is_scalar (c : N) : bool := (c <? 0xD800) || ((0xE000 <=? c) && (c <? 0x110000)).

(* a literal must not be followed directly by a letter or digit *)
Definition ends (t : token) (s : list N) : option (option token * list N) :=
  match s with c :: _ => if name_char c then None else Some (Some t, s) | [] => Some (Some t, s) end.

(* after an opening single quote: '\u{...}', 'c' or a lifetime *)
Definition quoted (s : list N) : option (option token * list N) :=
  match s with
  | [] => None
  | c :: s1 =>
      if c =? 92 then
        match s1 with
        | u :: b :: s2 =>
            let '(ds, s3) := span (is_digit 16) s2 in
            match s3 with
            | e :: q :: s4 =>
                if (u =? 117) && (b =? 123) && (e =? 125) && (q =? 39) && (1 <=? length ds)%nat && (length ds <=? 6)%nat &&
                   is_scalar (value 16 ds)
                then Some (Some (TChar (value 16 ds)), s4) else None
            | _ => None
            end
        | _ => None
        end
      else
        let lifetime := if letter c then (let '(name, s2) := span name_char s in Some (Some (TLifetime name), s2)) else None in
        match s1 with
        | q :: s2 => if (q =? 39) && is_scalar c && negb ((c =? 39) || (c =? 10) || (c =? 13) || (c =? 9)) then Some (Some (TChar c), s2) else lifetime
        | [] => lifetime
        end
  end.

(* the next token, if any, and what follows it; white space and line comments yield no token *)
Definition next_token (s : list N) : option (option token * list N) :=
  match s with
  | [] => None
  | c :: r =>
      if (c =? 32) || (c =? 10) || (c =? 13) || (c =? 9) then Some (None, r)
      else if letter c then let '(name, r') := span name_char s in Some (Some (TIdent name), r')
      else if is_digit 10 c then
        match r with
        | x :: r' =>
            if (c =? 48) && (x =? 120) then
              let '(ds, r'') := span (is_digit 16) r' in
              match ds with [] => None | _ => ends (TInt (value 16 ds)) r'' end
            else let '(ds, r'') := span (is_digit 10) s in ends (TInt (value 10 ds)) r''
        | [] => Some (Some (TInt (value 10 [c])), [])
        end
      else if c =? 39 then quoted r
      else if c =? 47 then
        match r with
        | d :: r' => if d =? 47 then Some (None, snd (span (fun c => negb (c =? 10)) r')) else Some (Some (TPunct c), r)
        | [] => Some (Some (TPunct c), [])
        end
      else if existsb (N.eqb c) (str "#$%&()*+,-.:;<=>?@[]^{|}!~") then Some (Some (TPunct c), r)
      else None
  end.

(* the tokens of a source text *)
Inductive Lexes : list N -> list token -> Prop :=
| Lexes_end : Lexes [] []
| Lexes_token s t r ts : next_token s = Some (Some t, r) -> Lexes r ts -> Lexes s (t :: ts)
| Lexes_skip s r ts : next_token s = Some (None, r) -> Lexes r ts -> Lexes s ts.

Definition ident (s : line) : token := TIdent (str s).
Arguments ident s%line_scope.
(* a sequence of punctuation characters *)
Definition punct (s : line) : list token := map TPunct (str s).
Arguments punct s%line_scope.

(* [ty; n] *)
Definition array_type (ty : list token) (n : N) : list token := punct "[" ++ ty ++ punct ";" ++ [TInt n] ++ punct "]".
(* const name: ty = [x, y, ...]; *)
Definition const_array (name : line) (ty : list token) (items : list (list token)) : list token :=
  [ident "const"; ident name] ++ punct ":" ++ array_type ty (N.of_nat (length items)) ++ punct "=[" ++
  flat_map (fun x => x ++ punct ",") items ++ punct "];".
Arguments const_array name%line_scope ty items.

Definition char_item (c : N) : list token := [TChar c].
(* ('c', [b1, b2]) *)
Definition pair_item (e : N * (N * N)) : list token :=
  punct "(" ++ [TChar (fst e)] ++ punct ",[" ++ [TInt (fst (snd e))] ++ punct "," ++ [TInt (snd (snd e))] ++ punct "])".
(* ('c', b) *)
Definition byte_item (e : N * N) : list token :=
  punct "(" ++ [TChar (fst e)] ++ punct "," ++ [TInt (snd e)] ++ punct ")".

(* const DECODE_TABLE: [char; n] = [...];  const ENCODE_TABLE: [(char, [u8; 2]); m] = [...]; *)
Definition whatwg_tokens (dec : list N) (enc : list (N * (N * N))) : list token :=
  const_array "DECODE_TABLE" [ident "char"] (map char_item dec) ++
  const_array "ENCODE_TABLE" (punct "(" ++ [ident "char"] ++ punct "," ++ array_type [ident "u8"] 2 ++ punct ")") (map pair_item enc).

(* the two functions in the files of the single-byte encodings *)
Definition lifetime_a : list token := [TLifetime (str "a")].
Definition wrapper_function (name input_type result callee table : list token) : list token :=
  (* pub fn name<'a>(input: input_type, out_buffer: &'a mut [u8],) -> result<'a> { super::callee(&table, input, out_buffer) } *)
  [ident "pub"; ident "fn"] ++ name ++ punct "<" ++ lifetime_a ++ punct ">(" ++
  [ident "input"] ++ punct ":" ++ input_type ++ punct "," ++
  [ident "out_buffer"] ++ punct ":&" ++ lifetime_a ++ [ident "mut"] ++ punct "[" ++ [ident "u8"] ++ punct "],)->" ++
  result ++ punct "<" ++ lifetime_a ++ punct ">{" ++
  [ident "super"] ++ punct "::" ++ callee ++ punct "(&" ++ table ++ punct "," ++ [ident "input"] ++ punct "," ++ [ident "out_buffer"] ++ punct ")}".

Definition single_byte_tokens (dec : list N) (enc : list (N * N)) : list token :=
  [ident "use"] ++ punct "{" ++ [ident "DecodeResult"] ++ punct "," ++ [ident "EncodeResult"] ++ punct "};" ++
  wrapper_function [ident "decode_to_str"] (punct "&[" ++ [ident "u8"] ++ punct "]") [ident "DecodeResult"]
    [ident "ascii_ext_decode_to_str"] [ident "DECODE_TABLE"] ++
  wrapper_function [ident "encode_from_str"] (punct "&" ++ [ident "str"]) [ident "EncodeResult"]
    [ident "ascii_ext_encode_from_str"] [ident "ENCODE_TABLE"] ++
  const_array "DECODE_TABLE" [ident "char"] (map char_item dec) ++
  const_array "ENCODE_TABLE" (punct "(" ++ [ident "char"] ++ punct "," ++ [ident "u8"] ++ punct ")") (map byte_item enc).

(** ** The files of the single-byte encodings *)

(* encoding_tables/single_byte/ascii_ext/, by the module of /repo/src/single_byte.rs that uses the tables *)
Definition mapping_txt (m : sb_module) : list line :=
  match m with
  | ascii => []
  | ibm_866 => ibm_cp866_txt
  | iso_8859_1 => iso_8859_1_txt
  | iso_8859_2 => iso_8859_2_txt
  | iso_8859_3 => iso_8859_3_txt
  | iso_8859_4 => iso_8859_4_txt
  | iso_8859_5 => iso_8859_5_txt
  | iso_8859_6 => iso_8859_6_txt
  | iso_8859_7 => iso_8859_7_txt
  | iso_8859_8 => iso_8859_8_txt
  | iso_8859_9 => iso_8859_9_txt
  | iso_8859_10 => iso_8859_10_txt
  | iso_8859_11 => iso_8859_11_txt
  | iso_8859_13 => iso_8859_13_txt
  | iso_8859_14 => iso_8859_14_txt
  | iso_8859_15 => iso_8859_15_txt
  | iso_8859_16 => iso_8859_16_txt
  | koi8_r => koi8_r_txt
  | koi8_u => koi8_u_txt
  | mac_roman => mac_roman_txt
  | mac_cyrillic => mac_cyrillic_txt
  | windows_874 => windows_cp874_txt
  | windows_1250 => windows_cp1250_txt
  | windows_1251 => windows_cp1251_txt
  | windows_1252 => windows_cp1252_txt
  | windows_1253 => windows_cp1253_txt
  | windows_1254 => windows_cp1254_txt
  | windows_1255 => windows_cp1255_txt
  | windows_1256 => windows_cp1256_txt
  | windows_1257 => windows_cp1257_txt
  | windows_1258 => windows_cp1258_txt
  end.

(* the file that each module includes: /repo/src/single_byte.rs:21-264 *)
Definition tables_inc (m : sb_module) : list line :=
  match m with
  | ascii => []
  | ibm_866 => ibm_cp866_inc
  | iso_8859_1 => iso_8859_1_inc
  | iso_8859_2 => iso_8859_2_inc
  | iso_8859_3 => iso_8859_3_inc
  | iso_8859_4 => iso_8859_4_inc
  | iso_8859_5 => iso_8859_5_inc
  | iso_8859_6 => iso_8859_6_inc
  | iso_8859_7 => iso_8859_7_inc
  | iso_8859_8 => iso_8859_8_inc
  | iso_8859_9 => iso_8859_9_inc
  | iso_8859_10 => iso_8859_10_inc
  | iso_8859_11 => iso_8859_11_inc
  | iso_8859_13 => iso_8859_13_inc
  | iso_8859_14 => iso_8859_14_inc
  | iso_8859_15 => iso_8859_15_inc
  | iso_8859_16 => iso_8859_16_inc
  | koi8_r => koi8_r_inc
  | koi8_u => koi8_u_inc
  | mac_roman => mac_roman_inc
  | mac_cyrillic => mac_cyrillic_inc
  | windows_874 => windows_cp874_inc
  | windows_1250 => windows_cp1250_inc
  | windows_1251 => windows_cp1251_inc
  | windows_1252 => windows_cp1252_inc
  | windows_1253 => windows_cp1253_inc
  | windows_1254 => windows_cp1254_inc
  | windows_1255 => windows_cp1255_inc
  | windows_1256 => windows_cp1256_inc
  | windows_1257 => windows_cp1257_inc
  | windows_1258 => windows_cp1258_inc
  end.
