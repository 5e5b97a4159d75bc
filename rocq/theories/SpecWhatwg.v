(* The decoders and encoders of the WHATWG Encoding Standard for UTF-16, Big5, Shift_JIS and single-byte encodings,
   transcribed from the standard (https://encoding.spec.whatwg.org, sections 9, 12.1, 13.3 and 14.2/14.4).
   Independent of the crate's code.  Decoders are given in error mode "replacement":
   an error contributes U+FFFD and decoding goes on. *)
From Coq Require Import List NArith Bool.
From Verif Require Import Encodings RefBig5 RefSjis Spec SpecErrors.
Import ListNotations.
Local Open Scope N_scope.

Definition replacement : N := 0xFFFD.

(* "index code point": the code point listed for a pointer *)
Fixpoint index_lookup {V} (index : list (N * V)) (pointer : N) : option V :=
  match index with
  | [] => None
  | (p, v) :: rest => if p =? pointer then Some v else index_lookup rest pointer
  end.

Definition within (lo x hi : N) : bool := (lo <=? x) && (x <=? hi).

(** ** Shared UTF-16 decoder.  State: UTF-16 lead byte, UTF-16 lead surrogate *)
Fixpoint utf16_decoder (big : bool) (lead_byte lead_surrogate : option N) (bs : list N) : list N :=
  match bs with
  | [] => match lead_byte, lead_surrogate with
          | None, None => []
          | _, _ => [replacement]
          end
  | b :: rest =>
      match lead_byte with
      | None => utf16_decoder big (Some b) lead_surrogate rest
      | Some b0 =>
          let unit := value16 big b0 b in
          let without_lead_surrogate :=
            if within 0xD800 unit 0xDBFF then utf16_decoder big None (Some unit) rest
            else if within 0xDC00 unit 0xDFFF then replacement :: utf16_decoder big None None rest
            else unit :: utf16_decoder big None None rest in
          match lead_surrogate with
          | None => without_lead_surrogate
          | Some lead =>
              if within 0xDC00 unit 0xDFFF
              then (0x10000 + (lead - 0xD800) * 1024 + (unit - 0xDC00)) :: utf16_decoder big None None rest
              else (* the two bytes are restored and read again *) replacement :: without_lead_surrogate
          end
      end
  end.

(** ** Big5 decoder.  State: Big5 lead (0 = none) *)
Definition big5_pair (lead b : N) : option (list N) :=
  let offset := if b <? 0x7F then 0x40 else 0x62 in
  if within 0x40 b 0x7E || within 0xA1 b 0xFE then
    let pointer := (lead - 0x81) * 157 + (b - offset) in
    match index_lookup big5_sequences pointer with
    | Some cs => Some cs
    | None => match index_lookup big5_index pointer with Some c => Some [c] | None => None end
    end
  else None.

Fixpoint big5_decoder (lead : N) (bs : list N) : list N :=
  match bs with
  | [] => if lead =? 0 then [] else [replacement]
  | b :: rest =>
      let without_lead :=
        if b <=? 0x7F then b :: big5_decoder 0 rest
        else if within 0x81 b 0xFE then big5_decoder b rest
        else replacement :: big5_decoder 0 rest in
      if lead =? 0 then without_lead
      else match big5_pair lead b with
           | Some cs => cs ++ big5_decoder 0 rest
           | None => if b <=? 0x7F then (* the byte is restored *) replacement :: without_lead
                     else replacement :: big5_decoder 0 rest
           end
  end.

(** ** Shift_JIS decoder.  State: Shift_JIS lead (0 = none) *)
Definition sjis_pair (lead b : N) : option N :=
  let offset := if b <? 0x7F then 0x40 else 0x41 in
  let lead_offset := if lead <? 0xA0 then 0x81 else 0xC1 in
  if within 0x40 b 0x7E || within 0x80 b 0xFC then
    let pointer := (lead - lead_offset) * 188 + (b - offset) in
    if within 8836 pointer 10715 then Some (0xE000 + (pointer - 8836))
    else index_lookup jis0208_index pointer
  else None.

Fixpoint sjis_decoder (lead : N) (bs : list N) : list N :=
  match bs with
  | [] => if lead =? 0 then [] else [replacement]
  | b :: rest =>
      let without_lead :=
        if b <=? 0x80 then b :: sjis_decoder 0 rest
        else if within 0xA1 b 0xDF then (0xFF61 + (b - 0xA1)) :: sjis_decoder 0 rest
        else if within 0x81 b 0x9F || within 0xE0 b 0xFC then sjis_decoder b rest
        else replacement :: sjis_decoder 0 rest in
      if lead =? 0 then without_lead
      else match sjis_pair lead b with
           | Some c => c :: sjis_decoder 0 rest
           | None => if b <=? 0x7F then replacement :: without_lead
                     else replacement :: sjis_decoder 0 rest
           end
  end.

(** ** Single-byte decoder, for a given mapping *)
Definition single_byte_decoder (m : sb_module) (bs : list N) : list N :=
  map (fun b => match index_lookup (charset m) b with Some c => c | None => replacement end) bs.

(** ** UTF-32 (not part of the Encoding Standard): one U+FFFD per invalid or truncated code unit *)
Fixpoint utf32_decoder (big : bool) (bs : list N) : list N :=
  match bs with
  | [] => []
  | b0 :: b1 :: b2 :: b3 :: rest =>
      let c := if big then ((b0 * 256 + b1) * 256 + b2) * 256 + b3 else ((b3 * 256 + b2) * 256 + b1) * 256 + b0 in
      (if (c <? 0xD800) || within 0xE000 c 0x10FFFF then c else replacement) :: utf32_decoder big rest
  | _ => [replacement]
  end.

(* decoding of a whole byte sequence with replacement of errors; UTF-8 is not covered *)
Definition replacement_decode (e : encoding) (bs : list N) : list N :=
  match e with
  | Utf8 => []
  | Utf16BE => utf16_decoder true None None bs
  | Utf16LE => utf16_decoder false None None bs
  | Utf32BE => utf32_decoder true bs
  | Utf32LE => utf32_decoder false bs
  | Big5WHATWG => big5_decoder 0 bs
  | ShiftJISWHATWG => sjis_decoder 0 bs
  | Single m => single_byte_decoder m bs
  end.

(** ** Big5 encoder *)

(* "index Big5 pointer": pointers below (0xA1 - 0x81) * 157 are excluded; last pointer for the six characters of [big5_last],
   first pointer for the others *)
Definition whatwg_big5_pointer (c p : N) : Prop :=
  In (p, c) big5_index /\ (0xA1 - 0x81) * 157 <= p /\
  forall q, In (q, c) big5_index -> (0xA1 - 0x81) * 157 <= q -> if in_dec N.eq_dec c big5_last then q <= p else p <= q.

(* the bytes the Big5 encoder emits for a code point *)
Definition whatwg_big5_encode (c : N) (w : list N) : Prop :=
  (c <= 0x7F /\ w = [c]) \/ (0x7F < c /\ exists p, whatwg_big5_pointer c p /\ w = big5_code p).

(** ** Shift_JIS encoder *)
Definition whatwg_sjis_pointer (c p : N) : Prop :=
  In (p, c) jis0208_index /\ ~ (8272 <= p <= 8835) /\
  forall q, In (q, c) jis0208_index -> ~ (8272 <= q <= 8835) -> p <= q.

Definition whatwg_sjis_encode (c : N) (w : list N) : Prop :=
  if c <=? 0x80 then w = [c]
  else if c =? 0xA5 then w = [0x5C]
  else if c =? 0x203E then w = [0x7E]
  else if within 0xFF61 c 0xFF9F then w = [c - 0xFF61 + 0xA1]
  else exists p, whatwg_sjis_pointer (if c =? 0x2212 then 0xFF0D else c) p /\ w = sjis_code p.

(* The private use characters U+E000..U+E757, which the standard's Shift_JIS decoder produces but its encoder rejects *)
Definition sjis_encode_eudc (c : N) (w : list N) : Prop := 0xE000 <= c <= 0xE757 /\ w = sjis_code (c - 0xE000 + 8836).

(* Characters for which the crate's Big5 encoder departs from the standard's:
   (character, (pointer the crate uses, pointer the standard's encoder uses)) *)
Definition big5_deviations : list (N * (N * N)) :=
  [(0x4FBB, (4258, 12065)); (0x50ED, (4815, 8870)); (0x5159, (2746, 5206)); (0x515B, (2747, 5207)); (0x515D, (2748, 5209));
   (0x515E, (2749, 5208)); (0x5605, (4537, 19162)); (0x5A67, (4349, 13142)); (0x5B28, (3451, 16353));
   (0x5C10, (4329, 11332)); (0x5ED0, (4549, 19305)); (0x6062, (4624, 6732)); (0x60A4, (4989, 19355));
   (0x60DE, (4220, 19504)); (0x62CE, (4922, 6422)); (0x62D0, (4494, 6410)); (0x6C4A, (4708, 11458));
   (0x6D67, (2990, 12739)); (0x6FB6, (4230, 9741)); (0x7162, (4992, 14651)); (0x71DF, (4273, 10024));
   (0x7201, (4136, 17421)); (0x732A, (3821, 19643)); (0x7479, (2780, 15930)); (0x75F9, (4694, 14708));
   (0x77D7, (4138, 10825)); (0x799B, (3087, 15967)); (0x79E3, (4330, 7300)); (0x7B51, (4422, 8240));
   (0x7BB8, (2082, 9081)); (0x7C06, (2088, 17060)); (0x7CCE, (2103, 5214)); (0x7DD2, (2114, 9103)); (0x7E1D, (2123, 9802));
   (0x7E87, (4141, 18346)); (0x8005, (2148, 6543)); (0x8028, (2151, 9810)); (0x83C1, (2221, 8281));
   (0x83CF, (4294, 14159)); (0x840F, (2244, 14187)); (0x84A8, (2239, 15488)); (0x89A6, (2303, 9840));
   (0x8D77, (2354, 7410)); (0x8F0B, (4419, 14975)); (0x8F36, (4241, 16745)); (0x9097, (3259, 11479));
   (0x90FD, (2400, 7915)); (0x9104, (4279, 14305)); (0x91D4, (4206, 12497)); (0x92B9, (2413, 18957));
   (0x96B6, (2453, 10950)); (0x975C, (2477, 9909)); (0x97FF, (2498, 10696)); (0x99D6, (4182, 16278));
   (0x9B2E, (4742, 18938)); (0x9DF0, (4282, 18728)); (0x9F16, (2605, 17713))].
