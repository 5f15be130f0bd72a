(** Specifications for C15-C19: UTF-8, byte order, DOS time; independent of the code. *)
From Verif Require Import Base.

(** the bytes of one character as accepted by checkUtf8: see C15 *)
Definition cont (c : Z) : Prop := 128 <= c <= 191.
(** values that must not be encoded: surrogates and U+FFFE, U+FFFF *)
Definition forbidden (v : Z) : Prop := v = 65534 \/ v = 65535 \/ 55296 <= v <= 57343.
Inductive uchar : list Z -> Prop :=
| u1 c : c = 9 \/ c = 10 \/ c = 13 \/ 32 <= c <= 127 -> uchar [c]
| u2 a b : 194 <= a <= 223 -> cont b -> uchar [a; b]
| u3 a b c : 224 <= a <= 239 -> cont b -> cont c ->
    ~ forbidden ((a - 224) * 4096 + (b - 128) * 64 + (c - 128)) -> uchar [a; b; c]
| u4 a b c d : 240 <= a <= 244 -> cont b -> cont c -> cont d ->
    ~ forbidden ((a - 240) * 262144 + (b - 128) * 4096 + (c - 128) * 64 + (d - 128)) -> uchar [a; b; c; d].
Definition utf8_valid (l : list Z) : Prop := exists us, Forall uchar us /\ l = concat us.

(** RFC 3629 encoding of a code point, and the code points of XML 1.0 (charsets) *)
Definition utf8_encode (v : Z) : list Z :=
  if v <? 128 then [v]
  else if v <? 2048 then [192 + v / 64; 128 + v mod 64]
  else if v <? 65536 then [224 + v / 4096; 128 + v / 64 mod 64; 128 + v mod 64]
  else [240 + v / 262144; 128 + v / 4096 mod 64; 128 + v / 64 mod 64; 128 + v mod 64].
Definition xml_char (v : Z) : Prop :=
  v = 9 \/ v = 10 \/ v = 13 \/ 32 <= v <= 55295 \/ 57344 <= v <= 65533 \/ 65536 <= v <= 1114111.

(** the beginning of a character: a lead byte and some of its continuation bytes, [k] missing *)
Definition lead_len (c n : Z) : Prop := (194 <= c <= 223 /\ n = 1) \/ (224 <= c <= 239 /\ n = 2) \/ (240 <= c <= 244 /\ n = 3).
Definition incomplete (u : list Z) (k : Z) : Prop :=
  exists c cs n, u = c :: cs /\ lead_len c n /\ Forall cont cs /\ 1 <= k /\ zlen cs + k = n.

(** the integer whose base 256 digits are the bytes, least significant first *)
Fixpoint le_value (l : list Z) : Z := match l with [] => 0 | b :: r => b + 256 * le_value r end.
(** the two's complement reading of an n byte value *)
Definition twos (n v : Z) : Z := if v <? 256 ^ n / 2 then v else v - 256 ^ n.

(** MS-DOS date and time word *)
Definition dos_word (year mon day hour min sec2 : Z) : Z :=
  (year - 1980) * 2 ^ 25 + mon * 2 ^ 21 + day * 2 ^ 16 + hour * 2 ^ 11 + min * 2 ^ 5 + sec2.
