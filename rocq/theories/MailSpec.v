(** Encoded words in mail headers (RFC 2047), independent of the code. *)
From Verif Require Import Base B64Spec.

(** hexadecimal digits, both cases *)
Definition hexdigit (d c : Z) : Prop := (0 <= d <= 9 /\ c = 48 + d) \/ (10 <= d <= 15 /\ (c = 55 + d \/ c = 87 + d)).
(** "Q" encoding (RFC 2047 4.2): a byte is "=XX", a space may be "_", and what is not special stands for itself *)
Inductive q_encodes : list Z -> list Z -> Prop :=
| q_nil : q_encodes [] []
| q_hex x h l a b t : hexdigit h a -> hexdigit l b -> q_encodes x t -> q_encodes (16 * h + l :: x) (61 :: a :: b :: t)
| q_space x t : q_encodes x t -> q_encodes (32 :: x) (95 :: t)
| q_self c x t : c <> 61 -> c <> 95 -> q_encodes x t -> q_encodes (c :: x) (c :: t).

Definition noq (l : list Z) : Prop := ~ In 63 l.
Definition lower (c : Z) : Z := if (65 <=? c) && (c <=? 90) then c + 32 else c.
(** "utf-8" in any case *)
Definition is_utf8 (charset : list Z) : Prop := map lower charset = [117;116;102;45;56].
Definition utf8_prefix (charset : list Z) : Prop := exists r, map lower charset = [117;116;102;45;56] ++ r.
(** [text] encodes the non-empty byte string [x] by the method [k] *)
Inductive encodes : Z -> list Z -> list Z -> Prop :=
| enc_q k x t : k = 81 \/ k = 113 -> q_encodes x t -> noq t -> x <> [] -> encodes k t x
| enc_b k x : k = 66 \/ k = 98 -> Forall byte x -> x <> [] -> encodes k (b64encode x) x.
Definition starts_word (l : list Z) : Prop := exists r, l = 61 :: 63 :: r.
Definition starts_fold (l : list Z) : Prop := exists w r, l = 13 :: 10 :: w :: r /\ (w = 9 \/ w = 32).

(** The text a header value stands for; [conv] converts from a character set to UTF-8 *)
Inductive header_text (conv : list Z -> list Z -> list Z) : list Z -> list Z -> Prop :=
| ht_nil : header_text conv [] []
| ht_plain c r d : ~ starts_word (c :: r) -> ~ starts_fold (c :: r) -> header_text conv r d -> header_text conv (c :: r) (c :: d)
| ht_word charset k text x r d : noq charset -> charset <> [] -> encodes k text x ->
    is_utf8 charset -> header_text conv r d -> 
    header_text conv ([61;63] ++ charset ++ [63;k;63] ++ text ++ [63;61] ++ r) (x ++ d)
| ht_word_conv charset k text x r d : noq charset -> charset <> [] -> encodes k text x ->
    ~ utf8_prefix charset -> header_text conv r d -> 
    header_text conv ([61;63] ++ charset ++ [63;k;63] ++ text ++ [63;61] ++ r) (conv charset x ++ d).
