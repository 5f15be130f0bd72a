(** Specification for C34: the formats as the documentation of each file format describes their
    beginning; nothing here mentions the checking code. *)
From Verif Require Import Base StreamSpec TextSpec.

(** [d] starts with the magic [m] *)
Definition starts (m d : list Z) : Prop := exists rest, d = m ++ rest.
Definition is_ar (d : list Z) : Prop := starts [33;60;97;114;99;104;62;10] d.          (* !<arch>\n *)
Definition is_cpio (d : list Z) : Prop := starts [48;55;48;55;48;49] d.                (* 070701 *)
Definition is_zip (d : list Z) : Prop := starts [80;75;3;4] d /\ 9 <= zlen d.          (* PK 3 4 and more than 8 bytes *)
Definition is_rpm (d : list Z) : Prop := starts [237;171;238;219;3;0] d.
Definition is_ole (d : list Z) : Prop := starts [208;207;17;224;161;177;26;225] d /\ 9 <= zlen d.
Definition is_gzip (d : list Z) : Prop := starts [31;139] d /\ 3 <= zlen d.
(** BZh or BZ0, the level, and the block magic (the digits of pi) *)
Definition is_bz2 (d : list Z) : Prop :=
  exists v level, (v = 104 \/ v = 48) /\ starts ([66;90;v;level] ++ [49;65;89;38;83;89]) d.
(** properties byte 5d; dictionary size (at most 32 MB, its low byte 0); uncompressed size: unknown (-1)
    or larger than the dictionary and below a terabyte *)
Definition is_lzma (d : list Z) : Prop :=
  exists dict size, zlen dict = 4 /\ zlen size = 8 /\ starts ([93] ++ dict ++ size) d /\
    starts [0] dict /\
    let D := Z.max 4096 (le_value dict) in let S := twos 8 (le_value size) in
    D <= 2 ^ 25 /\ (S = -1 \/ D < S < 2 ^ 40).
(** a tar header block: a name of at most 100 bytes padded with NUL, not only zeros behind it up to
    byte 256, and the terminators of the octal fields in place *)
Definition is_tar (d : list Z) : Prop :=
  257 <= zlen d /\
  (exists name z, slice d 0 100 = name ++ repeat 0 z /\ ~ In 0 name) /\
  (exists i, 100 <= i < 256 /\ zget d i <> Some 0) /\
  zget d 107 = Some 0 /\ zget d 115 = Some 0 /\ zget d 123 = Some 0 /\
  (zget d 135 = Some 0 \/ zget d 135 = Some 32) /\
  (zget d 147 = Some 0 \/ zget d 147 = Some 32) /\ zget d 256 = Some 0.

(** an MDL file: four lines of at most 80 characters, each ended by LF, CR or CRLF, the fourth
    containing V2000, and something behind them *)
Definition line80 (l : list Z) : Prop := zlen l <= 80 /\ ~ In 10 l /\ ~ In 13 l.
(** [e] ends a line that is followed by [rest] *)
Definition ends_line (e rest : list Z) : Prop :=
  e = [10] \/ e = [13;10] \/ (e = [13] /\ forall r, rest <> 10 :: r).
Definition is_sdf (d : list Z) : Prop :=
  exists l1 e1 l2 e2 l3 e3 l4 e4 rest,
    d = l1 ++ e1 ++ l2 ++ e2 ++ l3 ++ e3 ++ l4 ++ e4 ++ rest /\ rest <> [] /\ 11 <= zlen d /\
    line80 l1 /\ line80 l2 /\ line80 l3 /\ line80 l4 /\
    ends_line e1 (l2 ++ e2 ++ l3 ++ e3 ++ l4 ++ e4 ++ rest) /\
    ends_line e2 (l3 ++ e3 ++ l4 ++ e4 ++ rest) /\ ends_line e3 (l4 ++ e4 ++ rest) /\ ends_line e4 rest /\
    exists a b, l4 = a ++ [86;50;48;48;48] ++ b.

(** an internet message (RFC 822): header fields, an empty line, a body; all 7 bit.
    A field is a name of printable characters, a colon and a value in which a line end is always
    followed by a blank (folding); lines end in CRLF. *)
Definition ascii (c : Z) : Prop := 0 <= c < 128.
Definition name_char (c : Z) : Prop := 33 <= c <= 126 /\ c <> 58.
Inductive field_value : list Z -> Prop :=
| fv_nil : field_value []
| fv_char c v : ascii c -> c <> 13 -> field_value v -> field_value (c :: v)
| fv_cr v : (forall r, v <> 10 :: r) -> field_value v -> field_value (13 :: v)
| fv_fold c v : c = 32 \/ c = 9 -> field_value v -> field_value (13 :: 10 :: c :: v).
Definition field (f : list Z) : Prop :=
  exists n v, f = n ++ [58] ++ v ++ [13;10] /\ Forall name_char n /\ field_value v.
Definition message (m : list Z) : Prop :=
  exists fs body, m = concat fs ++ [13;10] ++ body /\ fs <> [] /\ Forall field fs /\ Forall ascii body.
(** the beginning of a message *)
Definition is_mail (d : list Z) : Prop := exists rest, message (d ++ rest).

(** what subStreamProvider() must decide for the first bytes [h] *)
Inductive kind := KNone | KMail | KZip | KSdf.
Definition decides (h : list Z) (k : kind) : Prop :=
  match k with
  | KMail => is_mail h
  | KZip => is_zip h /\ ~ is_mail h
  | KSdf => is_sdf h /\ ~ is_zip h /\ ~ is_mail h
  | KNone => ~ is_sdf h /\ ~ is_zip h /\ ~ is_mail h
  end.
