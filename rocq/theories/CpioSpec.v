(** The cpio "newc" format, as a relation between bytes and members. *)
From Verif Require Import Base ArchiveSpec.

(** value of a hexadecimal digit of either case *)
Definition hexdigit (c v : Z) : Prop := (48 <= c <= 57 /\ v = c - 48) \/ (65 <= c <= 70 /\ v = c - 55) \/ (97 <= c <= 102 /\ v = c - 87).
(** most significant digit first *)
Inductive hexnum : list Z -> Z -> Prop :=
| hex_nil : hexnum [] 0
| hex_snoc l n c v : hexnum l n -> hexdigit c v -> hexnum (l ++ [c]) (n * 16 + v).
(** 8 digits; values up to 2^31 - 1 *)
Definition hex8 (f : list Z) (n : Z) : Prop := zlen f = 8 /\ hexnum f n /\ 0 <= n <= INT32_MAX.
(** 110 byte header: "070701" and 13 fields; field 5 is the time, 6 the size, 11 the name size *)
Definition cpio_hdr (mtime size namesize : Z) (h : list Z) : Prop :=
  exists a mt sz b ns ck, h = [48;55;48;55;48;49] ++ a ++ mt ++ sz ++ b ++ ns ++ ck /\
    zlen a = 40 /\ hex8 mt mtime /\ hex8 sz size /\ zlen b = 32 /\ hex8 ns namesize /\ zlen ck = 8.
(** names are announced without a leading "./", unless the name is just "./" *)
Definition plain_name (name : list Z) : list Z :=
  match name with 46 :: 47 :: c :: r => c :: r | _ => name end.
(** header, name with its NUL, NULs up to a multiple of 4; the request for it must not exceed [lim] *)
Definition cpio_head (lim : Z) (name : list Z) (mtime size : Z) (bytes : list Z) : Prop :=
  exists h pad, cpio_hdr mtime size (zlen name + 1) h /\ bytes = h ++ name ++ [0] ++ pad /\
    0 <= zlen pad < 4 /\ zlen bytes mod 4 = 0 /\ zlen bytes - 110 <= lim /\ zlen bytes - 110 <= INT32_MAX - 4 /\ Forall (fun c => c <> 0) name.
Definition trailer_name : list Z := [84;82;65;73;76;69;82;33;33;33].
(** members up to the trailer, or up to the end of the file *)
Inductive cpio_archive (lim : Z) : list Z -> list member -> Prop :=
| cp_eof : cpio_archive lim [] []
| cp_trailer head mtime size rest : cpio_head lim trailer_name mtime size head -> cpio_archive lim (head ++ rest) []
| cp_file head name mtime data pad rest ms :
    cpio_head lim name mtime (zlen data) head -> plain_name name <> trailer_name ->
    0 <= zlen pad < 4 -> (zlen data + zlen pad) mod 4 = 0 -> cpio_archive lim rest ms ->
    cpio_archive lim (head ++ data ++ pad ++ rest) (mkMember (mkInfo (plain_name name) (zlen data) mtime 2) data :: ms).
(** Every header in the file is readable, wherever it may be: the size, time and name length fields
    consist of hexadecimal digits, the values are below 2^31, and the name ends with a NUL.  Says nothing
    about where headers are, nor about the file being long enough for the data. *)
Definition cpio_sane (lim : Z) (full : list Z) : Prop :=
  forall q, 0 <= q -> q + 110 <= zlen full -> slice full q 6 = [48;55;48;55;48;49] ->
    exists mtime size namesize, hexnum (slice full (q + 46) 8) mtime /\ mtime <= INT32_MAX /\
      hexnum (slice full (q + 54) 8) size /\ size <= INT32_MAX /\
      hexnum (slice full (q + 94) 8) namesize /\ 1 <= namesize /\ namesize + 3 <= lim /\ namesize + 5 <= INT32_MAX /\
      (q + 110 + namesize <= zlen full -> zget full (q + 110 + namesize - 1) = Some 0).
