(** The RPM version 3 file format, as far as needed to find the payload
    (http://www.rpm.org/max-rpm-snapshot/s1-rpm-file-format-rpm-file-format.html). *)
From Verif Require Import Base.

(** four bytes, most significant first, of a number below 2^31 *)
Definition big4 (f : list Z) (n : Z) : Prop :=
  exists a b c d, f = [a; b; c; d] /\ 0 <= a < 128 /\ 0 <= b < 256 /\ 0 <= c < 256 /\ 0 <= d < 256 /\
    n = a * 16777216 + b * 65536 + c * 256 + d.
(** an entry of the index: tag, type, offset into a store of [hsize] bytes, count *)
Definition rpm_index_entry (hsize : Z) (e : list Z) : Prop :=
  exists tag type off o count, e = tag ++ type ++ off ++ count /\ zlen tag = 4 /\ zlen type = 4 /\ zlen count = 4 /\
    big4 off o /\ 0 <= o < hsize.
(** a header structure: magic, reserved, number of entries, size of the store; then the
    index and the store.  Not empty, and the part behind the first 16 bytes has [n] bytes. *)
Definition rpm_struct (n : Z) (bytes : list Z) : Prop :=
  exists res fn fs ix store, bytes = [142;173;232;1] ++ res ++ fn ++ fs ++ concat ix ++ store /\
    zlen res = 4 /\ big4 fn (zlen ix) /\ big4 fs (zlen store) /\ Forall (rpm_index_entry (zlen store)) ix /\
    n = 16 * zlen ix + zlen store /\ 1 <= n.
(** lead, signature padded to a multiple of 8 bytes, header, payload.
    [lim] is the largest request the input stream serves. *)
Definition rpm_file (lim : Z) (bytes payload : list Z) : Prop :=
  exists lead sg pad hd n1 n2, bytes = lead ++ sg ++ pad ++ hd ++ payload /\ zlen lead = 96 /\
    rpm_struct n1 sg /\ 0 <= zlen pad < 8 /\ (n1 + zlen pad) mod 8 = 0 /\ rpm_struct n2 hd /\
    n1 + 8 <= lim /\ n2 <= lim /\ n1 + 8 <= INT32_MAX /\ n2 <= INT32_MAX.
(** how the payload is compressed is told by its first bytes *)
Inductive compression := Bzip2ed | Lzmaed | Gzipped.
Definition starts_with (k : compression) (payload : list Z) : Prop :=
  match k with
  | Gzipped => exists t, payload = 31 :: 139 :: t
  | Bzip2ed => exists h level t, (h = 104 \/ h = 48) /\ payload = [66;90;h;level;49;65;89;38;83;89] ++ t
  (* properties 0x5d, dictionary of up to 32 MB, unknown size *)
  | Lzmaed => exists d t, payload = [93; 0; 0; d; 0; 255;255;255;255;255;255;255;255] ++ t /\ 0 <= d < 256
  end.
