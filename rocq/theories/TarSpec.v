(** The tar format (v7/ustar/GNU with long names), as a relation between bytes and members. *)
From Verif Require Import Base ArchiveSpec.

Definition octval (ds : list Z) : Z := fold_left (fun a c => a * 8 + (c - 48)) ds 0.
(** blanks, octal digits, blanks or NULs: at least one of these behind the digits *)
Definition oct_field (n : Z) (f : list Z) : Prop :=
  exists k ds t r, f = repeat 32 k ++ ds ++ t :: r /\ ds <> [] /\ Forall (fun c => 48 <= c <= 55) ds /\ octval ds = n /\
    (t = 0 \/ t = 32) /\ Forall (fun c => c = 0 \/ c = 32) r.
(** name, padded with NULs *)
Definition name_field (name f : list Z) : Prop := exists k, f = name ++ repeat 0 k /\ Forall (fun c => c <> 0) name.
(** a header of 512 bytes: name 100, mode 8, uid 8, gid 8, size 12, mtime 12, checksum 8, type 1,
    link name 100 (at most 99 used), and the rest *)
Definition tar_hdr (name : list Z) (size mtime ty : Z) (h : list Z) : Prop :=
  exists nf mode uid gid sz mt ck link r,
    h = nf ++ mode ++ uid ++ gid ++ sz ++ mt ++ ck ++ [ty] ++ link ++ r /\
    zlen nf = 100 /\ zlen mode = 8 /\ zlen uid = 8 /\ zlen gid = 8 /\ zlen sz = 12 /\ zlen mt = 12 /\ zlen ck = 8 /\ zlen link = 100 /\ zlen r = 255 /\
    name_field name nf /\ oct_field size sz /\ oct_field mtime mt /\ 0 <= size <= INT32_MAX /\ 0 <= mtime <= INT32_MAX /\
    (exists c m, mode = c :: m ++ [0] /\ c <> 0) /\ (exists u, uid = u ++ [0]) /\ (exists g, gid = g ++ [0]) /\ (exists l, link = l ++ [0]).
Definition tar_type (ty : Z) : Z := if (ty =? 0) || (ty =? 48) then 2 else if ty =? 53 then 1 else 0.
(** names are announced without "./" in front and "/" at the end *)
Definition no_dot (name : list Z) : list Z := match name with 46 :: 47 :: r => r | _ => name end.
Definition announced (name : list Z) : list Z := match rev name with 47 :: r => rev r | _ => name end.
Definition longlink_name : list Z := [46;47;46;47;64;76;111;110;103;76;105;110;107].
(** data, filled up to a multiple of 512 *)
Definition blocks (data padded : list Z) : Prop := exists pad, padded = data ++ pad /\ 0 <= zlen pad < 512 /\ zlen padded mod 512 = 0.

(** members, then [k] blocks of zeros.  The entry "./" for the directory itself is not a member. A
    GNU long name is announced as it is stored in its blocks. *)
Inductive tar_archive (lim : Z) (k : nat) : list Z -> list member -> Prop :=
| tar_end : tar_archive lim k (repeat 0 (512 * k)) []
| tar_file name mtime ty h data padded rest ms :
    tar_hdr name (zlen data) mtime ty h -> name <> [] -> name <> longlink_name -> name <> [46;47] -> blocks data padded -> tar_archive lim k rest ms ->
    tar_archive lim k (h ++ padded ++ rest) (mkMember (mkInfo (announced (no_dot name)) (zlen data) mtime (tar_type ty)) data :: ms)
| tar_dot mtime ty h rest ms :
    tar_hdr [46;47] 0 mtime ty h -> tar_archive lim k rest ms -> tar_archive lim k (h ++ rest) ms
| tar_long lname mtime0 ty0 h0 padded0 name mtime ty h data padded rest ms :
    tar_hdr longlink_name (zlen lname) mtime0 ty0 h0 -> lname <> [] -> zlen lname <= lim -> blocks lname padded0 ->
    tar_hdr name (zlen data) mtime ty h -> blocks data padded -> tar_archive lim k rest ms ->
    tar_archive lim k (h0 ++ padded0 ++ h ++ padded ++ rest) (mkMember (mkInfo (announced lname) (zlen data) mtime (tar_type ty)) data :: ms).
