(** The ar format (System V / GNU variant), as a relation between bytes and members. *)
From Verif Require Import Base ArchiveSpec.

Definition digits (ds : list Z) : Prop := ds <> [] /\ Forall (fun c => 48 <= c <= 57) ds.
Definition decval (ds : list Z) : Z := fold_left (fun a c => a * 10 + (c - 48)) ds 0.
(** a decimal number, left justified, padded with blanks *)
Definition dec_field (n : Z) (f : list Z) : Prop := exists ds k, digits ds /\ decval ds = n /\ f = ds ++ repeat 32 k.
(** the same with at least one blank *)
Definition dec_field_sp (n : Z) (f : list Z) : Prop := exists ds k, digits ds /\ decval ds = n /\ f = ds ++ 32 :: repeat 32 k.
(** 60 byte header: name 16, mtime 12, uid 6, gid 6, mode 8, size 10, "`\n" *)
Definition ar_hdr (namef : list Z) (mtime size : Z) (h : list Z) : Prop :=
  exists mt ids sz, h = namef ++ mt ++ ids ++ sz ++ [96;10] /\ zlen namef = 16 /\ zlen mt = 12 /\ zlen ids = 20 /\ zlen sz = 10 /\
    dec_field_sp mtime mt /\ dec_field size sz /\ 0 <= mtime <= INT32_MAX /\ 0 <= size <= INT32_MAX.
(** a short name, ended by '/', blank or NUL unless it fills the field *)
Definition short_name (name namef : list Z) : Prop :=
  name <> [] /\ Forall (fun c => c <> 32 /\ c <> 47 /\ c <> 0) name /\
  exists r, namef = name ++ r /\ match r with [] => True | c :: _ => c = 32 \/ c = 47 \/ c = 0 end.

(** [ar_members lim names bytes ms]: the bytes at an even offset are these members; [names] is the
    GNU table of long names seen last. Requests for the table of names must not exceed [lim]. *)
Inductive ar_members (lim : Z) : list Z -> list Z -> list member -> Prop :=
| ar_end names : ar_members lim names [] []
| ar_file names namef name mtime h data pad rest ms :
    ar_hdr namef mtime (zlen data) h -> short_name name namef ->
    zlen pad = zlen data mod 2 -> ar_members lim names rest ms ->
    ar_members lim names (h ++ data ++ pad ++ rest) (mkMember (mkInfo name (zlen data) mtime 2) data :: ms)
| ar_symbols names r mtime h data pad rest ms :
    ar_hdr (47 :: 32 :: r) mtime (zlen data) h ->
    zlen pad = zlen data mod 2 -> ar_members lim names rest ms ->
    ar_members lim names (h ++ data ++ pad ++ rest) ms
| ar_table names r mtime h table pad rest ms :
    ar_hdr (47 :: 47 :: r) mtime (zlen table) h -> table <> [] -> zlen table <= lim ->
    zlen pad = zlen table mod 2 -> ar_members lim table rest ms ->
    ar_members lim names (h ++ table ++ pad ++ rest) ms
| ar_longname names before name after f mtime h data pad rest ms :
    ar_hdr (47 :: f) mtime (zlen data) h -> dec_field_sp (zlen before) f ->
    names = before ++ name ++ 47 :: after -> Forall (fun c => c <> 47 /\ c <> 0) name -> zlen before <= INT32_MAX ->
    zlen pad = zlen data mod 2 -> ar_members lim names rest ms ->
    ar_members lim names (h ++ data ++ pad ++ rest) (mkMember (mkInfo name (zlen data) mtime 2) data :: ms).
Definition ar_archive (lim : Z) (bytes : list Z) (ms : list member) : Prop :=
  exists rest, bytes = [33;60;97;114;99;104;62;10] ++ rest /\ ar_members lim [] rest ms.
