(** Specification for C59, ar: what is left of an ar archive that was cut off. *)
From Verif Require Import Base StreamSpec ArchiveSpec ArSpec.

(** a header of a member, with a short name or one of the table of long names (as in ArSpec.v) *)
Definition ar_named (names name : list Z) (mtime size : Z) (h : list Z) : Prop :=
  (exists namef, ar_hdr namef mtime size h /\ short_name name namef) \/
  (exists f before after, ar_hdr (47 :: f) mtime size h /\ dec_field_sp (zlen before) f /\
     names = before ++ name ++ 47 :: after /\ Forall (fun c => c <> 47 /\ c <> 0) name /\ zlen before <= INT32_MAX).
(** Only the first [k] bytes of [bytes] are there ([k < 0]: the cut is in the byte of padding before them): the members that
    are complete, and the member whose header is complete but whose data are not, with the data that are there; and the status() in
    which the code ends the listing: Error if the cut is in a header (after its first byte) or in the table of names. *)
Inductive ar_cut (lim : Z) : Z -> list Z -> list Z -> list member -> option (info * list Z) -> status -> Prop :=
| arc_eof : forall k names, ar_cut lim k names [] [] None Eof
| arc_head : forall k names bytes, k < 60 -> k <= zlen bytes -> ar_cut lim k names bytes [] None (if k <=? 1 then Eof else Error)
| arc_data : forall k names name mtime h data pad rest, ar_named names name mtime (zlen data) h -> 60 <= k < 60 + zlen data ->
    ar_cut lim k names (h ++ data ++ pad ++ rest) [] (Some (mkInfo name (zlen data) mtime 2, slice data 0 (k - 60))) Eof
| arc_whole : forall k names name mtime h data pad rest ms last fin, ar_named names name mtime (zlen data) h -> 60 + zlen data <= k ->
    zlen pad = zlen data mod 2 -> ar_cut lim (k - zlen (h ++ data ++ pad)) names rest ms last fin ->
    ar_cut lim k names (h ++ data ++ pad ++ rest) (mkMember (mkInfo name (zlen data) mtime 2) data :: ms) last fin
| arc_symbols : forall k names r mtime h data pad rest ms last fin, ar_hdr (47 :: 32 :: r) mtime (zlen data) h -> 60 <= k ->
    zlen pad = zlen data mod 2 -> ar_cut lim (k - zlen (h ++ data ++ pad)) names rest ms last fin ->
    ar_cut lim k names (h ++ data ++ pad ++ rest) ms last fin
| arc_table : forall k names r mtime h table pad rest ms last fin, ar_hdr (47 :: 47 :: r) mtime (zlen table) h -> table <> [] -> zlen table <= lim ->
    60 + zlen table <= k -> zlen pad = zlen table mod 2 -> ar_cut lim (k - zlen (h ++ table ++ pad)) table rest ms last fin ->
    ar_cut lim k names (h ++ table ++ pad ++ rest) ms last fin
| arc_table_cut : forall k names r mtime h table rest, ar_hdr (47 :: 47 :: r) mtime (zlen table) h -> zlen table <= lim ->
    60 <= k < 60 + zlen table -> ar_cut lim k names (h ++ table ++ rest) [] None Error.
(** with the 8 bytes of magic *)
Definition ar_cut_archive (lim k : Z) (bytes : list Z) (ms : list member) (last : option (info * list Z)) (fin : status) : Prop :=
  exists rest, bytes = [33;60;97;114;99;104;62;10] ++ rest /\
    (8 <= k /\ ar_cut lim (k - 8) [] rest ms last fin \/ k < 8 /\ ms = [] /\ last = None /\ fin = Error).
