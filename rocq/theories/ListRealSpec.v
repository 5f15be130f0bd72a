(** Specification for C53: which tree of archives the bytes of a file hold, by the file formats alone. *)
From Verif Require Import Base StreamSpec ArchiveSpec KmpSpec DetectSpec InflateSpec LzmaSpec MailPartsSpec T_MailList OpenSpec T_Open M_Listing ListingSpec.

Section Holds.
(** formats of the decompression libraries (zip members, gzip, bzip2, lzma), local time, limits for one read and for the number of bytes *)
Variables (fz fg fb : format) (fl : lzformat) (unix : Z -> Z) (lim N : Z).
(** [c], after up to 33 layers of compression, is [x].  Inside of archives ([top] = false) the outermost layer is not lzma. *)
Definition unpacked (top : bool) (c x : list Z) : Prop :=
  exists ls, compressed fb fg fl N ls c x /\ (length ls <= 33)%nat /\ (top = true \/ forall l, ls <> LLzma :: l).
(** the size of an entry whose size is not announced, found by reading it, if it is plain data: the stream of the entry may also
    not know it at the end (StreamSpec.good_obs) *)
Definition measured (i : info) (data : list Z) (s : M_Listing.stream) (real : Z) : Prop :=
  i_size i < 0 -> s = Plain -> plain data -> data <> [] -> real = zlen data \/ real = -1.
Inductive holds : bool -> list Z -> M_Listing.stream -> Prop :=
| ho_plain top c x : unpacked top c x -> no_archive x -> holds top c Plain
| ho_archive top c x k ms e es : unpacked top c x -> clearly k x -> archive_of lim unix fz fg fb fl k x ms -> hold_members ms (e :: es) -> holds top c (Arch e es)
| ho_mail top c x nl ps e es : unpacked top c x -> clearly AMail x -> newline nl -> MailPartsSpec.message nl maxline x ps -> zlen x <= INT32_MAX -> hold_parts 1 ps (e :: es) -> holds top c (Arch e es)
with hold_members : list member -> list entry -> Prop :=
| hm_nil : hold_members [] []
| hm_cons m ms real s es : holds false (m_data m) s -> measured (m_info m) (m_data m) s real -> hold_members ms es -> hold_members (m :: ms) (Entry (m_info m) real s :: es)
(** the parts of a mail from the [k]-th on.  A part that is not encoded must be plain data: its stream supports reset only within the segment that was read last. *)
with hold_parts : Z -> list mpart -> list entry -> Prop :=
| hp_nil k : hold_parts k [] []
| hp_encoded k p ps nm real s es : p_enc p = true -> match p_name p with Some v => nm = v | None => decimal k nm end ->
    holds false (p_data p) s -> measured (mkInfo nm (-1) 0 2) (p_data p) s real -> hold_parts (k + 1) ps es -> hold_parts k (p :: ps) (Entry (mkInfo nm (-1) 0 2) real s :: es)
| hp_text k p ps nm real es : p_enc p = false -> match p_name p with Some v => nm = v | None => decimal k nm end ->
    plain (p_data p) -> bytes (p_data p) -> p_data p <> [] -> zlen (p_data p) <= N -> no_archive (p_data p) -> measured (mkInfo nm (-1) 0 2) (p_data p) Plain real -> hold_parts (k + 1) ps es ->
    hold_parts k (p :: ps) (Entry (mkInfo nm (-1) 0 2) real Plain :: es).
End Holds.
(** the same tree, but sizes that were not announced may differ *)
Inductive same : M_Listing.stream -> M_Listing.stream -> Prop :=
| same_plain : same Plain Plain
| same_arch e es e' es' : same_l (e :: es) (e' :: es') -> same (Arch e es) (Arch e' es')
with same_l : list entry -> list entry -> Prop :=
| same_nil : same_l [] []
| same_cons i r r' s s' es es' : same s s' -> (i_size i < 0 \/ r = r') -> same_l es es' -> same_l (Entry i r s :: es) (Entry i r' s' :: es').
