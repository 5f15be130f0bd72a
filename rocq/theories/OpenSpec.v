(** Specification for C49: what it means that bytes are an archive inside of layers of compression. *)
From Verif Require Import Base StreamSpec ArchiveSpec KmpSpec DetectSpec TextSpec InflateSpec LzmaSpec MailPartsSpec.

Inductive layer := LBzip2 | LGzip | LLzma.

Definition bzip2_magic (b : list Z) : Prop :=
  exists h level t, (h = 104 \/ h = 48) /\ b = 66 :: 90 :: h :: level :: 49 :: 65 :: 89 :: 38 :: 83 :: 89 :: t.
Definition gzip_magic (b : list Z) : Prop := exists t, b = 31 :: 139 :: t.
(** no header of a compressed stream *)
Definition plain (b : list Z) : Prop := ~ bzip2_magic b /\ ~ gzip_magic b /\ ~ is_lzma b.

(** [compressed fb fg fl N ls b x]: peeling the layers [ls] off the bytes [b] leaves the uncompressed bytes [x];
    anything may follow the compressed data of a layer.  At most [N] bytes in each layer.
    [fb], [fg], [fl]: the formats of the three libraries.  lzma: with end mark, or with the announced size and something
    behind the data (otherwise C48_pending_output_refuted). *)
Inductive compressed (fb fg : format) (fl : lzformat) (N : Z) : list layer -> list Z -> list Z -> Prop :=
| cmp_plain x : plain x -> bytes x -> zlen x <= N -> compressed fb fg fl N [] x x
| cmp_bzip2 ls c rest y x : fmt fb c y -> bzip2_magic (c ++ rest) -> bytes (c ++ rest) -> zlen (c ++ rest) <= N ->
    compressed fb fg fl N ls y x -> compressed fb fg fl N (LBzip2 :: ls) (c ++ rest) x
| cmp_gzip ls c rest y x : fmt fg c y -> gzip_magic (c ++ rest) -> bytes (c ++ rest) -> zlen (c ++ rest) <= N ->
    compressed fb fg fl N ls y x -> compressed fb fg fl N (LGzip :: ls) (c ++ rest) x
| cmp_lzma ls h c rest y x n : zlen h = 13 -> is_lzma h -> n = twos 8 (le_value (slice h 5 8)) ->
    n = -1 /\ lz_marked fl c y \/ n = zlen y /\ lz_valid fl c y /\ rest <> [] ->
    bytes (h ++ c ++ rest) -> zlen (h ++ c ++ rest) <= N ->
    compressed fb fg fl N ls y x -> compressed fb fg fl N (LLzma :: ls) (h ++ c ++ rest) x.

(** reading again at the same position returns as much as before, also if less is asked for
    ([I]: invariant of the states of the stream) *)
Definition repeatable {P} (par : ops P Z) (I : P -> Prop) : Prop :=
  forall p m mx p1 n c p2 r, I p -> 1 <= m <= 1024 -> mx <= 0 \/ m <= mx ->
    o_read par p m mx = Ret (p1, n, c) -> 1 <= n -> o_reset par p1 (o_pos par p) = Ret (p2, r) -> r = o_pos par p -> o_status par p2 <> Error ->
    I p2 /\ o_pos par p2 = o_pos par p /\
    forall m' mx', 1 <= m' <= n -> mx' <= 0 /\ mx <= 0 \/ n <= mx' /\ (mx <= 0 \/ mx' <= mx) -> exists p3 c3, o_read par p2 m' mx' = Ret (p3, n, c3).

(** the provider has just returned the first of the entries [ms] *)
Definition at_first {St} (fin : status -> Prop) (pv : provider St) (lim : Z) (ms : list member) (st : St) (i : info) : Prop :=
  match ms with
  | [] => False
  | m :: ms => i = m_info m /\ pv_status pv st = Ok /\
      forall h, Forall (call_ok (m_data m) lim) h ->
        exists st2 obs, pv_entry pv st h = Ret (st2, obs) /\ accepts (m_data m) False view0 h obs /\ lists_end fin pv lim ms st2
  end.

(** the formats the archive reader knows, by the first bytes [h] of a file (DetectSpec.v) *)
Inductive akind := AMail | ARpm | AAr | AZip | ATar | ASdf.
Definition looks (k : akind) (h : list Z) : Prop :=
  match k with AMail => is_mail h | ARpm => is_rpm h | AAr => is_ar h | AZip => is_zip h | ATar => is_tar h | ASdf => is_sdf h end.
(** what a reader may get that asks for the first 1024 bytes of [x] *)
Definition header (x h : list Z) : Prop := exists n, h = slice x 0 n /\ 0 < n <= zlen x /\ (1024 <= n \/ n = zlen x).
(** the beginning of [x] looks like the format [k] and like no other *)
Definition clearly (k : akind) (x : list Z) : Prop := x <> [] /\ forall h, header x h -> forall k', looks k' h <-> k' = k.
Definition no_archive (x : list Z) : Prop := forall h, header x h -> forall k, ~ looks k h.

(** as [at_first], for the parts of a mail *)
Definition at_first_part {St} (pv : provider St) (lim : Z) (ps : list mpart) (st : St) (i : info) : Prop :=
  match ps with
  | [] => False
  | p :: ps => pv_status pv st = Ok /\ match p_name p with Some v => i_name i = v | None => decimal 1 (i_name i) end /\ (i_size i = -1 /\ i_mtime i = 0) /\ i_type i = 2 /\
      forall h, Forall (part_call lim p) h ->
        exists st2 obs, pv_entry pv st h = Ret (st2, obs) /\ part_obs p h obs /\ lists_parts pv lim 2 ps st2
  end.
