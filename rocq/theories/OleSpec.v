(** OLE2 compound files, independent of the code; for C28 and C41.
    A file is a header of 512 bytes followed by sectors of 512 bytes; sector n starts at 512 * (n + 1). *)
From Verif Require Import Base TextSpec DetectSpec ArchiveSpec.

(** the signed little endian word at offset [o] *)
Definition word (d : list Z) (o : Z) : Z := twos 4 (le_value (slice d o 4)).
Definition sector (d : list Z) (n : Z) : list Z := slice d (512 * (n + 1)) 512.
Definition sec_word (d : list Z) (n i : Z) : Z := word d (512 * (n + 1) + 4 * i).
(** header fields *)
Definition h_nbat (d : list Z) : Z := word d 44.
Definition h_dir (d : list Z) : Z := word d 48.
Definition h_sbat (d : list Z) : Z := word d 60.
Definition h_xbat (d : list Z) : Z := word d 68.
Definition h_nxbat (d : list Z) : Z := word d 72.
Definition h_bat (d : list Z) (i : Z) : Z := word d (76 + 4 * i).

(** ** C28: table entries are moderate, so that the sector with that number lies in a range of 32 bit offsets *)
Definition moderate (z : Z) : Prop := -4194304 <= z <= 4194301.
(** the chain of [n] extra table blocks from sector [x] on: each holds 127 entries and the number of the next *)
Fixpoint xbat_moderate (n : nat) (d : list Z) (x : Z) : Prop :=
  match n with
  | O => moderate x
  | S k => moderate x /\ (forall i, 0 <= i < 127 -> 0 <= 512 * (x + 1) + 4 * i -> 512 * (x + 1) + 4 * i + 4 <= zlen d -> moderate (sec_word d x i)) /\
           (0 <= 512 * (x + 1) + 508 -> 512 * (x + 1) + 508 + 4 <= zlen d -> xbat_moderate k d (sec_word d x 127))
  end.
Record tables_moderate (d : list Z) : Prop := {
  tm_nbat : h_nbat d <= 32768; tm_nxbat : -16000000 <= h_nxbat d <= 16000000;
  tm_bat : forall i, 0 <= i < 109 -> i < h_nbat d -> moderate (h_bat d i);
  tm_dir : moderate (h_dir d); tm_sbat : moderate (h_sbat d);
  tm_root : -1 <= h_dir d -> 512 * (h_dir d + 1) + 120 <= zlen d -> moderate (sec_word d (h_dir d) 29);
  tm_xbat : xbat_moderate (Z.to_nat (h_nxbat d)) d (h_xbat d) }.

(** ** C41: a well-formed file *)
Definition byte_at (d : list Z) (o : Z) : Z := nth (Z.to_nat o) d (-1).
Definition nthz (l : list Z) (i : Z) : Z := nth (Z.to_nat i) l (-1).
(** [l] are the blocks from [start] on, each pointing to the next one and the last one to -2 *)
Fixpoint chain (next : Z -> Z) (start : Z) (l : list Z) : Prop :=
  match l with
  | [] => start = -2
  | x :: r => start = x /\ chain next (next x) r
  end.
(** room for the numbers of the sectors of the allocation table: 109 in the header and 127 in each of the extra
    table sectors [xb], whose last word is the number of the next extra table sector *)
Definition upto (n : nat) : list Z := map Z.of_nat (seq 0 n).
Definition table_entries (d xb : list Z) : list Z := map (h_bat d) (upto 109) ++ concat (map (fun x => map (sec_word d x) (upto 127)) xb).
(** the allocation table, in the sectors [bt] *)
Definition fat (d bt : list Z) (x : Z) : Z := sec_word d (nthz bt (x / 128)) (x mod 128).
(** the table of the small blocks of 64 bytes, in the sectors [sb], and the small blocks, in the sectors [ms] *)
Definition minifat (d sb : list Z) (x : Z) : Z := sec_word d (nthz sb (x / 128)) (x mod 128).
Definition minisector (d ms : list Z) (x : Z) : list Z := slice d (512 * (nthz ms (x / 8) + 1) + 64 * (x mod 8)) 64.
(** number of blocks of [b] bytes for [n] bytes *)
Definition blocks (n b : Z) : Z := (n + b - 1) / b.

(** the directory entry of 128 bytes at offset [o] is a stream with that name and data, which is stored
    in the sectors [big] or the small blocks [small] *)
Record is_stream (d bt sb ms : list Z) (o : Z) (m : member) (big small : list Z) : Prop := {
  st_type : byte_at d (o + 66) = 2;
  st_name : zlen (i_name (m_info m)) <= 31 /\ byte_at d (o + 64) = 2 * (zlen (i_name (m_info m)) + 1) /\
            forall i, 0 <= i < zlen (i_name (m_info m)) ->
              byte_at d (o + 2 * i) = nthz (i_name (m_info m)) i /\ byte_at d (o + 2 * i + 1) = 0;
  st_size : word d (o + 120) = zlen (m_data m) /\ 0 < zlen (m_data m);
  st_info : m_info m = mkInfo (i_name (m_info m)) (zlen (m_data m)) 0 0;
  st_data : if zlen (m_data m) <? 4096
            then big = [] /\ chain (minifat d sb) (word d (o + 116)) small /\ zlen small = blocks (zlen (m_data m)) 64 /\
                 m_data m = slice (concat (map (minisector d ms) small)) 0 (zlen (m_data m))
            else small = [] /\ chain (fat d bt) (word d (o + 116)) big /\ zlen big = blocks (zlen (m_data m)) 512 /\
                 m_data m = slice (concat (map (sector d) big)) 0 (zlen (m_data m)) }.
(** the entries at the given offsets are the streams [l] and other things (storages, unused entries, empty streams) *)
Inductive streams (d bt sb ms : list Z) : list Z -> list member -> list Z -> list Z -> Prop :=
| sts_end : streams d bt sb ms [] [] [] []
| sts_other o os l B S : byte_at d (o + 66) <> 2 \/ word d (o + 120) <= 0 -> streams d bt sb ms os l B S -> streams d bt sb ms (o :: os) l B S
| sts_stream o os m l b B s S : is_stream d bt sb ms o m b s ->
    streams d bt sb ms os l B S -> streams d bt sb ms (o :: os) (m :: l) (b ++ B) (s ++ S).
(** offsets of the four entries of a directory sector *)
Definition entry_offsets (x : Z) : list Z := map (fun i => 512 * (x + 1) + 128 * i) [0; 1; 2; 3].
Record ole_file (d xb bt dirs sb ms : list Z) (l : list member) (B S : list Z) : Prop := {
  of_magic : is_ole d; of_bytes : Forall (fun c => 0 <= c < 256) d; of_sectors : exists k, zlen d = 512 * k;
  (* the extra table sectors *)
  of_xbat : h_nxbat d = zlen xb /\ moderate (h_xbat d) /\ (xb <> [] -> chain (fun x => sec_word d x 127) (h_xbat d) xb) /\
            NoDup xb /\ Forall (fun x => 0 <= x /\ 512 * (x + 2) <= zlen d) xb;
  (* the sectors of the allocation table *)
  of_nbat : 1 <= h_nbat d <= 109 + 127 * zlen xb /\ 512 * (128 * (h_nbat d - 1) + 2) <= zlen d;
  of_table : bt = firstn (Z.to_nat (h_nbat d)) (table_entries d xb);
  of_bat : Forall (fun x => 0 <= x /\ 512 * (x + 2) <= zlen d) bt;
  of_dir : chain (fat d bt) (h_dir d) dirs /\ dirs <> [];
  of_sbat : chain (fat d bt) (h_sbat d) sb /\ zlen sb <= 1000;
  of_mini : chain (fat d bt) (sec_word d (h_dir d) 29) ms /\ zlen ms <= 16000;
  of_range : Forall (fun x => 0 <= x /\ x / 128 < h_nbat d /\ 512 * (x + 2) <= zlen d) (dirs ++ sb ++ ms ++ B);
  of_srange : Forall (fun x => 0 <= x /\ x / 128 < zlen sb /\ x / 8 < zlen ms) S;
  of_nodup : NoDup (dirs ++ sb ++ ms ++ B) /\ NoDup S;
  (* the first entry is the root *)
  of_streams : streams d bt sb ms (skipn 1 (concat (map entry_offsets dirs))) l B S }.
