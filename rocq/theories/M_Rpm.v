(** Model of /repo/lib/rpminputstream.cpp over an arbitrary input stream.  The decompressors for
    gzip and bzip2 payloads are those of M_Inflate.v, the one for LZMA is that of M_Lzma.v. *)
From Verif Require Import Base StreamSpec M_Buffered M_Sub ArchiveSpec M_Ar M_Cpio M_Inflate M_Detect M_Text M_Lzma.

(** strigi_endian.h readBigEndianInt32(b + o): the four bytes must be accessible; [big]: byte order of the machine *)
Definition be32 (big : bool) (b : list Z) (o : Z) : out Z :=
  if (0 <=? o) && (o + 4 <=? zlen b) then Ret (readBigEndianInt32 big (slice b o 4)) else UB.
(** rpminputstream.cpp:64 headmagic *)
Definition headmagic : list Z := [142;173;232;1].

(** rpminputstream.cpp:118-134: the kinds of payload *)
Inductive pkind := PkBz2 | PkLzma | PkGzip.

Section Rpm.
Context {P : Type}.
Variable par : ops P Z.
Variable big : bool.

(** rpminputstream.cpp:92-117: the loop over the index; [n] is the number of entries left, [i] the
    index.  False: the return at 99-102. *)
Fixpoint rpm_index (b : list Z) (nindex hsize : Z) (n : nat) (i : Z) : out bool :=
  match n with
  | O => Ret true
  | S n' =>
      let* _ := be32 big b (i * 16) in
      let* _ := be32 big b (i * 16 + 4) in
      let* offset := be32 big b (i * 16 + 8) in
      if (offset <? 0) || (hsize <=? offset) then Ret false
      else
        let* _ := be32 big b (i * 16 + 12) in
        let* _ := (if i <? nindex - 1 then be32 big b (i * 16 + 8 + 16) else Ret hsize) in
        rpm_index b nindex hsize n' (i + 1)
  end.

(** rpminputstream.cpp:64-71 and 81-87: 16 bytes starting with the magic; None: the constructor returns *)
Definition rpm_section (p : P) : out (P * option (Z * Z)) :=
  let* (p, n, b) := o_read par p 16 16 in
  if negb (n =? 16) then Ret (p, None)
  else
    let* m := memeq b 0 headmagic in
    if negb m then Ret (p, None)
    else
      let* nindex := be32 big b 8 in
      let* hsize := be32 big b 12 in
      Ret (p, Some (nindex, hsize)).

(** rpminputstream.cpp:49-134 up to the choice of the decompressor.  None: the constructor returns with m_status = Error. *)
Definition rpm_open (p : P) : out (P * option pkind) :=
  let* (p, n, b) := o_read par p 96 96 in
  if negb (n =? 96) then Ret (p, None)
  else
    let* (p, s) := rpm_section p in
    match s with
    | None => Ret (p, None)
    | Some (nindex, hsize) =>
        let* m := chk32 (nindex * 16) in
        let* sz := chk32 (m + hsize) in
        let* sz := (if Z.rem sz 8 =? 0 then Ret sz else chk32 (sz + (8 - Z.rem sz 8))) in
        let* (p, n, b) := o_read par p sz sz in
        if negb (n =? sz) then Ret (p, None)
        else
          let* (p, s) := rpm_section p in
          match s with
          | None => Ret (p, None)
          | Some (nindex, hsize) =>
              let* m := chk32 (nindex * 16) in
              let* size := chk32 (m + hsize) in
              let* (p, n, b) := o_read par p size size in
              if negb (n =? size) then Ret (p, None)
              else
                let* ok := rpm_index b nindex hsize (Z.to_nat nindex) 0 in
                if negb ok then Ret (p, None)
                else
                  let pos := o_pos par p in
                  let* (p, n, b) := o_read par p 16 16 in
                  if negb (n =? 16) then Ret (p, None)
                  else
                    (* the pointer b stays valid over the reset (streambase.h:166-186) *)
                    let* (p, _) := o_reset par p pos in
                    let* z := bz2_check b in
                    if z then Ret (p, Some PkBz2)
                    else let* l := lzma_check b in
                         if l then Ret (p, Some PkLzma)
                         else let* g := gzip_check b in
                              Ret (p, if g then Some PkGzip else None)
          end
    end.

Context {Dg Db Dl : Type}.
Variables (cg : codec Dg) (cb : codec Db) (cl : lzcodec Dl).

(** the decompressor with the cpio reader on top of it *)
Inductive payload :=
| PNone (p : P)
| PGz (c : cpio (bstream (zstate Dg P) Z))
| PBz (c : cpio (bstream (zstate Db P) Z))
| PLz (c : cpio (bstream (lstate Dl P) Z)).
(** rpminputstream.h:29-47: members uncompressionStream and cpio; m_status of substreamprovider.h:67-159 *)
Record rpm := mkRpm { rp_pay : payload; rp_st : status }.

(** rpminputstream.cpp:49-142; [bufsize] 262144, [gas] and [alloc_ok] as in M_Inflate and M_Lzma *)
Definition rpm_new (bufsize : Z) (gas : nat) (alloc_ok : bool) (p : P) : out rpm :=
  let* (p, k) := rpm_open p in
  match k with
  | None => Ret (mkRpm (PNone p) Error)
  | Some PkBz2 =>
      let* x := bz_new cb par bufsize p gas in
      Ret (match bs_st x with Error => mkRpm (PNone (z_par (bs_src x))) Error | _ => mkRpm (PBz (cpio_new x)) Ok end)
  | Some PkGzip =>
      let* x := gz_new cg par bufsize true p gas in
      Ret (match bs_st x with Error => mkRpm (PNone (z_par (bs_src x))) Error | _ => mkRpm (PGz (cpio_new x)) Ok end)
  | Some PkLzma =>
      let* x := l_new cl par bufsize alloc_ok p gas in
      Ret (match bs_st x with Error => mkRpm (PNone (l_par (bs_src x))) Error | _ => mkRpm (PLz (cpio_new x)) Ok end)
  end.
(** rpminputstream.cpp:130: GZipInputStream on the input *)
Definition gz_ops := bs_ops (z_src cg par false).
(** rpminputstream.cpp:126: BZ2InputStream on the input *)
Definition bz_ops := bs_ops (z_src cb par true).
(** rpminputstream.cpp:128: LZMAInputStream on the input *)
Definition lz_ops := l_ops cl par.
(** rpminputstream.cpp:149-160 *)
Definition rpm_next (fuel : nat) (a : rpm) : out (rpm * option info) :=
  match rp_st a with
  | Ok =>
      match rp_pay a with
      | PGz c => let* (c, r) := cpio_next gz_ops fuel c in Ret (mkRpm (PGz c) (c_st c), r)
      | PBz c => let* (c, r) := cpio_next bz_ops fuel c in Ret (mkRpm (PBz c) (c_st c), r)
      | PLz c => let* (c, r) := cpio_next lz_ops fuel c in Ret (mkRpm (PLz c) (c_st c), r)
      | PNone _ => Ret (a, None)
      end
  | _ => Ret (a, None)
  end.
(** substreamprovider.h:140: calls on currentEntry(), that of the cpio reader (rpminputstream.cpp:149-160) *)
Definition rpm_entry (a : rpm) (h : list call) : out (rpm * list (obs Z)) :=
  match rp_pay a with
  | PGz c => let* (c, o) := cpio_entry gz_ops c h in Ret (mkRpm (PGz c) (rp_st a), o)
  | PBz c => let* (c, o) := cpio_entry bz_ops c h in Ret (mkRpm (PBz c) (rp_st a), o)
  | PLz c => let* (c, o) := cpio_entry lz_ops c h in Ret (mkRpm (PLz c) (rp_st a), o)
  | PNone _ => Ret (a, [])
  end.
(** rpminputstream.h:29-47, substreamprovider.h:67-159: RpmInputStream as a SubStreamProvider; the virtual functions of this class as a record, no code of its own *)
Definition rpm_provider (fuel : nat) : provider rpm := mkProvider _ (rpm_next fuel) rpm_entry rp_st.
End Rpm.
Arguments rpm : clear implicits.
Arguments payload : clear implicits.
Arguments PNone {P Dg Db Dl}. Arguments PGz {P Dg Db Dl}. Arguments PBz {P Dg Db Dl}. Arguments PLz {P Dg Db Dl}.
Arguments mkRpm {P Dg Db Dl}. Arguments rp_pay {P Dg Db Dl}. Arguments rp_st {P Dg Db Dl}.
Arguments rpm_next {P} par {Dg Db Dl} cg cb cl fuel a. Arguments rpm_entry {P} par {Dg Db Dl} cg cb cl a h.
Arguments rpm_provider {P} par {Dg Db Dl} cg cb cl fuel.
