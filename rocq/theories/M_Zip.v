(** Model of /repo/lib/zipinputstream.cpp (ZipInputStream), over an arbitrary input stream and an
    arbitrary inflate library [cd].  The little endian readers are [le_value] (C18 proves that
    they compute it).  Diagnostics on stderr and error texts are not modelled. *)
From Verif Require Import Base StreamSpec M_Sub M_Buffered M_Inflate M_Text TextSpec ArchiveSpec.

Section Zip.
Context {D P : Type}.
Variable cd : codec D.
Variable par : ops P Z.
(** [mktime]: the C library function (see M_Text); [bufsize], [gas]: the parameters of GZipInputStream (M_Inflate);
    [fuel]: bound on the rounds of the draining loop, not in the code *)
Variables (mktime : tm -> Z) (bufsize : Z) (gas fuel : nat).

(** zipinputstream.cpp:124, 137: a SubInputStream on the input *)
Definition zsub := sub P.
(** subinputstream.h:42-66: the virtual functions of that SubInputStream *)
Definition zsub_ops : ops zsub Z := sub_ops par.
(** GZipInputStream on the compressed substream, and directly on the input *)
Definition gz1 := bstream (zstate D zsub) Z.
(** zipinputstream.cpp:128-129: GZipInputStream on the compressed substream *)
Definition gz1_ops : ops gz1 Z := bs_ops (z_src cd zsub_ops false).
(** zipinputstream.cpp:133-134: GZipInputStream on the input *)
Definition gz2 := bstream (zstate D P) Z.
(** gzipinputstream.h:27-38: the virtual functions of that GZipInputStream *)
Definition gz2_ops : ops gz2 Z := bs_ops (z_src cd par false).

(** zipinputstream.h:40-47 and SubStreamProvider: which streams exist. The input lives inside them.
    [ZNone]: m_entrystream is null; [ZStored]: SubInputStream on the input; [ZKnown]: SubInputStream on
    GZipInputStream on SubInputStream on the input (compressedEntryStream is not null);
    [ZUnknown]: GZipInputStream on the input. *)
Inductive zcur := ZNone (p : P) | ZStored (s : zsub) | ZKnown (e : sub gz1) | ZUnknown (x : gz2).
(** zipinputstream.h:38-56, substreamprovider.h:67-159: the members *)
Record zip := mkZip { zi_cur : zcur; zi_st : status; zi_info : info }.
(** zipinputstream.cpp:40-44 *)
Definition zip_new (p : P) : zip := mkZip (ZNone p) Ok (mkInfo [] (-1) 0 0).

(** zipinputstream.cpp:82-84: while status() is Ok, skip(size) *)
Fixpoint zip_drain {X} (o : ops X Z) (k : nat) (x : X) (size : Z) : out X :=
  match o_status o x with
  | Ok => match k with O => Hang | S k => let* (x, _) := o_skip o x size in zip_drain o k x size end
  | _ => Ret x
  end.
(** zipinputstream.cpp:85-104: the data descriptor behind an entry of unknown size; the result is
    whether it was there *)
Definition zip_descriptor (p : P) : out (P * bool) :=
  let* (p, n, c) := o_read par p 4 4 in
  if n =? 4 then
    if negb (4 <=? zlen c) then UB
    else if le_value (slice c 0 4) =? 134695760
    then let* (p, n, _) := o_read par p 12 12 in Ret (p, n - 8 =? 4)
    else let* (p, n, _) := o_read par p 8 8 in Ret (p, n - 4 =? 4)
  else Ret (p, false).
(** zipinputstream.cpp:56-108 *)
Definition zip_leave (a : zip) : out (P * bool) :=
  match zi_cur a with
  | ZNone p => Ret (p, true)
  | ZKnown e =>
      let c := z_par (bs_src (su_par e)) in
      let* (c, _) := sub_skip par c (su_size c) in
      let p := su_par c in
      let pos := o_pos par p in
      let* (p, n, d) := o_read par p 16 16 in
      if n =? 16 then
        if negb (16 <=? zlen d) then UB
        else if negb (le_value (slice d 0 4) =? 134695760)
        then let* (p, _) := o_reset par p pos in Ret (p, true)
        else Ret (p, true)
      else Ret (p, true)
  | ZStored s =>
      let size := su_size s in
      let size := if size <? 1 then 1024 else size in
      let* s := zip_drain zsub_ops fuel s size in
      if i_size (zi_info a) <? 0 then zip_descriptor (su_par s) else Ret (su_par s, true)
  | ZUnknown x =>
      let size := bs_size x in
      let size := if size <? 1 then 1024 else size in
      let* x := zip_drain gz2_ops fuel x size in
      if i_size (zi_info a) <? 0 then zip_descriptor (z_par (bs_src x)) else Ret (z_par (bs_src x), true)
  end.
(** zipinputstream.cpp:229-254: filename and type. filename[len-1] of an empty name is undefined. *)
Definition zip_readFileName (p : P) (len ty : Z) : out (P * list Z * Z) :=
  let* (p, nread, b) := o_read par p len len in
  if negb (nread =? len) then Ret (p, [], ty)
  else if negb (len <=? zlen b) then UB
  else
    let name := slice b 0 len in
    match zget name (len - 1) with
    | None => UB
    | Some c => if c =? 47 then Ret (p, slice name 0 (len - 1), 1) else Ret (p, name, 2)
    end.
(** zipinputstream.cpp:141-228: status, entryCompressedSize, compressionMethod, entry info *)
Definition zip_readHeader (p : P) (inf : info) : out (P * status * Z * Z * info) :=
  let* (p, nread, hb) := o_read par p 30 30 in
  if negb (nread =? 30) then Ret (p, Error, -1, -1, inf)
  else if negb (30 <=? zlen hb) then UB
  else match hb with
  | h0 :: h1 :: h2 :: h3 :: _ =>
    if negb (h0 =? 80) || negb (h1 =? 75) then Ret (p, Error, -1, -1, inf)
    else if negb (h2 =? 3) || negb (h3 =? 4) then Ret (p, Eof, -1, -1, inf)
    else
      let filenamelen := le_value (slice hb 26 2) in
      let extralen := le_value (slice hb 28 2) in
      let size := le_value (slice hb 22 4) in
      let csize := wrap32 (le_value (slice hb 18 4)) in
      let inf := mkInfo (i_name inf) size (i_mtime inf) (i_type inf) in
      if csize <? 0 then Ret (p, Error, csize, -1, inf)
      else
        let method := le_value (slice hb 8 2) in
        let flags := le_value (slice hb 6 2) in
        if Z.testbit flags 3 && negb (method =? 8) then Ret (p, Error, csize, method, inf)
        else
          let size := if Z.testbit flags 3 then -1 else size in
          let csize := if Z.testbit flags 3 then -1 else csize in
          let mtime := dos2unixtime mktime (le_value (slice hb 10 4)) in
          let* (p, name, ty) := zip_readFileName p filenamelen (i_type inf) in
          let inf := mkInfo name size mtime ty in
          let* (p, skipped) := o_skip par p extralen in
          if negb (skipped =? extralen) then Ret (p, Error, csize, method, inf)
          else Ret (p, Ok, csize, method, inf)
  | _ => UB
  end.
(** zipinputstream.cpp:53-140.  When the data descriptor is missing (line 102) the code keeps
    the old entry stream until the destructor runs; here it is dropped. *)
Definition zip_next (a : zip) : out (zip * option info) :=
  match zi_st a with
  | Ok =>
      let* (p, ok) := zip_leave a in
      if negb ok then Ret (mkZip (ZNone p) Error (zi_info a), None)
      else if is_eof (o_status par p) then Ret (mkZip (ZNone p) Eof (zi_info a), None)
      else
        let* (p, st, csize, method, inf) := zip_readHeader p (zi_info a) in
        match st with
        | Ok =>
            if zlen (i_name inf) <=? 0 then Ret (mkZip (ZNone p) Error inf, None)
            else if method =? 8 then
              if 0 <=? i_size inf then
                let* c := sub_new par p csize in
                let* g := gz_new cd zsub_ops bufsize false c gas in
                let* e := sub_new gz1_ops g (i_size inf) in
                Ret (mkZip (ZKnown e) Ok inf, Some inf)
              else
                let* x := gz_new cd par bufsize false p gas in
                Ret (mkZip (ZUnknown x) Ok inf, Some inf)
            else
              let* s := sub_new par p (i_size inf) in
              Ret (mkZip (ZStored s) Ok inf, Some inf)
        | _ => Ret (mkZip (ZNone p) st inf, None)
        end
  | _ => Ret (a, None)
  end.
(** substreamprovider.h:140: calls on currentEntry() *)
Definition zip_entry (a : zip) (h : list call) : out (zip * list (obs Z)) :=
  match zi_cur a with
  | ZNone _ => Ret (a, [])
  | ZStored s => let* (s, obs) := run zsub_ops s h in Ret (mkZip (ZStored s) (zi_st a) (zi_info a), obs)
  | ZKnown e => let* (e, obs) := run (sub_ops gz1_ops) e h in Ret (mkZip (ZKnown e) (zi_st a) (zi_info a), obs)
  | ZUnknown x => let* (x, obs) := run gz2_ops x h in Ret (mkZip (ZUnknown x) (zi_st a) (zi_info a), obs)
  end.
(** zipinputstream.h:38-56, substreamprovider.h:67-159: ZipInputStream as a SubStreamProvider; the virtual functions of this class as a record, no code of its own *)
Definition zip_provider : provider zip := mkProvider _ zip_next zip_entry zi_st.
End Zip.
Arguments zip : clear implicits. Arguments zcur : clear implicits.
