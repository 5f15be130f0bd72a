(** Model of /repo/lib/oleinputstream.cpp over an arbitrary input stream (checkHeader is in M_Detect.v). *)
From Verif Require Import Base StreamSpec M_Kmp M_Buffered ArchiveSpec M_Text M_Detect.

Section Ole.
Variable big : bool. (* byte order of the machine *)

(** strigi_endian.h readLittleEndianInt32(data + o): the four bytes must be accessible *)
Definition le32 (data : list Z) (o : Z) : out Z :=
  if (0 <=? o) && (o + 4 <=? zlen data) then Ret (readLittleEndianInt32 big (slice data o 4)) else UB.
(** oleinputstream.cpp:157-165 with [size] and data + [base]; None: the error *)
Definition readInt32 (data : list Z) (base size offset : Z) : out (option Z) :=
  if offset <? 0 then Ret None
  else let* t := chk32 (offset + 4) in
       if size <=? t then Ret None else let* v := le32 data (base + offset) in Ret (Some v).

(** oleinputstream.cpp:33-58.  [data] is the complete file (size is its length).  The last four
    fields are those of the OleEntryStream (62-85), which has the current state of this object at hand;
    oc_msize is its m_size.  The std::set's are lists. *)
Record ocore := mkO {
  oc_data : list Z; oc_bat : list Z; oc_sbat : list Z; oc_sbatb : list Z;
  oc_usedS : list Z; oc_used : list Z;
  oc_tb : Z; oc_ti : Z; oc_db : Z; oc_ss : Z;
  oc_done : Z; oc_off : Z; oc_bs : Z; oc_msize : Z }.
(** std::set usedBlocks (oleinputstream.cpp:40): count at 292, insert at 298 *)
Definition inset (x : Z) (l : list Z) : bool := existsb (Z.eqb x) l.
(** oleinputstream.cpp:216; size >= 0 *)
Definition maxindex (data : list Z) : Z := Z.quot (zlen data) 512 - 2.

(** oleinputstream.cpp:274-301 *)
Definition nextBlock (data bat used : list Z) (inn : Z) : out (list Z * Z) :=
  match (if Z.quot inn 128 <? 0 then None else zget bat (Z.quot inn 128)) with
  | None => Ret (used, -4)
  | Some b =>
      let* bid := chk32 (b + 1) in
      let* m := chk32 (512 * bid) in
      let* next := chk32 (Z.rem inn 128 * 4 + m) in
      if (next <? 0) || (zlen data - 4 <? next) then Ret (used, -4)
      else
        let* next := le32 data next in
        if (next <? -2) || (next =? -1) || (maxindex data <? next) || inset next used then Ret (used, -4)
        else if 0 <=? next then Ret (next :: used, next) else Ret (used, next)
  end.
(** oleinputstream.cpp:302-328 *)
Definition nextSmallBlock (data sbat : list Z) (maxsindex : Z) (used : list Z) (inn : Z) : out (list Z * Z) :=
  match (if Z.quot inn 128 <? 0 then None else zget sbat (Z.quot inn 128)) with
  | None => Ret (used, -4)
  | Some b =>
      let* bid := chk32 (b + 1) in
      let* m := chk32 (512 * bid) in
      let* next := chk32 (Z.rem inn 128 * 4 + m) in
      if (next <? 0) || (zlen data - 4 <? next) then Ret (used, -4)
      else
        let* next := le32 data next in
        if (next <? -2) || (next =? -1) || (maxsindex <? next) || inset next used then Ret (used, -4)
        else if 0 <=? next then Ret (next :: used, next) else Ret (used, next)
  end.
(** oleinputstream.cpp:329-339: the offset of the pointer; None: 0 *)
Definition getCurrentSmallBlock (s : ocore) : out (option Z) :=
  let i := Z.quot (oc_db s) 8 in
  match (if i <? 0 then None else zget (oc_sbatb s) i) with
  | None => Ret None
  | Some b =>
      let* b1 := chk32 (1 + b) in
      let* m := chk32 (512 * b1) in
      let* i := chk32 (m + Z.rem (oc_db s) 8 * 64) in
      Ret (if zlen (oc_data s) - 64 <? i then None else Some i)
  end.
(** oleinputstream.cpp:100-151 *)
Definition ole_fill (s : ocore) (space : Z) : out (ocore * Z * list Z * bool) :=
  if oc_done s =? oc_msize s then Ret (s, -1, [], false)
  else
    let avail := oc_bs s - oc_off s in
    let avail := if oc_msize s - oc_done s <? avail then oc_msize s - oc_done s else avail in
    let n := if avail <? space then avail else space in
    let* d := if oc_bs s =? 64 then getCurrentSmallBlock s
              else let* b := chk32 (1 + oc_db s) in let* o := chk32 (b * 512) in Ret (Some o) in
    match d with
    | None => Ret (s, -1, [], true)
    | Some d =>
        if (d <? 0) || (zlen (oc_data s) <? d + n) then Ret (s, -1, [], true)
        else if (0 <=? d + oc_off s) && (0 <=? n) && (d + oc_off s + n <=? zlen (oc_data s)) then
          let w := slice (oc_data s) (d + oc_off s) n in
          let done := oc_done s + n in
          let off := oc_off s + n in
          if off =? oc_bs s then
            let* (usedS, used, db) :=
              if oc_bs s =? 64
              then let* (u, x) := nextSmallBlock (oc_data s) (oc_sbat s) (8 * zlen (oc_sbatb s)) (oc_usedS s) (oc_db s) in Ret (u, oc_used s, x)
              else let* (u, x) := nextBlock (oc_data s) (oc_bat s) (oc_used s) (oc_db s) in Ret (oc_usedS s, u, x) in
            let s' := mkO (oc_data s) (oc_bat s) (oc_sbat s) (oc_sbatb s) usedS used (oc_tb s) (oc_ti s) db (oc_ss s) done 0 (oc_bs s) (oc_msize s) in
            if (db <? 0) && (negb (db =? -2) || negb (done =? oc_msize s)) then Ret (s', -1, w, true)
            else Ret (s', n, w, false)
          else Ret (mkO (oc_data s) (oc_bat s) (oc_sbat s) (oc_sbatb s) (oc_usedS s) (oc_used s) (oc_tb s) (oc_ti s) (oc_db s) (oc_ss s) done off (oc_bs s) (oc_msize s), n, w, false)
        else UB
    end.
(** oleinputstream.cpp: OleEntryStream (at the start of the file) as a BufferedStream; the virtual functions of this class as a record, no code of its own *)
Definition ole_src : source ocore Z := mkSource _ _ ole_fill (fun _ => 0%nat).

(** signed char *)
Definition schar (c : Z) : Z := if 128 <=? c then c - 256 else c.
(** oleinputstream.cpp:356-359: name and badname *)
Fixpoint ole_name (n : nat) (data : list Z) (o : Z) : out (list Z * bool) :=
  match n with
  | O => Ret ([], false)
  | S k =>
      let* c := rdc data o in let* h := rdc data (o + 1) in
      let* (l, bad) := ole_name k data (o + 2) in Ret (c :: l, negb (h =? 0) || bad)
  end.
(** oleinputstream.cpp:340-378 *)
Definition readEntryInfo (s : ocore) (inf : info) : out (ocore * info) :=
  let upd db ss := mkO (oc_data s) (oc_bat s) (oc_sbat s) (oc_sbatb s) (oc_usedS s) (oc_used s) (oc_tb s) (oc_ti s) db ss (oc_done s) (oc_off s) (oc_bs s) (oc_msize s) in
  let* t := chk32 (1 + oc_tb s) in
  let* m := chk32 (t * 512) in
  let d := m + 128 * oc_ti s in
  let* ty := rdc (oc_data s) (d + 66) in
  if negb (ty =? 2) then Ret (upd (-1) (oc_ss s), inf)
  else
    let* ns := rdc (oc_data s) (d + 64) in
    let ns := schar ns in
    let ns := if ns <? 2 then 2 else ns in
    let ns := if 64 <? ns then 64 else ns in
    let* (name, bad) := ole_name (Z.to_nat (Z.quot ns 2 - 1)) (oc_data s) d in
    let name := if bad : bool then [] else name in
    let* db := le32 (oc_data s) (d + 116) in
    let* ss := le32 (oc_data s) (d + 120) in
    Ret (upd (if (maxindex (oc_data s) <? db) || (ss <=? 0) then -1 else db) ss, mkInfo name ss (i_mtime inf) (i_type inf)).
(** oleinputstream.cpp:388-397, the loop; None: null pointer *)
Fixpoint ole_entries (fuel : nat) (s : ocore) (inf : info) : out (ocore * info * bool) :=
  match fuel with
  | O => Hang
  | S f =>
      let ti := oc_ti s + 1 in
      let upd used tb ti := mkO (oc_data s) (oc_bat s) (oc_sbat s) (oc_sbatb s) (oc_usedS s) used tb ti (oc_db s) (oc_ss s) (oc_done s) (oc_off s) (oc_bs s) (oc_msize s) in
      let* s1 := if ti =? 4 then
                   let* (u, tb) := nextBlock (oc_data s) (oc_bat s) (oc_used s) (oc_tb s) in Ret (upd u tb (if tb <? 0 then ti else 0))
                 else Ret (upd (oc_used s) (oc_tb s) ti) in
      if (ti =? 4) && (oc_tb s1 <? 0) then Ret (s1, inf, false)
      else
        let* (s2, inf) := readEntryInfo s1 inf in
        if oc_db s2 <? 0 then ole_entries f s2 inf else Ret (s2, inf, true)
  end.

(** oleinputstream.cpp: the provider; the entry stream is part of it for its whole life *)
Record ole := mkOle { ol_str : bstream ocore Z; ol_inf : info; ol_st : status }.
(** oleinputstream.cpp:379-403, with OleEntryStream::reset (76-82) and resetBuffer *)
Definition ole_next (fuel : nat) (a : ole) : out (ole * option info) :=
  let x := ol_str a in
  let s := bs_src x in
  if oc_tb s <? 0 then Ret (mkOle x (ol_inf a) Eof, None)
  else
    let* (s, inf, some) := ole_entries fuel s (ol_inf a) in
    if some : bool then
      let y := resetBuffer x in
      let bs := if oc_ss s <? 4096 then 64 else 512 in
      let s := mkO (oc_data s) (oc_bat s) (oc_sbat s) (oc_sbatb s) (oc_usedS s) (oc_used s) (oc_tb s) (oc_ti s) (oc_db s) (oc_ss s) 0 0 bs (oc_ss s) in
      Ret (mkOle (mkBS (bs_buf y) (bs_fin y) s (oc_ss s) (bs_pos y) (bs_st y)) inf (ol_st a), Some inf)
    else Ret (mkOle (mkBS (bs_buf x) (bs_fin x) s (bs_size x) (bs_pos x) (bs_st x)) inf Eof, None).
(** substreamprovider.h:140: calls on currentEntry(), the OleEntryStream *)
Definition ole_entry (a : ole) (h : list call) : out (ole * list (obs Z)) :=
  let* (x, obs) := run (bs_ops ole_src) (ol_str a) h in Ret (mkOle x (ol_inf a) (ol_st a), obs).
(** oleinputstream.h:34-47, substreamprovider.h:67-159: OleInputStream as a SubStreamProvider; the virtual functions of this class as a record, no code of its own *)
Definition ole_provider (fuel : nat) : provider ole := mkProvider _ (ole_next fuel) ole_entry ol_st.

(** oleinputstream.cpp:196-201; [n] is the number of entries left; false: the error *)
Fixpoint ole_bats (n : nat) (data : list Z) (i : Z) (max : Z) : out (option (list Z * Z)) :=
  match n with
  | O => Ret (Some ([], max))
  | S k =>
      let* p := readInt32 data 76 512 (4 * i) in
      match p with
      | None => Ret None
      | Some p => let* r := ole_bats k data (i + 1) (if max <? p then p else max) in
                  match r with None => Ret None | Some (l, m) => Ret (Some (p :: l, m)) end
      end
  end.
(** oleinputstream.cpp:222-226 *)
Fixpoint ole_xbat_block (n : nat) (data : list Z) (nBat xoff i : Z) (bat : list Z) : out (option (list Z)) :=
  match n with
  | O => Ret (Some bat)
  | S k =>
      if zlen bat <? nBat then
        let* o := chk32 (4 * i + xoff) in
        let* p := readInt32 data 0 (zlen data) o in
        match p with None => Ret None | Some p => ole_xbat_block k data nBat xoff (i + 1) (bat ++ [p]) end
      else Ret (Some bat)
  end.
(** oleinputstream.cpp:221-229 *)
Fixpoint ole_xbat (n : nat) (data : list Z) (nBat xoff : Z) (bat : list Z) : out (option (list Z)) :=
  match n with
  | O => Ret (Some bat)
  | S k =>
      let* r := ole_xbat_block 127 data nBat xoff 0 bat in
      match r with
      | None => Ret None
      | Some bat =>
          let* o := chk32 (508 + xoff) in
          let* p := readInt32 data 0 (zlen data) o in
          match p with
          | None => Ret None
          | Some p => let* m := chk32 (512 * p) in let* x := chk32 (512 + m) in ole_xbat k data nBat x bat
          end
      end
  end.
(** oleinputstream.cpp:244-254 and 261-264: collect a chain of at most [n] blocks *)
Fixpoint ole_collect (n : nat) (data bat used : list Z) (b : Z) : out (list Z * list Z * Z) :=
  match n with
  | O => Ret ([], used, b)
  | S k => if 0 <=? b then
             let* (u, x) := nextBlock data bat used b in
             let* (l, u, e) := ole_collect k data bat u x in Ret (b :: l, u, e)
           else Ret ([], used, b)
  end.
(** the entry stream and the object when the constructor returns early (currentTableBlock is -1).
    Before the first reset() the size of the entry stream is an uninitialised number that nobody looks at: 0 here. *)
Definition ole_dead : ocore := mkO [] [] [] [] [] [] (-1) 0 0 0 0 0 0 0.
Section New.
Context {P : Type}.
Variable par : ops P Z.
(** oleinputstream.cpp:166-267.  The input is not used any more afterwards. *)
Definition ole_load (p : P) : out (option ocore) :=
  let* (p, size, data) := o_read par p 512 512 in
  if negb (size =? 512) then Ret None
  else
    let* (p, _) := o_reset par p 0 in
    let* nBat := le32 data 44 in
    let* pt := le32 data 48 in
    let* sbo := le32 data 60 in
    let* xbo := le32 data 68 in
    let* nX := le32 data 72 in
    let* ok := ole_check data in
    let* lim := (if negb ok || (nBat <? 0) then Ret 0 else let* t := chk32 (128 * nX) in chk32 (t + 109)) in
    if negb ok || (nBat <? 0) || (lim <? nBat) || (nX <? 0) then Ret None
    else
      let* r := ole_bats (Z.to_nat (Z.min 109 nBat)) data 0 0 in
      match r with
      | None => Ret None
      | Some (bat, max) =>
          let max := if max <? pt then pt else max in
          let* t := chk32 (128 * (nBat - 1)) in
          let max := if max <? t then t else max in
          let* t := chk32 (max + 2) in
          let* toread := chk32 (t * 512) in
          if (0 <=? o_size par p) && (o_size par p <? toread) then Ret None
          else
            let toread := if 0 <? o_size par p then wrap32 (o_size par p) else 10000000 in
            let* (p, size, data) := o_read par p toread toread in
            let* (p, _) := o_reset par p 0 in
            if negb (size =? o_size par p) then Ret None
            else
              let* m := chk32 (512 * xbo) in
              let* x := chk32 (512 + m) in
              let* r := ole_xbat (Z.to_nat nX) data nBat x bat in
              match r with
              | None => Ret None
              | Some bat =>
                  let* (sbat, used, _) := ole_collect 1000 data bat [] sbo in
                  let* t := chk32 (1 + pt) in
                  let* m := chk32 (t * 512) in
                  let* o := chk32 (m + 116) in
                  let* r := readInt32 data 0 (zlen data) o in
                  match r with
                  | None => Ret None
                  | Some b =>
                      let* (sbatb, used, b) := ole_collect 16000 data bat used b in
                      Ret (Some (mkO data bat sbat sbatb [] used pt 0 b 0 0 0 0 0))
                  end
              end
      end.
(** oleinputstream.cpp:68-74, 153-156 *)
Definition ole_new (p : P) : out ole :=
  let* r := ole_load p in
  let* x := setMinBufSize (bs_new (match r with Some s => s | None => ole_dead end)) 512 in
  Ret (mkOle x (mkInfo [] (-1) 0 0) (match r with Some _ => Ok | None => Error end)).
End New.
End Ole.
