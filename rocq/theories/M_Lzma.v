(** Model of /repo/lib/lzmainputstream.cpp.  The decoder is an arbitrary [lzcodec] here, and the theorems of T_Lzma.v
    state what they assume of it (LzmaSpec.v).  M_LzmaReal.v puts in the bundled decoder, P_LzmaReal.v proves the assumptions of it. *)
From Verif Require Import Base StreamSpec M_Buffered M_Text M_Detect.

(** result of LzmaDec_DecodeToBuf: SZ_OK with status LZMA_STATUS_FINISHED_WITH_MARK ([LOk true]) or another
    status ([LOk false]), or an error code *)
Inductive lcode := LOk (mark : bool) | LBad.
(** [l_step d input space finish]: new state, bytes consumed, bytes written, result;
    [finish]: finishMode is LZMA_FINISH_END *)
Record lzcodec (D : Type) := mkLzcodec {
  l_init : D;
  l_step : D -> list Z -> Z -> bool -> D * Z * list Z * lcode }.
Arguments l_init {D}. Arguments l_step {D}.

Section Lzma.
Context {D P : Type}.
Variable cd : lzcodec D.
Variable par : ops P Z.

(** lzmainputstream.cpp:30-45 Private: [l_win] are the avail_in bytes at next_in, [l_bytes] is
    bytesDecompressed, [l_size] is the m_size of the stream, which fillBuffer reads and writes.
    [l_gas] is not in the code: it only feeds [mu]. *)
Record lstate := mkL { l_par : P; l_dec : D; l_win : list Z; l_bytes : Z; l_size : Z; l_gas : nat }.

(** lzmainputstream.cpp:118-171 fillBuffer and readFromStream 107-117.  The test "m_status != Ok" at 119 is left out:
    BufferedStream does not call fillBuffer again after an error.  SizeT has 64 bits. *)
Definition l_fill (s : lstate) (space : Z) : out (lstate * Z * list Z * bool) :=
  if l_size s =? l_bytes s then Ret (s, -1, [], false)
  else
    let* (s, nread) := match l_win s with
      | [] => let* (p, nread, b) := o_read par (l_par s) 1 0 in
              Ret (mkL p (l_dec s) (if nread <? 1 then [] else b) (l_bytes s) (l_size s) (l_gas s - Z.to_nat nread)%nat, nread)
      | _ => Ret (s, 1)
      end in
    if nread <? 1 then Ret (s, -1, [], true)
    else
      let todo := l_size s - l_bytes s in
      let fin := negb (l_size s =? -1) && (todo <? space) in
      let '(d, k, y, r) := l_step cd (l_dec s) (l_win s) (if fin then todo else space) fin in
      let win := skipn (Z.to_nat k) (l_win s) in
      let bytes := l_bytes s + zlen y in
      match r with
      | LBad => Ret (mkL (l_par s) d win bytes (l_size s) (l_gas s), -1, [], true)
      | LOk mark =>
        if (k =? 0) && (zlen y =? 0) then
          if negb (l_size s =? -1) || negb mark then Ret (mkL (l_par s) d win bytes (l_size s) (l_gas s), -1, [], true)
          else Ret (mkL (l_par s) d win bytes bytes (l_gas s), zlen y, y, false)
        else Ret (mkL (l_par s) d win bytes (if mark then bytes else l_size s) (l_gas s), zlen y, y, false)
      end.
(** not code: bound for the rounds of bufferedstream.h:109-122 in which fillBuffer returns 0 (M_Buffered) *)
Definition l_mu (s : lstate) : nat :=
  (l_gas s + length (l_win s) + (if (l_size s =? l_bytes s)%Z then 0 else 1))%nat.
(** lzmainputstream.h:27-36: LZMAInputStream as a BufferedStream; the virtual functions of this class as a record, no code of its own *)
Definition l_src : source lstate Z := mkSource _ _ l_fill l_mu.

(** bufferedstream.h:127-162 read() for this subclass: as [bs_read], with m_size being the field that
    fillBuffer may have changed *)
Definition l_read (x : bstream lstate Z) (min max : Z) : out (bstream lstate Z * Z * list Z) :=
  match bs_st x with
  | Error => Ret (x, -2, [])
  | Eof => Ret (x, -1, [])
  | Ok =>
    let max := if max <? min then 0 else max in
    let* x1 := if negb (bs_fin x) && (b_avail (bs_buf x) <? min)
               then (let* x1 := writeToBuffer l_src x min max in
                     Ret (mkBS (bs_buf x1) (bs_fin x1) (bs_src x1) (l_size (bs_src x1)) (bs_pos x1) (bs_st x1)))
               else Ret x in
    if is_error (bs_st x1) then Ret (x1, -2, []) else
    let* (b, nread, d) := buf_read (bs_buf x1) max in
    let pos := bs_pos x1 + nread in
    if (bs_size x1 <? pos) && (0 <? bs_size x1)
    then Ret (mkBS b (bs_fin x1) (bs_src x1) (bs_size x1) pos Error, -2, [])
    else if (match bs_st x1 with Ok => true | _ => false end) && (b_avail b =? 0) && bs_fin x1
    then Ret (mkBS b (bs_fin x1) (bs_src x1) (if bs_size x1 =? -1 then pos else bs_size x1) pos Eof,
              if nread =? 0 then -1 else nread, d)
    else Ret (mkBS b (bs_fin x1) (bs_src x1) (bs_size x1) pos (bs_st x1), nread, d)
  end.
(** bufferedstream.h:178-194 skip(), calling this read() *)
Fixpoint l_skip_loop (fuel : nat) (x : bstream lstate Z) (ntoskip skipped : Z) : out (bstream lstate Z * Z) :=
  if ntoskip =? 0 then Ret (x, skipped)
  else match fuel with
  | O => Hang
  | S f =>
      let step := wrap32 (if b_size (bs_buf x) <? ntoskip then b_size (bs_buf x) else ntoskip) in
      let* (x', nread, _) := l_read x 1 step in
      if nread <=? 0 then Ret (x', skipped)
      else l_skip_loop f x' (ntoskip - nread) (skipped + nread)
  end.
(** bufferedstream.h:180-194 *)
Definition l_skip (x : bstream lstate Z) (ntoskip : Z) : out (bstream lstate Z * Z) :=
  l_skip_loop (skip_rounds ntoskip) x ntoskip 0.
(** lzmainputstream.h:27-36, bufferedstream.h:37-89: the virtual functions of this class as a record, no code of its own *)
Definition l_ops : ops (bstream lstate Z) Z := mkOps _ _ l_read l_skip bs_reset bs_pos bs_size bs_st.

(** strigi_endian.h readLittleEndianInt64 *)
Definition rd_size (d : list Z) : out Z :=
  let* u := rd_le 8 d 5 in
  Ret (if u <? 9223372036854775808 then u else u - 18446744073709551616).
(** lzmainputstream.cpp:70-101 constructor; [alloc_ok]: LzmaDec_Allocate succeeds.  [bufsize] is 262144. *)
Definition l_new (bufsize : Z) (alloc_ok : bool) (p : P) (gas : nat) : out (bstream lstate Z) :=
  let* (p, nread, b) := o_read par p 13 13 in
  let* ok := if nread =? 13 then lzma_check b else Ret false in
  let* size := if ok then rd_size b else Ret (-1) in
  let s := mkL p (l_init cd) [] 0 size gas in
  if negb (ok && alloc_ok) || (size <? -1) then Ret (mkBS buf0 false s size 0 Error)
  else setMinBufSize (mkBS buf0 false s size 0 Ok) bufsize.
End Lzma.
Arguments lstate : clear implicits.
