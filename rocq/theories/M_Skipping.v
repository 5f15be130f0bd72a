(** Model of /repo/lib/skippingbufferedstream.h (SkippingBufferedStream<T>) and of
    /repo/lib/skippingfileinputstream2.cpp. The members (skippingbufferedstream.h:40-43) are those of
    BufferedStream, so [bstream] of M_Buffered.v is used. *)
From Verif Require Import Base StreamSpec M_Buffered M_File.

Section Skipping.
Context {S A : Type}.
Variable src : source S A.
(** advanceInput(ntoskip): None: the implementation of the base class (skippingbufferedstream.h:210-226);
    Some: an override, given m_status, that returns the new private state, the result and whether it set
    m_status to Error *)
Variable adv : option (status -> S -> Z -> out (S * Z * bool)).

(** skippingbufferedstream.h:106-128 writeToBuffer is bufferedstream.h:104-126;
    skippingbufferedstream.h:129-164 read is bufferedstream.h:127-162, except that the test for Error is
    made only when data was requested: otherwise the status is Ok at that point *)
Definition sk_read (x : bstream S A) (min max : Z) : out (bstream S A * Z * list A) := bs_read src x min max.

(** skippingbufferedstream.h:165-179 *)
Definition sk_reset (x : bstream S A) (newpos : Z) : out (bstream S A * Z) :=
  if newpos <? 0 then Abort
  else match bs_st x with
  | Error => Ret (x, -2)
  | _ =>
    let d := bs_pos x - newpos in
    let b := bs_buf x in
    if (d <=? b_off b) && (- d <? b_avail b)
    then Ret (mkBS (mkBuf (b_mem b) (b_off b - d) (b_avail b + wrap32 d)) (bs_fin x) (bs_src x)
                   (bs_size x) (bs_pos x - d) Ok, bs_pos x - d)
    else Ret (x, bs_pos x)
  end.

(** skippingbufferedstream.h:210-226 advanceInput: the loop is that of bufferedstream.h:180-194 *)
Definition sk_advance (x : bstream S A) (n : Z) : out (bstream S A * Z) :=
  match adv with
  | None => bs_skip src x n
  | Some f =>
      let* (s, k, err) := f (bs_st x) (bs_src x) n in
      Ret (mkBS (bs_buf x) (bs_fin x) s (bs_size x) (bs_pos x) (if err : bool then Error else bs_st x), k)
  end.
(** skippingbufferedstream.h:180-209 *)
Definition sk_skip (x : bstream S A) (ntoskip : Z) : out (bstream S A * Z) :=
  if ntoskip <? 0 then Abort
  else if ntoskip =? 0 then Ret (x, 0)
  else
    let b := bs_buf x in
    if ntoskip <? b_avail b
    then Ret (mkBS (mkBuf (b_mem b) (b_off b + ntoskip) (b_avail b - ntoskip)) (bs_fin x) (bs_src x)
                   (bs_size x) (bs_pos x + ntoskip) (bs_st x), ntoskip)
    else
      let frombuffer := b_avail b in
      let oldpos := bs_pos x + frombuffer in
      let x1 := mkBS (mkBuf (b_mem b) (b_off b) 0) (bs_fin x) (bs_src x) (bs_size x) oldpos (bs_st x) in
      let n' := ntoskip - frombuffer in
      let* (x2, n) := if n' =? 0 then Ret (x1, 0) else sk_advance x1 n' in
      if n <? 0 then Ret (mkBS (bs_buf x2) (bs_fin x2) (bs_src x2) (bs_size x2) (bs_pos x2) Error, -2)
      else
        let pos := oldpos + n in
        if n <? n'
        then Ret (mkBS (bs_buf x2) (bs_fin x2) (bs_src x2) (if bs_size x2 =? -1 then pos else bs_size x2) pos Eof, n + frombuffer)
        else Ret (mkBS (bs_buf x2) (bs_fin x2) (bs_src x2) (bs_size x2) pos (bs_st x2), n + frombuffer).

(** skippingbufferedstream.h:38-91: the virtual functions of this class as a record, no code of its own *)
Definition sk_ops : ops (bstream S A) A := mkOps _ _ sk_read sk_skip sk_reset bs_pos bs_size bs_st.
End Skipping.

(** skippingfileinputstream2.cpp:116-127; fseeko beyond the end of a regular file succeeds (POSIX), a
    failure of fseeko is not modelled. fillBuffer (93-114) and open (47-84) are the text of
    fileinputstream.cpp:98-117 and 49-89: [file_fill] and [file_open] of M_File.v *)
Definition file2_advance (st : status) (f : fstate) (n : Z) : out (fstate * Z * bool) :=
  match st with
  | Error => Ret (f, -1, false)
  | _ => if negb (f_open f) then Ret (f, 0, false) else Ret (mkF true (f_pos f + n), n, false)
  end.
(** skippingfileinputstream2.h:30-55: SkippingFileInputStream2; the virtual functions of this class as a record, no code of its own *)
Definition file2_ops (bytes : list Z) (fault : Z -> Z -> bool) : ops (bstream fstate Z) Z :=
  sk_ops (file_src bytes fault) (Some file2_advance).
