(** Model of /repo/include/strigi/streambuffer.h (StreamBuffer<T>) and
    /repo/include/strigi/bufferedstream.h (BufferedStream<T>). *)
From Verif Require Import Base StreamSpec.

Section Buffer.
Context {A : Type}.

(** streambuffer.h:41-63.  [b_mem] is the memory block behind [start], cell by
    cell ([None]: allocated but never written), [size] is its length;
    [b_off] is [readPos - start].  Allocation failure is not modelled. *)
Record buf := mkBuf { b_mem : list (option A); b_off : Z; b_avail : Z }.
(** streambuffer.h:49: size *)
Definition b_size (b : buf) : Z := zlen (b_mem b).
(** streambuffer.h:112-116 *)
Definition buf0 : buf := mkBuf [] 0 0.

(** streambuffer.h:121-137 *)
Definition setSize (b : buf) (size : Z) : out buf :=
  if (0 <=? size) && (0 <=? b_avail b) && (0 <=? b_off b) && (b_avail b + b_off b <=? size)
  then Ret (mkBuf (firstn (Z.to_nat size) (b_mem b) ++ repeat None (Z.to_nat (size - b_size b)))
                  (b_off b) (b_avail b))
  else Abort.

(** streambuffer.h:138-183; every int32_t operation that could overflow in a
    state satisfying the asserts of lines 145-148 is checked *)
Definition makeSpace (b : buf) (needed : Z) : out (buf * Z) :=
  let offset := b_off b in
  let size := b_size b in
  let space := size - offset - b_avail b in
  if negb ((0 <=? offset) && (0 <=? size) && (0 <=? b_avail b) && (b_avail b + offset <=? size))
  then Abort
  else if needed <=? space then Ret (b, space)
  else
    let '(b1, space1) :=
      if b_avail b =? 0 then (mkBuf (b_mem b) 0 0, size)
      else if offset =? 0 then (b, space)
      else (mkBuf (splice (b_mem b) 0 (slice (b_mem b) offset (b_avail b))) 0 (b_avail b), space + offset) in
    if needed <=? space1 then Ret (b1, space1)
    else
      let* d := chk32 (needed - space1) in
      if d <? size then
        let* space2 := chk32 (space1 + size) in
        let* sz := chk32 (2 * size) in
        let* b2 := setSize b1 sz in Ret (b2, space2)
      else
        let* t := chk32 (size + needed) in
        let* b2 := setSize b1 (t - space1) in Ret (b2, needed).

(** not code: the cells handed out by the function read of StreamBuffer (streambuffer.h) must all have been written *)
Fixpoint all_some (l : list (option A)) : option (list A) :=
  match l with
  | [] => Some []
  | Some x :: r => match all_some r with Some r' => Some (x :: r') | None => None end
  | None :: _ => None
  end.

(** streambuffer.h:184-199; looking at a never written cell is undefined *)
Definition buf_read (b : buf) (max : Z) : out (buf * Z * list A) :=
  if negb ((0 <=? b_size b) && (0 <=? b_avail b) && (0 <=? b_off b) && (b_avail b + b_off b <=? b_size b))
  then Abort
  else
    let n := if (max <=? 0) || (b_avail b <? max) then b_avail b else max in
    match all_some (slice (b_mem b) (b_off b) n) with
    | Some d => Ret (mkBuf (b_mem b) (b_off b + n) (b_avail b - n), n, d)
    | None => UB
    end.

(** the memory effect of fillBuffer(readPos+avail, space) writing [d] *)
Definition buf_write (b : buf) (d : list A) : out buf :=
  let o := b_off b + b_avail b in
  if (0 <=? o) && (o + zlen d <=? b_size b)
  then Ret (mkBuf (splice (b_mem b) o (map Some d)) (b_off b) (b_avail b))
  else UB.
End Buffer.
Arguments buf : clear implicits.

(** bufferedstream.h:45-63: what a subclass provides.  [fill s space] is the call
    fillBuffer(start, space): new private state, return value, items written to
    [start], and whether it set m_status to Error.  [mu] is not part of
    the code: it bounds how often fillBuffer may return 0 in a row and only
    determines the fuel of the loop (running out of it is the outcome [Hang]). *)
Record source (S A : Type) := mkSource {
  fill : S -> Z -> out (S * Z * list A * bool);
  mu : S -> nat }.
Arguments fill {S A}. Arguments mu {S A}.

Section Buffered.
Context {S A : Type}.
Variable src : source S A.

(** bufferedstream.h:39-40, streambase.h:54-64 *)
Record bstream := mkBS { bs_buf : buf A; bs_fin : bool; bs_src : S;
                         bs_size : Z; bs_pos : Z; bs_st : status }.

(** bufferedstream.h:109-122, the loop of writeToBuffer.  [st] is m_status. *)
Fixpoint wtb_loop (fuel : nat) (b : buf A) (s : S) (st : status)
    (ntoread maxread missing nwritten : Z) : out (buf A * S * status * Z) :=
  if (0 <? missing) && (0 <=? nwritten) then
    match fuel with
    | O => Hang
    | Datatypes.S f =>
        let* (b1, space) := makeSpace b missing in
        let space := if (ntoread <=? maxread) && (maxread <? space) then maxread else space in
        let* (s', n, d, err) := fill src s space in
        let* b2 := buf_write b1 d in
        let st' := if err : bool then Error else st in
        let b3 := if 0 <? n then mkBuf (b_mem b2) (b_off b2) (b_avail b2 + n) else b2 in
        let missing' := if 0 <? n then ntoread - b_avail b3 else missing in
        wtb_loop f b3 s' st' ntoread maxread missing' n
    end
  else Ret (b, s, st, nwritten).

(** bufferedstream.h:104-126 *)
Definition writeToBuffer (x : bstream) (ntoread maxread : Z) : out bstream :=
  let missing := ntoread - b_avail (bs_buf x) in
  let* (b, s, st, nwritten) :=
    wtb_loop (Z.to_nat missing + mu src (bs_src x)) (bs_buf x) (bs_src x) (bs_st x) ntoread maxread missing 0 in
  Ret (mkBS b (if nwritten <? 0 then true else bs_fin x) s (bs_size x) (bs_pos x) st).

(** bufferedstream.h:127-162 *)
Definition bs_read (x : bstream) (min max : Z) : out (bstream * Z * list A) :=
  match bs_st x with
  | Error => Ret (x, -2, [])
  | Eof => Ret (x, -1, [])
  | Ok =>
    let max := if max <? min then 0 else max in
    let* x1 := if negb (bs_fin x) && (b_avail (bs_buf x) <? min) then writeToBuffer x min max else Ret x in
    if is_error (bs_st x1) then Ret (x1, -2, []) else
    let* (b, nread, d) := buf_read (bs_buf x1) max in
    let pos := bs_pos x1 + nread in
    if (bs_size x1 <? pos) && (0 <? bs_size x1)
    then Ret (mkBS b (bs_fin x1) (bs_src x1) (bs_size x1) pos Error, -2, [])
    else if (match bs_st x1 with Ok => true | _ => false end) && (b_avail b =? 0) && bs_fin x1
    then Ret (mkBS b (bs_fin x1) (bs_src x1) (if bs_size x1 =? -1 then pos else bs_size x1) pos Eof,
              if nread =? 0 then -1 else nread, d)
    else Ret (mkBS b (bs_fin x1) (bs_src x1) (bs_size x1) pos (bs_st x1), nread, d)
  end.

(** bufferedstream.h:163-177 *)
Definition bs_reset (x : bstream) (newpos : Z) : out (bstream * Z) :=
  if newpos <? 0 then Abort
  else match bs_st x with
  | Error => Ret (x, -2)
  | _ =>
    let d := bs_pos x - newpos in
    let b := bs_buf x in
    if (d <=? b_off b) && (- d <=? b_avail b)
    then Ret (mkBS (mkBuf (b_mem b) (b_off b - d) (b_avail b + wrap32 d)) (bs_fin x) (bs_src x)
                   (bs_size x) (bs_pos x - d) Ok, bs_pos x - d)
    else Ret (x, bs_pos x)
  end.

(** bufferedstream.h:178-194.  Every round with a positive result
    shortens [ntoskip], so [ntoskip] rounds suffice for ntoskip >= 0; for a
    negative argument (outside the documentation) the loop of the code drains
    the stream; more than 2^63 bytes would overflow [skipped]. *)
Fixpoint bs_skip_loop (fuel : nat) (x : bstream) (ntoskip skipped : Z) : out (bstream * Z) :=
  if ntoskip =? 0 then Ret (x, skipped)
  else match fuel with
  | O => Hang
  | Datatypes.S f =>
      let step := wrap32 (if b_size (bs_buf x) <? ntoskip then b_size (bs_buf x) else ntoskip) in
      let* (x', nread, _) := bs_read x 1 step in
      if nread <=? 0 then Ret (x', skipped)
      else bs_skip_loop f x' (ntoskip - nread) (skipped + nread)
  end.
(** bufferedstream.h:180-194: bound for the rounds of the loop, not in the code *)
Definition skip_rounds (ntoskip : Z) : nat := Z.to_nat (if ntoskip <? 0 then 9223372036854775808 else ntoskip).
(** bufferedstream.h:180-194 *)
Definition bs_skip (x : bstream) (ntoskip : Z) : out (bstream * Z) :=
  bs_skip_loop (skip_rounds ntoskip) x ntoskip 0.
Lemma bs_skip_nonneg x n : 0 <= n -> bs_skip x n = bs_skip_loop (Z.to_nat n) x n 0.
Proof. intros H. unfold bs_skip, skip_rounds. destruct (Z.ltb_spec n 0); [lia|reflexivity]. Qed.

(** bufferedstream.h:37-89: BufferedStream; the virtual functions of this class as a record, no code of its own *)
Definition bs_ops : ops bstream A :=
  mkOps _ _ bs_read bs_skip bs_reset bs_pos bs_size bs_st.

(** bufferedstream.h:99-102 and the base class constructor streambase.h:69 *)
Definition bs_new (s : S) : bstream := mkBS buf0 false s (-1) 0 Ok.
(** bufferedstream.h:81-83 *)
Definition setMinBufSize (x : bstream) (n : Z) : out bstream :=
  let* (b, _) := makeSpace (bs_buf x) n in
  Ret (mkBS b (bs_fin x) (bs_src x) (bs_size x) (bs_pos x) (bs_st x)).
(** bufferedstream.h:69-77 *)
Definition resetBuffer (x : bstream) : bstream :=
  mkBS (mkBuf (b_mem (bs_buf x)) 0 0) false (bs_src x) (-1) 0 Ok.
End Buffered.
Arguments bstream : clear implicits.
