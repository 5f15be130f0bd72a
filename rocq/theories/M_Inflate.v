(** Model of /repo/lib/gzipinputstream.cpp and /repo/lib/bz2inputstream.cpp: the wrappers around
    zlib and libbz2.  The libraries themselves are not part of /repo; they are
    an arbitrary [codec], and the theorems state what they assume of it (InflateSpec.v). *)
From Verif Require Import Base StreamSpec M_Buffered.

(** result of one call of inflate() / BZ2_bzDecompress(): go on (Z_OK, Z_BUF_ERROR, BZ_OK),
    end of the compressed stream, or an error code *)
Inductive code := More | End | Bad.
(** [c_step d input space]: new internal state, number of input bytes consumed (they are
    removed from next_in/avail_in), the bytes written to next_out, result code *)
Record codec (D : Type) := mkCodec {
  c_init : D;
  c_step : D -> list Z -> Z -> D * Z * list Z * code }.
Arguments c_init {D}. Arguments c_step {D}.

Section Inflate.
Context {D P : Type}.
Variable cd : codec D.
Variable par : ops P Z.

(** gzipinputstream.cpp:27-40 Private.  [z_par] is the input stream, [z_open] is
    [input != NULL], [z_win] are the avail_in bytes at next_in, [z_out] is avail_out, [z_bad] is
    [m_status == Error].  [z_gas] is not in the code: it only feeds [mu], the
    bound on the number of calls of fillBuffer that return 0. *)
Record zstate := mkZ { z_par : P; z_open : bool; z_dec : D; z_win : list Z; z_out : Z; z_bad : bool; z_gas : nat }.

(** gzipinputstream.cpp:128-143 and bz2inputstream.cpp:108-124 readFromStream *)
Definition z_read (s : zstate) : out zstate :=
  let* (p, nread, b) := o_read par (z_par s) 1 0 in
  if nread <? 1 then Ret (mkZ p (z_open s) (z_dec s) (z_win s) (z_out s) true (z_gas s))
  else Ret (mkZ p (z_open s) (z_dec s) b (z_out s) (z_bad s) (pred (z_gas s))).

(** fillBuffer: gzipinputstream.cpp:144-185 ([bz] = false) and bz2inputstream.cpp:125-170
    ([bz] = true: an error code makes it return -1 instead of the number of bytes written) *)
Definition z_fill (bz : bool) (s : zstate) (space : Z) : out (zstate * Z * list Z * bool) :=
  if negb (z_open s) then Ret (s, -1, [], false)
  else
    let* s := if negb (z_out s =? 0) then z_read s else Ret s in
    if negb (z_out s =? 0) && z_bad s then Ret (s, -1, [], true)
    else
      let '(d, k, y, r) := c_step cd (z_dec s) (z_win s) space in
      let win := skipn (Z.to_nat k) (z_win s) in
      let out := space - zlen y in
      match r with
      | More => Ret (mkZ (z_par s) true d win out (z_bad s) (z_gas s), zlen y, y, z_bad s)
      | Bad => Ret (mkZ (z_par s) true d win out true (z_gas s), if bz then -1 else zlen y, y, true)
      | End =>
          let* p := (if zlen win =? 0 then Ret (z_par s)
                     else let* (p, _) := o_reset par (z_par s) (o_pos par (z_par s) - zlen win) in Ret p) in
          (* dealloc() *)
          Ret (mkZ p false d [] 0 (z_bad s) (z_gas s), zlen y, y, z_bad s)
      end.
(** not code: bound for the rounds of bufferedstream.h:109-122 in which fillBuffer returns 0 (M_Buffered) *)
Definition z_mu (s : zstate) : nat :=
  if z_open s then (2 * z_gas s + (if (z_out s =? 0)%Z then 1 else 0) + 2)%nat else 0%nat.
(** gzipinputstream.h:27-38, bz2inputstream.h:27-36: GZipInputStream and BZ2InputStream ([bz]) as BufferedStreams; the virtual functions of this class as a record, no code of its own *)
Definition z_src (bz : bool) : source zstate Z := mkSource _ _ (z_fill bz) z_mu.

(** a stream whose constructor succeeded: gzipinputstream.cpp:61-94, bz2inputstream.cpp:63-81;
    262144 bytes of buffer, avail_out = 1 "to signal that we need to read into the buffer".
    [bufsize] is 262144. *)
Definition z_ready (bufsize : Z) (p : P) (gas : nat) : out (bstream zstate Z) :=
  setMinBufSize (bs_new (mkZ p true (c_init cd) [] 1 false gas)) bufsize.
(** a stream whose constructor failed: gzipinputstream.cpp:64-80, bz2inputstream.cpp:62-75 *)
Definition z_failed (p : P) (gas : nat) : bstream zstate Z :=
  mkBS buf0 false (mkZ p true (c_init cd) [] 1 true gas) (-1) 0 Error.

(** gzipinputstream.cpp:112-127 *)
Definition gz_checkMagic (p : P) : out (P * bool) :=
  let pos := o_pos par p in
  let* (p, nread, b) := o_read par p 2 2 in
  let* (p, _) := o_reset par p pos in
  if negb (nread =? 2) then Ret (p, false)
  else match b with b0 :: b1 :: _ => Ret (p, (b0 =? 31) && (b1 =? 139)) | _ => UB end.
(** gzipinputstream.cpp:49-95; [gzip] is [format == GZIPFORMAT] *)
Definition gz_new (bufsize : Z) (gzip : bool) (p : P) (gas : nat) : out (bstream zstate Z) :=
  let* (p, ok) := if gzip then gz_checkMagic p else Ret (p, true) in
  if ok then z_ready bufsize p gas else Ret (z_failed p gas).

(** bz2inputstream.cpp:39-47 checkHeader, with datasize the length of the list *)
Definition bz_checkHeader (d : list Z) : bool :=
  match d with
  | a :: b :: c :: _ :: e0 :: e1 :: e2 :: e3 :: e4 :: e5 :: _ =>
      (a =? 66) && (b =? 90) && ((c =? 104) || (c =? 48)) &&
      (e0 =? 49) && (e1 =? 65) && (e2 =? 89) && (e3 =? 38) && (e4 =? 83) && (e5 =? 89)
  | _ => false
  end.
(** bz2inputstream.cpp:94-107 *)
Definition bz_checkMagic (p : P) : out (P * bool) :=
  let pos := o_pos par p in
  let* (p, nread, b) := o_read par p 10 0 in
  let* (p, _) := o_reset par p pos in
  if nread <? 10 then Ret (p, false) else Ret (p, bz_checkHeader (slice b 0 10)).
(** bz2inputstream.cpp:48-83 *)
Definition bz_new (bufsize : Z) (p : P) (gas : nat) : out (bstream zstate Z) :=
  let* (p, ok) := bz_checkMagic p in
  if ok then z_ready bufsize p gas else Ret (z_failed p gas).
End Inflate.
Arguments zstate : clear implicits.
