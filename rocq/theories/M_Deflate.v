(** Model of /repo/lib/gzipcompressstream.cpp: the stream that compresses its input with
    zlib's deflate().  zlib is not part of /repo; it is an arbitrary [compressor] and the
    theorems state what they assume of it (DeflateSpec.v). *)
From Verif Require Import Base StreamSpec M_Buffered.

(** result of deflate(): Z_OK, Z_STREAM_END, one of the codes for which fillBuffer sets Error
    (Z_NEED_DICT, Z_DATA_ERROR, Z_MEM_ERROR), or any other code (Z_BUF_ERROR, Z_STREAM_ERROR) *)
Inductive ecode := EOk | EEnd | EBad | EOther.
(** [e_init]: deflateInit(), None if it fails.  [e_step d input finish space]: deflate() with
    flush = Z_FINISH or Z_NO_FLUSH; the new internal state, the number of input bytes
    consumed, the bytes written and the result code *)
Record compressor (D : Type) := mkCompressor {
  e_init : option D;
  e_step : D -> list Z -> bool -> Z -> D * Z * list Z * ecode }.
Arguments e_init {D}. Arguments e_step {D}.

Section Deflate.
Context {D P : Type}.
Variable cp : compressor D.
Variable par : ops P Z.

(** gzipcompressstream.h:33-34: [q_par] is the input stream, [q_dec] is zstream ([None] after
    dealloc()), [q_win] are the avail_in bytes at next_in, [q_bad] is [m_status == Error].
    [q_gas] is not in the code: it only feeds [mu], the bound on the number of calls of
    fillBuffer that return 0. *)
Record qstate := mkQ { q_par : P; q_dec : option D; q_win : list Z; q_bad : bool; q_gas : nat }.

(** gzipcompressstream.cpp:67-82 readFromStream *)
Definition q_read (s : qstate) : out qstate :=
  let* (p, nread, b) := o_read par (q_par s) 1 0 in
  if nread <? -1 then Ret (mkQ p (q_dec s) (q_win s) true (q_gas s))
  else if nread <? 1 then Ret (mkQ p (q_dec s) [] (q_bad s) (q_gas s))
  else Ret (mkQ p (q_dec s) b (q_bad s) (pred (q_gas s))).

(** gzipcompressstream.cpp:83-135 fillBuffer; the traces on cerr are left out *)
Definition q_fill (s : qstate) (space : Z) : out (qstate * Z * list Z * bool) :=
  match q_dec s with
  | None => Ret (s, -1, [], false)
  | Some d =>
    let* s1 := match q_win s with [] => q_read s | _ => Ret s end in
    match q_win s with
    | [] =>
      if q_bad s1 then Ret (s1, -1, [], true)
      else match q_win s1 with
      | [] =>
        let '(d', k, y, r) := e_step cp d [] true space in
        match r with
        | EOk => Ret (mkQ (q_par s1) (Some d') [] (q_bad s1) (q_gas s1), zlen y, y, false)
        | EEnd => Ret (mkQ (q_par s1) None [] (q_bad s1) (q_gas s1), zlen y, y, false)
        (* the bytes written so far are in the buffer but not announced *)
        | _ => Ret (mkQ (q_par s1) None [] (q_bad s1) (q_gas s1), -1, [], false)
        end
      | w => 
        let '(d', k, y, r) := e_step cp d w false space in
        let bad := match r with EBad => true | _ => q_bad s1 end in
        Ret (mkQ (q_par s1) (Some d') (skipn (Z.to_nat k) w) bad (q_gas s1), zlen y, y, bad)
      end
    | w =>
      let '(d', k, y, r) := e_step cp d w false space in
      let bad := match r with EBad => true | _ => q_bad s1 end in
      Ret (mkQ (q_par s1) (Some d') (skipn (Z.to_nat k) w) bad (q_gas s1), zlen y, y, bad)
    end
  end.
(** not code: bound for the rounds of bufferedstream.h:109-122 in which fillBuffer returns 0 (M_Buffered) *)
Definition q_mu (s : qstate) : nat :=
  match q_dec s with
  | None => 0%nat
  | Some _ => (2 * q_gas s + (match q_win s with [] => 0 | _ => 1 end) + 2)%nat
  end.
(** gzipcompressstream.h:31-43: GZipCompressInputStream as a BufferedStream; the virtual functions of this class as a record, no code of its own *)
Definition q_src : source qstate Z := mkSource _ _ q_fill q_mu.

(** gzipcompressstream.cpp:27-55 constructor *)
Definition q_new (p : P) (gas : nat) : bstream qstate Z :=
  match e_init cp with
  | Some d => bs_new (mkQ p (Some d) [] false gas)
  | None => mkBS buf0 false (mkQ p None [] true gas) (-1) 0 Error
  end.
End Deflate.
Arguments qstate : clear implicits.
