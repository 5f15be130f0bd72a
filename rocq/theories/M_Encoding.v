(** Model of /repo/lib/encodinginputstream.cpp and /repo/lib/inputstreamreader.cpp, which have the same structure: the first
    writes bytes, the second wchar_t ([A] are the items written).  iconv is not part of /repo: an arbitrary
    [converter]; the theorems state what they assume of it (EncSpec.v). *)
From Verif Require Import Base StreamSpec M_Buffered EncSpec.

Section Encoding.
Context {A St P : Type}.
Variable ic : converter A St.
Variable par : ops P Z.

(** encodinginputstream.cpp:36-42, inputstreamreader.h.  [e_open] is [input != 0]; [e_off] is charbuf.readPos - charbuf.start and [e_buf] are
    the charbuf.avail bytes there; charbuf.size is 262.  [e_conv] is the shift state inside of the iconv_t [converter].  [e_gas] is not in the code: it only feeds [mu].
    Error texts, charsLeft and finishedEncoding are not modelled: nothing depends on them. *)
Record estate := mkE { e_par : P; e_open : bool; e_off : Z; e_buf : list Z; e_conv : St; e_gas : nat }.
(** encodinginputstream.cpp:80, inputstreamreader.cpp:64: charbuf.setSize(262) *)
Definition CHARBUF : Z := 262.

(** encodinginputstream.cpp:86-132, inputstreamreader.cpp:74-120.  The default case (other errno) is left out: iconv has no other. *)
Definition e_decode (s : estate) (space : Z) : out (estate * Z * list A * bool) :=
  let '(k, y, r, c) := ic (e_conv s) (e_buf s) space in
  match r with
  | Eilseq => Ret (mkE (e_par s) (e_open s) (e_off s) (e_buf s) c (e_gas s), -1, y, true)
  | Einval => Ret (mkE (e_par s) (e_open s) 0 (skipn (Z.to_nat k) (e_buf s)) c (e_gas s), zlen y, y, false)
  | E2big => Ret (mkE (e_par s) (e_open s) (e_off s + k) (skipn (Z.to_nat k) (e_buf s)) c (e_gas s), space, y, false)
  | Done => Ret (mkE (e_par s) (e_open s) 0 [] c (e_gas s), zlen y, y, false)
  end.
(** encodinginputstream.cpp:133-164, inputstreamreader.cpp:121-151 *)
Definition e_fill (s : estate) (space : Z) : out (estate * Z * list A * bool) :=
  if e_open s && (e_off s =? 0) then
    let* (p, n, b) := o_read par (e_par s) 1 (CHARBUF - zlen (e_buf s)) in
    if n <? -1 then Ret (mkE p false (e_off s) (e_buf s) (e_conv s) (e_gas s), n, [], true)
    else if n <? 1 then Ret (mkE p false (e_off s) (e_buf s) (e_conv s) (e_gas s), -1, [], negb (zlen (e_buf s) =? 0))
    else if zlen (e_buf s) + n <=? CHARBUF then e_decode (mkE p true (e_off s) (e_buf s ++ b) (e_conv s) (pred (e_gas s))) space
    else UB (* the memmove writes behind charbuf *)
  else e_decode s space.
(** not code: bound for the rounds of bufferedstream.h:109-122 in which fillBuffer returns 0 (M_Buffered) *)
Definition e_mu (s : estate) : nat := S (2 * e_gas s + (if e_off s =? 0 then 0 else 1)).
(** encodinginputstream.h:30-47, inputstreamreader.h:39-66: the classes as BufferedStreams; the virtual functions of this class as a record, no code of its own *)
Definition e_src : source estate A := mkSource _ _ e_fill e_mu.
(** encodinginputstream.cpp:60-82, inputstreamreader.cpp:38-67; [known]: iconv_open has such a conversion; [c0]: the state of the new descriptor *)
Definition e_new (c0 : St) (known : bool) (p : P) (gas : nat) : bstream estate A :=
  let x := bs_new (mkE p true 0 [] c0 gas) in
  if known then x else mkBS (bs_buf x) (bs_fin x) (bs_src x) (bs_size x) (bs_pos x) Error.
End Encoding.
Arguments estate : clear implicits.
