(** LZMAInputStream with the bundled decoder: M_Lzma.v and M_LzmaDec.v together. *)
From Verif Require Import Base StreamSpec M_Buffered M_Lzma M_LzmaDec.

(** lzmainputstream.cpp:144-145 the call of LzmaDec_DecodeToBuf in fillBuffer.  The last case does not happen: C50, C50_call_returns. *)
Definition lz_step (p : dec) (w : list Z) (space : Z) (fin : bool) : dec * Z * list Z * lcode :=
  match DecodeToBuf p space w fin with
  | Ret (p', n, y, ok, st) => (p', n, y, if ok then LOk (match st with SFinishedWithMark => true | _ => false end) else LBad)
  | _ => (p, 0, [], LBad)
  end.
(** lzmainputstream.cpp:70-101: LzmaDec_Construct, LzmaDec_Allocate, LzmaDec_Init *)
Definition lz_real (pr : props) : lzcodec dec := mkLzcodec _ (decoder pr) lz_step.
(** the stream; the properties of the decoder are those in the header (here: one more look at the same bytes, the
    constructor reads them once) *)
Definition lz_props (nread : Z) (b : list Z) : out props :=
  let* pr := if nread =? 13 then Props_Decode b else Ret None in
  Ret (match pr with Some pr => pr | None => mkProps 3 0 2 4096 end).
(** lzmainputstream.cpp:64-99: constructor, with the bundled decoder *)
Definition lzma_new {P} (par : ops P Z) (bufsize : Z) (alloc_ok : bool) (p : P) (gas : nat) : out (bstream (lstate dec P) Z) :=
  let* (_, nread, b) := o_read par p 13 13 in
  let* pr := lz_props nread b in
  l_new (lz_real pr) par bufsize alloc_ok p gas.
(** lzmainputstream.h:27-36, bufferedstream.h:37-89: the virtual functions of this class as a record, no code of its own *)
Definition lzma_ops {P} (par : ops P Z) : ops (bstream (lstate dec P) Z) Z := l_ops (lz_real (mkProps 3 0 2 4096)) par.
