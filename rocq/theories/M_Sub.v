(** Model of /repo/lib/subinputstream.cpp (SubInputStream) over an arbitrary
    parent stream, and of the inherited StreamBase::skip
    (/repo/include/strigi/streambase.h:202-227). *)
From Verif Require Import Base StreamSpec.

Section DefaultSkip.
Context {St A : Type}.
Variable read : St -> Z -> Z -> out (St * Z * list A).

(** streambase.h:204-227.  Each round that continues shortens [ntoskip], so
    |ntoskip| rounds of fuel suffice. *)
Fixpoint default_skip_loop (fuel : nat) (s : St) (ntoskip skipped : Z) : out (St * Z) :=
  if ntoskip <=? 0 then Ret (s, skipped)
  else match fuel with
  | O => Hang
  | S f =>
      let maxstep := if 10000000 <? ntoskip then 10000000 else ntoskip in
      let* (s', nread, _) := read s 1 maxstep in
      if nread <? -1 then Ret (s', nread)
      else if nread <? 1 then Ret (s', skipped)
      else default_skip_loop f s' (ntoskip - nread) (skipped + nread)
  end.
(** streambase.h:202-227 *)
Definition default_skip (s : St) (ntoskip : Z) : out (St * Z) :=
  default_skip_loop (Z.to_nat ntoskip) s ntoskip 0.
End DefaultSkip.

Section Sub.
Context {P A : Type}.
Variable par : ops P A.

(** subinputstream.h:44-45 and streambase.h:54-64; error texts not modelled *)
Record sub := mkSub { su_par : P; su_off : Z; su_size : Z; su_pos : Z; su_st : status }.

(** subinputstream.cpp:28-33 *)
Definition sub_new (p : P) (length : Z) : out sub :=
  if length <? -1 then Abort else Ret (mkSub p (o_pos par p) length 0 Ok).

(** subinputstream.cpp:48-77, after the clamping of the arguments *)
Definition sub_read_body (s : sub) (min max : Z) : out (sub * Z * list A) :=
  let* (p, nread, d) := o_read par (su_par s) min max in
  if negb ((max <? min) || (nread <=? max)) then Abort
  else if nread <? -1 then Ret (mkSub p (su_off s) (su_size s) (su_pos s) Error, nread, [])
  else if nread <? min then
    if su_size s =? -1 then
      if 0 <? nread then Ret (mkSub p (su_off s) (su_pos s + nread) (su_pos s + nread) Eof, nread, d)
      else Ret (mkSub p (su_off s) (su_size s) (su_pos s) Eof, nread, d)
    else Ret (mkSub p (su_off s) (su_size s) (su_pos s) Error, -2, [])
  else
    let pos := su_pos s + nread in
    Ret (mkSub p (su_off s) (su_size s) pos (if pos =? su_size s then Eof else su_st s), nread, d).

(** subinputstream.cpp:34-77 *)
Definition sub_read (s : sub) (min max : Z) : out (sub * Z * list A) :=
  if su_size s =? -1 then sub_read_body s min max
  else
    let left := su_size s - su_pos s in
    if left =? 0 then Ret (mkSub (su_par s) (su_off s) (su_size s) (su_pos s) Eof, -1, [])
    else
      let min := if left <? min then wrap32 left else min in
      let max := if (max <? min) || (left <? max) then wrap32 left else max in
      sub_read_body s min max.

(** subinputstream.cpp:78-94 *)
Definition sub_reset (s : sub) (newpos : Z) : out (sub * Z) :=
  if newpos <? 0 then Abort
  else
    let* (p, r) := o_reset par (su_par s) (newpos + su_off s) in
    if r <? su_off s then Ret (mkSub p (su_off s) (su_size s) r Error, r)
    else Ret (mkSub p (su_off s) (su_size s) (r - su_off s) (o_status par p), r - su_off s).

(** subinputstream.cpp:95-125 *)
Definition sub_skip (s : sub) (ntoskip : Z) : out (sub * Z) :=
  if su_size s =? su_pos s then Ret (mkSub (su_par s) (su_off s) (su_size s) (su_pos s) Eof, -1)
  else if ntoskip =? 0 then Ret (s, 0)
  else
    let left := su_size s - su_pos s in
    let ntoskip := if negb (su_size s =? -1) && (left <? ntoskip) then left else ntoskip in
    let* (p, skipped) := o_skip par (su_par s) ntoskip in
    if is_error (o_status par p)
    then Ret (mkSub p (su_off s) (su_size s) (su_pos s) Error, skipped)
    else
      let pos := su_pos s + skipped in
      if pos =? su_size s then Ret (mkSub p (su_off s) (su_size s) pos Eof, skipped)
      else if skipped <=? 0 then Ret (mkSub p (su_off s) (su_size s) pos Error, -2)
      else Ret (mkSub p (su_off s) (su_size s) pos (su_st s), skipped).

(** subinputstream.h:42-66: the virtual functions of this class as a record, no code of its own *)
Definition sub_ops : ops sub A :=
  mkOps _ _ sub_read sub_skip sub_reset su_pos su_size su_st.
End Sub.
Arguments sub : clear implicits.
