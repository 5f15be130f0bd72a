(** Model of /repo/lib/dataeventinputstream.cpp and /repo/lib/signatureinputstream.cpp over an
    arbitrary input stream.  Error texts are not modelled. *)
From Verif Require Import Base StreamSpec M_Sub.

Section DataEvent.
Context {P A : Type}.
Variable par : ops P A.
(** The handler: after having been given the pieces [l] (in this order), handleData
    returns [want l].  Calls are recorded in the stream state. *)
Variable want : list (list A) -> bool.

(** dataeventinputstream.h:37-72: the calls of a handler, handleData(data, size) and handleEnd() *)
Inductive event := Data (d : list A) | End.
(** dataeventinputstream.h:98-117 and the members of StreamBase; [de_log] is the list of
    calls of the handler so far *)
Record des := mkDe { de_in : P; de_total : Z; de_fin : bool; de_pos : Z; de_size : Z; de_st : status; de_log : list event }.
(** not code: the data of the calls of handleData (dataeventinputstream.h:63) so far *)
Fixpoint pieces (l : list event) : list (list A) :=
  match l with [] => [] | Data d :: r => d :: pieces r | End :: r => pieces r end.

(** dataeventinputstream.cpp:28-35 *)
Definition de_new (p : P) : out des :=
  if o_pos par p =? 0 then Ret (mkDe p 0 false 0 (o_size par p) Ok []) else Abort.

(** dataeventinputstream.cpp:37-84; int32_t conversions of differences of positions are not
    modelled (they are bounded by the number of bytes read) *)
Definition de_read (s : des) (min max : Z) : out (des * Z * list A) :=
  let* (p, nread, d) := o_read par (de_in s) min max in
  if nread <? -1 then Ret (mkDe p (de_total s) (de_fin s) (de_pos s) (de_size s) Error (de_log s), -2, [])
  else
    let* (s, nread, d) :=
      (if 0 <? nread then
         let nread := if negb (de_size s =? -1) && (de_size s <? de_pos s + nread) then de_size s - de_pos s else nread in
         let pos := de_pos s + nread in
         if negb (de_total s =? -1) && (de_total s <? pos) then
           let amount := pos - de_total s in
           if nread <? amount then UB (* start + nread - amount lies in front of the data *)
           else
             let log := de_log s ++ [Data (slice d (nread - amount) amount)] in
             Ret (mkDe p (if want (pieces log) then pos else -1) (de_fin s) pos (de_size s) (de_st s) log, nread, slice d 0 nread)
         else Ret (mkDe p (de_total s) (de_fin s) pos (de_size s) (de_st s) (de_log s), nread, slice d 0 nread)
       else Ret (mkDe p (de_total s) (de_fin s) (de_pos s) (de_size s) (de_st s) (de_log s), nread, d)) in
    if nread <? min then
      let size := if de_size s =? -1 then de_pos s else de_size s in
      if negb (size =? de_pos s) then Abort
      else if negb ((de_total s =? -1) || (de_total s =? size)) then Abort
      else Ret (mkDe (de_in s) (de_total s) true (de_pos s) size Eof
                     (if de_fin s then de_log s else de_log s ++ [End]), nread, d)
    else Ret (s, nread, d).

(** dataeventinputstream.cpp:85-99 *)
Definition de_skip (s : des) (ntoskip : Z) : out (des * Z) :=
  if de_total s =? -1 then
    let* (p, skipped) := o_skip par (de_in s) ntoskip in
    Ret (mkDe p (de_total s) (de_fin s) (o_pos par p) (o_size par p) (o_status par p) (de_log s), skipped)
  else default_skip de_read s ntoskip.

(** dataeventinputstream.cpp:100-121 *)
Definition de_reset (s : des) (np : Z) : out (des * Z) :=
  if de_pos s <? np then
    let* (s, _) := de_skip s (np - de_pos s) in Ret (s, de_pos s)
  else
    let* (p, newpos) := o_reset par (de_in s) np in
    Ret (mkDe p (de_total s) (de_fin s) newpos (de_size s)
           (if newpos <? 0 then Error else if newpos =? de_size s then Eof else Ok) (de_log s), newpos).

(** dataeventinputstream.h:94-119: the virtual functions of this class as a record, no code of its own *)
Definition de_ops : ops des A := mkOps _ _ de_read de_skip de_reset de_pos de_size de_st.
End DataEvent.
Arguments des : clear implicits. Arguments event : clear implicits.

(** ** signatureinputstream.cpp:45-79; the signature itself is never computed (always "") *)
Section Signature.
Context {P A : Type}.
Variable par : ops P A.
(** signatureinputstream.h:35-66 and the members of StreamBase *)
Record sigs := mkSig { sg_in : P; sg_pos : Z; sg_size : Z; sg_st : status }.
(** signatureinputstream.cpp:45-48 and the defaults of StreamBase (streambase.h:66) *)
Definition sig_new (p : P) : sigs := mkSig p 0 (o_size par p) Ok.
(** signatureinputstream.cpp:52-59 *)
Definition sig_read (s : sigs) (min max : Z) : out (sigs * Z * list A) :=
  let* (p, r, d) := o_read par (sg_in s) min max in
  Ret (mkSig p (o_pos par p) (o_size par p) (o_status par p), r, d).
(** signatureinputstream.cpp:60-67 *)
Definition sig_reset (s : sigs) (np : Z) : out (sigs * Z) :=
  let* (p, r) := o_reset par (sg_in s) np in Ret (mkSig p (o_pos par p) (o_size par p) (o_status par p), r).
(** signatureinputstream.cpp:68-75 *)
Definition sig_skip (s : sigs) (n : Z) : out (sigs * Z) :=
  let* (p, r) := o_skip par (sg_in s) n in Ret (mkSig p (o_pos par p) (o_size par p) (o_status par p), r).
(** signatureinputstream.h:35-66: the virtual functions of this class as a record, no code of its own *)
Definition sig_ops : ops sigs A := mkOps _ _ sig_read sig_skip sig_reset sg_pos sg_size sg_st.
End Signature.
Arguments sigs : clear implicits.
