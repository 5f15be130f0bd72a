(** Model of /repo/include/strigi/stringstream.h (StringStream<T>). *)
From Verif Require Import Base StreamSpec.

Section StringStream.
Context {A : Type}.

(** stringstream.h:40-42 and streambase.h:54-64.  [ss_data] is the array behind
    [data]; the terminating 0 cell appended at line 93 is never handed out and not
    kept; [markpt] is never used; error texts are not modelled. *)
Record sstream := mkSS { ss_data : list A; ss_size : Z; ss_pos : Z; ss_st : status }.

(** stringstream.h:80-98, [length >= 0]: the first [length] items of [value];
    reading outside of [value] is undefined behaviour. *)
Definition ss_new_len (value : list A) (length : Z) : out sstream :=
  if (0 <=? length) && (length <=? zlen value)
  then Ret (mkSS (slice value 0 length) length 0 Ok)
  else UB.
(** stringstream.h:82-87: [length < 0], the length is that of the zero terminated
    string; [is0] tells whether an item equals '\0'. *)
Fixpoint strlen (is0 : A -> bool) (value : list A) : out Z :=
  match value with
  | [] => UB
  | x :: v => if is0 x then Ret 0 else let* n := strlen is0 v in Ret (1 + n)
  end.
(** stringstream.h:80-98: constructor *)
Definition ss_new (is0 : A -> bool) (value : list A) (length : Z) : out sstream :=
  if length <? 0
  then let* n := strlen is0 value in let* n := chk32 n in ss_new_len value n
  else ss_new_len value length.

(** stringstream.h:107-121.  [data + m_position] must stay inside the array. *)
Definition ss_read (s : sstream) (min max : Z) : out (sstream * Z * list A) :=
  let left := ss_size s - ss_pos s in
  if left =? 0 then Ret (mkSS (ss_data s) (ss_size s) (ss_pos s) Eof, -1, [])
  else
    (* line 113 only changes [min], which is not used afterwards *)
    let nread := if (left <? max) || (max <? 1) then wrap32 left else max in
    if (0 <=? ss_pos s) && (0 <=? nread) && (ss_pos s + nread <=? zlen (ss_data s)) then
      let pos := ss_pos s + nread in
      Ret (mkSS (ss_data s) (ss_size s) pos (if pos =? ss_size s then Eof else ss_st s),
           nread, slice (ss_data s) (ss_pos s) nread)
    else UB.

(** stringstream.h:124-128 *)
Definition ss_skip (s : sstream) (ntoskip : Z) : out (sstream * Z) :=
  if ntoskip =? 0 then Ret (s, 0)
  else let* (s', n, _) := ss_read s (wrap32 ntoskip) (wrap32 ntoskip) in Ret (s', n).

(** stringstream.h:131-143 *)
Definition ss_reset (s : sstream) (newpos : Z) : out (sstream * Z) :=
  let s' :=
    if newpos <? 0 then mkSS (ss_data s) (ss_size s) 0 Ok
    else if newpos <? ss_size s then mkSS (ss_data s) (ss_size s) newpos Ok
    else mkSS (ss_data s) (ss_size s) (ss_size s) Eof in
  Ret (s', ss_pos s').

(** stringstream.h:38-71: the virtual functions of this class as a record, no code of its own *)
Definition ss_ops : ops sstream A :=
  mkOps _ _ ss_read ss_skip ss_reset ss_pos ss_size ss_st.
End StringStream.
Arguments sstream : clear implicits.
