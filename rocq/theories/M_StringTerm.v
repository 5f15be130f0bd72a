(** Model of /repo/lib/stringterminatedsubstream.cpp over an arbitrary parent stream of bytes. *)
From Verif Require Import Base StreamSpec M_Sub M_Kmp.

Section StringTerm.
Context {P : Type}.
Variable par : ops P Z.
(** stringterminatedsubstream.cpp:32-43 and the members of StreamBase *)
Record sts := mkSts { t_in : P; t_key : searcher; t_off : Z; t_far : Z; t_pos : Z; t_size : Z; t_st : status }.
(** stringterminatedsubstream.cpp:39-42, 45-47 *)
Definition st_new (p : P) (terminator : list Z) : out sts :=
  let* k := setQuery kmp_null terminator in
  Ret (mkSts p k (o_pos par p) 0 0 (-1) Ok).

(** stringterminatedsubstream.cpp:55-136 *)
Definition st_read (s : sts) (min max : Z) : out (sts * Z * list Z) :=
  match t_st s with
  | Eof => Ret (s, -1, [])
  | Error => Ret (s, -2, [])
  | Ok =>
      let pos := o_pos par (t_in s) in
      let known := wrap32 (t_far s - pos) in
      if min <=? known then
        let max := if (max <=? 0) || (known <? max) then known else max in
        let* (p, nread, d) := o_read par (t_in s) min max in
        if nread <? -1 then Abort
        else if 0 <? nread then
          let q := t_pos s + nread in
          Ret (mkSts p (t_key s) (t_off s) (t_far s) q (t_size s) (if q =? t_size s then Eof else Ok), nread, d)
        else Ret (mkSts p (t_key s) (t_off s) (t_far s) (t_pos s) (t_size s) Ok, nread, d)
      else
        let tl := k_len (t_key s) in
        let* tlmin := chk32 (if min =? 0 then 1 + tl else min + tl) in
        let tlmax := if (0 <? max) && (max <? tlmin) then tlmin else max in
        let* (p, nread, d) := o_read par (t_in s) tlmin tlmax in
        if nread =? -1 then Ret (mkSts p (t_key s) (t_off s) (t_far s) (t_pos s) (t_size s) Eof, nread, d)
        else if nread <? -1 then Ret (mkSts p (t_key s) (t_off s) (t_far s) (t_pos s) (t_size s) Error, nread, d)
        else
          let* e := search (t_key s) (slice d 0 nread) in
          let* (p, nread, far, st) :=
            match e with
            | Some j =>
                let* (p, _) := o_reset par p (pos + j + tl) in Ret (p, j, t_far s, Eof)
            | None =>
                if tlmin <=? nread then
                  let* (p, _) := o_reset par p (pos + (nread - tl)) in Ret (p, nread - tl, pos + (nread - tl), Ok)
                else if negb (max =? 0) && (max <? nread) then
                  let* (p, _) := o_reset par p (pos + max) in Ret (p, max, pos + nread, Ok)
                else Ret (p, nread, t_far s, Eof)
            end in
          let q := if 0 <? nread then t_pos s + nread else t_pos s in
          Ret (mkSts p (t_key s) (t_off s) far q (match st with Eof => q | _ => t_size s end) st, nread, slice d 0 nread)
  end.
(** stringterminatedsubstream.cpp:137-148 *)
Definition st_reset (s : sts) (newpos : Z) : out (sts * Z) :=
  let* (p, r) := o_reset par (t_in s) (newpos + t_off s) in
  if t_off s <=? r then
    let q := r - t_off s in
    Ret (mkSts p (t_key s) (t_off s) (t_far s) q (t_size s) (if q =? t_size s then t_st s else Ok), q)
  else Ret (mkSts p (t_key s) (t_off s) (t_far s) (-1) (t_size s) Error, -1).
(** streambase.h:202-227, inherited *)
Definition st_skip (s : sts) (n : Z) : out (sts * Z) := default_skip st_read s n.
(** stringterminatedsubstream.h:35-70: the virtual functions of this class as a record, no code of its own *)
Definition st_ops : ops sts Z := mkOps _ _ st_read st_skip st_reset t_pos t_size t_st.
End StringTerm.
Arguments sts : clear implicits.
