(** Model of /repo/lib/base64inputstream.cpp with its static tables as memory that several threads share.
    M_Base64.v takes the tables for filled; here [initialize] is a part of the program, and
    every access to a static variable is one step, between which other threads may run.
    The steps are interleaved (sequential consistency).  What C++ leaves undefined beyond that, two threads accessing a variable at the same
    time, one of them writing, is the predicate [racing]. *)
From Verif Require Import Base StreamSpec M_Base64.

(** the static variables, base64inputstream.cpp:48-51: initializedAlphabet, inalphabet[c], decoder[c] *)
Inductive loc := LInit | LIna (c : Z) | LDec (c : Z).
(** their values (bool as 0, 1) *)
Record mem := mkMem { m_init : Z; m_ina : list Z; m_dec : list Z }.
(** base64inputstream.cpp:49-51: static variables start as 0 *)
Definition mem0 : mem := mkMem 0 (repeat 0 256) (repeat 0 133).
(** not code: reading a variable; [None]: outside of the array *)
Definition mget (m : mem) (l : loc) : option Z :=
  match l with LInit => Some (m_init m) | LIna c => zget (m_ina m) c | LDec c => zget (m_dec m) c end.
(** not code: writing a variable; [None]: outside of the array *)
Definition mset (m : mem) (l : loc) (v : Z) : option mem :=
  match l with
  | LInit => Some (mkMem v (m_ina m) (m_dec m))
  | LIna c => match zget (m_ina m) c with Some _ => Some (mkMem (m_init m) (splice (m_ina m) c [v]) (m_dec m)) | None => None end
  | LDec c => match zget (m_dec m) c with Some _ => Some (mkMem (m_init m) (m_ina m) (splice (m_dec m) c [v])) | None => None end
  end.

(** not code: what a thread still has to do, up to its next access to a static variable; [Done]: the outcome *)
Inductive prog (R : Type) := Done (r : out R) | Rd (l : loc) (k : Z -> prog R) | Wr (l : loc) (v : Z) (k : prog R).
Arguments Done {R}. Arguments Rd {R}. Arguments Wr {R}.
(** not code: one thing after the other *)
Fixpoint pbind {R S} (p : prog R) (f : R -> prog S) : prog S :=
  match p with
  | Done (Ret r) => f r
  | Done UB => Done UB | Done Abort => Done Abort | Done Hang => Done Hang
  | Rd l k => Rd l (fun v => pbind (k v) f)
  | Wr l v k => Wr l v (pbind k f)
  end.
Notation "'let!' x := p 'in' q" := (pbind p (fun x => q)) (at level 200, x pattern, right associativity).

(** base64inputstream.cpp:66-69: the second loop of initialize *)
Fixpoint fillP (i : Z) (l : list Z) : prog unit :=
  match l with [] => Done (Ret tt) | c :: r => Wr (LIna c) 1 (Wr (LDec c) i (fillP (i + 1) r)) end.
(** base64inputstream.cpp:63-65: the first loop of initialize, for [n] values from [i] on *)
Fixpoint clearP (n : nat) (i : Z) : prog unit :=
  match n with O => Done (Ret tt) | S n => Wr (LIna i) 0 (clearP n (i + 1)) end.
(** base64inputstream.cpp:57-71 initialize *)
Definition initP : prog unit :=
  Rd LInit (fun b => if b =? 0 then Wr LInit 1 (let! _ := clearP 192 64 in fillP 0 alphabet) else Done (Ret tt)).
(** base64inputstream.cpp:49: inalphabet[c] *)
Definition inaP (c : Z) : prog bool := Rd (LIna c) (fun v => Done (Ret (negb (v =? 0)))).
(** base64inputstream.cpp:50: decoder[c] *)
Definition decP (c : Z) : prog Z := Rd (LDec c) (fun v => Done (Ret v)).
(** base64inputstream.cpp:201-213; as [dec_words] of M_Base64.v *)
Fixpoint dec_wordsP (n : nat) (l : list Z) (c : Z) (d : list Z) : prog (option (list Z)) :=
  match n with
  | O => Done (Ret (Some d))
  | S m =>
      let! c0 := Done (inb l c) in let! i0 := inaP c0 in if negb i0 then Done (Ret None) else
      let! c1 := Done (inb l (c + 1)) in let! i1 := inaP c1 in if negb i1 then Done (Ret None) else
      let! c2 := Done (inb l (c + 2)) in let! i2 := inaP c2 in if negb i2 then Done (Ret None) else
      let! c3 := Done (inb l (c + 3)) in let! i3 := inaP c3 in if negb i3 then Done (Ret None) else
      let! k := decP c1 in
      let! l2 := decP c2 in
      let! v0 := decP c0 in
      let! v3 := decP c3 in
      dec_wordsP m l (c + 4)
        (d ++ [(Z.shiftl v0 2 + Z.shiftr k 4) mod 256; (Z.shiftl k 4 + Z.shiftr l2 2) mod 256;
               (Z.shiftl l2 6 + v3) mod 256])
  end.
(** base64inputstream.cpp:186-230 decode *)
Definition decodeP (l : list Z) : prog (list Z) :=
  let length := zlen l in
  let! _ := initP in
  if negb (length mod 4 =? 0) then Done (Ret [])
  else
    let! _ := initP in
    let! last := Done (inb l (length - 1)) in
    let words := if last =? 61 then length / 4 - 1 else length / 4 in
    let c := 4 * words in
    let! d := dec_wordsP (Z.to_nat words) l 0 [] in
    match d with
    | None => Done (Ret [])
    | Some d =>
        let! last2 := Done (inb l (length - 2)) in
        if last2 =? 61 then
          let! c0 := Done (inb l c) in let! i0 := inaP c0 in if negb i0 then Done (Ret []) else
          let! c1 := Done (inb l (c + 1)) in let! i1 := inaP c1 in if negb i1 then Done (Ret []) else
          let! v0 := decP c0 in let! v1 := decP c1 in
          Done (Ret (d ++ [(Z.shiftl v0 2 + Z.shiftr v1 4) mod 256]))
        else if last =? 61 then
          let! c0 := Done (inb l c) in let! i0 := inaP c0 in if negb i0 then Done (Ret []) else
          let! c1 := Done (inb l (c + 1)) in let! i1 := inaP c1 in if negb i1 then Done (Ret []) else
          let! c2 := Done (inb l (c + 2)) in let! i2 := inaP c2 in if negb i2 then Done (Ret []) else
          let! k := decP c1 in let! v0 := decP c0 in let! v2 := decP c2 in
          Done (Ret (d ++ [(Z.shiftl v0 2 + Z.shiftr k 4) mod 256; (Z.shiftl k 4 + Z.shiftr v2 2) mod 256]))
        else Done (Ret d)
    end.

Section Stream.
Context {P : Type}.
Variable par : ops P Z.
Variable fuel : nat.
(** base64inputstream.cpp:132-178; as [b64_loop] of M_Base64.v.  The input belongs to the thread: its calls are no steps. *)
Fixpoint loopP (fuel : nat) (q : b64 P) (space : Z) (d : list Z) (nw : Z) : prog (b64 P * list Z * Z * bool) :=
  match fuel with
  | O => Done Hang
  | S f =>
      let! (q, more, err) := Done (moreData par q) in
      if negb more then Done (Ret (q, d, nw, err))
      else match q_win q with
      | [] => Done UB
      | c :: win =>
          let bits := q_bits q in
          let cc := q_cc q in
          if c =? 61 then
            let '(todo, bits) := if cc =? 2 then (1, Z.shiftr bits 10)
                                 else if cc =? 3 then (2, Z.shiftr bits 8) else (q_todo q, bits) in
            Done (Ret (mkQ (inr (q_par q)) [] bits todo cc, d, nw, err))
          else
            let! ok := inaP c in
            if negb ok then loopP f (mkQ (q_in q) win bits (q_todo q) cc) space d nw
            else
              let! v := decP c in
              let! bits := Done (chk32 (bits + v)) in
              let cc := cc + 1 in
              if cc =? 4 then
                if space <=? zlen d then Done (Ret (mkQ (q_in q) win bits 3 cc, d, nw, err))
                else
                  let d := d ++ [Z.shiftr bits 16 mod 256] in
                  if space <=? zlen d then Done (Ret (mkQ (q_in q) win bits 2 cc, d, nw + 1, err))
                  else
                    let d := d ++ [Z.land (Z.shiftr bits 8) 255] in
                    if space <=? zlen d then Done (Ret (mkQ (q_in q) win bits 1 cc, d, nw + 2, err))
                    else
                      let d := d ++ [Z.land bits 255] in
                      loopP f (mkQ (q_in q) win 0 (q_todo q) 0) space d (nw + 3)
              else
                let! bits := Done (chk32 (Z.shiftl bits 6)) in
                loopP f (mkQ (q_in q) win bits (q_todo q) cc) space d nw
      end
  end.
(** base64inputstream.cpp:111-184 fillBuffer; as [b64_fill] of M_Base64.v *)
Definition fill64P (q : b64 P) (space : Z) : prog (b64 P * Z * list Z * bool) :=
  if q_null q && (q_todo q =? 0) then Done (Ret (q, -1, [], false))
  else if negb (q_todo q =? 0) then
    if q_todo q =? 3 then Done (Ret (mkQ (q_in q) (q_win q) (q_bits q) 2 (q_cc q), 1, [Z.shiftr (q_bits q) 16 mod 256], false))
    else if q_todo q =? 2 then Done (Ret (mkQ (q_in q) (q_win q) (q_bits q) 1 (q_cc q), 1, [Z.land (Z.shiftr (q_bits q) 8) 255], false))
    else if q_todo q =? 1 then Done (Ret (mkQ (q_in q) (q_win q) 0 0 0, 1, [Z.land (q_bits q) 255], false))
    else Done UB
  else
    let! (q', d, nw, err) := loopP fuel q space [] 0 in
    if (nw =? 0) && q_null q' && (q_todo q' =? 0)
    then Done (Ret (q', -1, d, err)) else Done (Ret (q', nw, d, err)).
(** not code: fillBuffer is called with the spaces [l]; the result: what the calls return *)
Fixpoint fillsP (q : b64 P) (l : list Z) : prog (list (Z * list Z * bool)) :=
  match l with
  | [] => Done (Ret [])
  | s :: l => let! (q, n, d, e) := fill64P q s in let! r := fillsP q l in Done (Ret ((n, d, e) :: r))
  end.
(** base64inputstream.cpp:73-88: the constructor and such calls *)
Definition streamP (p : P) (l : list Z) : prog (list (Z * list Z * bool)) := let! _ := initP in fillsP (b64_new p) l.
(** not code: the same with M_Base64.v, for one stream alone in a program *)
Fixpoint fills (q : b64 P) (l : list Z) : out (list (Z * list Z * bool)) :=
  match l with
  | [] => Ret []
  | s :: l => let* (q, n, d, e) := b64_fill par fuel q s in let* r := fills q l in Ret ((n, d, e) :: r)
  end.
End Stream.

(** not code: what a thread does: it decodes a text (Base64InputStream::decode), or makes a stream and reads it with calls of fillBuffer *)
Inductive job : Type :=
| JText (l : list Z)
| JStream (P : Type) (par : ops P Z) (fuel : nat) (p : P) (l : list Z).
(** not code: what it finds *)
Definition answer : Type := (list Z + list (Z * list Z * bool))%type.
(** not code: the program of such a thread *)
Definition job_prog (j : job) : prog answer :=
  match j with
  | JText l => let! d := decodeP l in Done (Ret (inl d))
  | JStream P par fuel p l => let! d := streamP par fuel p l in Done (Ret (inr d))
  end.
(** not code: what it finds if nothing else is running, by M_Base64.v *)
Definition job_alone (j : job) : out answer :=
  match j with
  | JText l => let* d := b64_decode l in Ret (inl d)
  | JStream P par fuel p l => let* d := fills par fuel (b64_new p) l in Ret (inr d)
  end.

(** ** Threads.  Not code: the interleavings of the steps of several threads *)
(** not code: one step of a thread *)
Definition pstep {R} (m : mem) (p : prog R) : mem * prog R :=
  match p with
  | Done r => (m, Done r)
  | Rd l k => match mget m l with Some v => (m, k v) | None => (m, Done UB) end
  | Wr l v k => match mset m l v with Some m' => (m', k) | None => (m, Done UB) end
  end.
(** not code: assignment to a list element *)
Fixpoint set_at {X} (l : list X) (i : nat) (x : X) : list X :=
  match l, i with [], _ => [] | _ :: r, O => x :: r | y :: r, S j => y :: set_at r j x end.
(** not code: the [i]-th thread makes a step *)
Definition tstep {R} (s : mem * list (prog R)) (i : nat) : mem * list (prog R) :=
  match nth_error (snd s) i with
  | Some p => let (m, p') := pstep (fst s) p in (m, set_at (snd s) i p')
  | None => s
  end.
(** not code: the threads run; [sched]: which of them makes the next step *)
Definition trun {R} (s : mem * list (prog R)) (sched : list nat) : mem * list (prog R) := fold_left tstep sched s.
(** not code: the variable that a thread accesses next, and whether it writes *)
Definition next_access {R} (p : prog R) : option (loc * bool) :=
  match p with Done _ => None | Rd l _ => Some (l, false) | Wr l _ _ => Some (l, true) end.
(** C++: a data race, which has undefined behaviour *)
Definition racing {R} (ps : list (prog R)) : Prop :=
  exists i j p q l w w', i <> j /\ nth_error ps i = Some p /\ nth_error ps j = Some q /\
    next_access p = Some (l, w) /\ next_access q = Some (l, w') /\ (w = true \/ w' = true).
