(** Model of /repo/lib/processinputstream.cpp with an input stream.  The child and the pipes are
    parameters: what the child writes is determined by the bytes it got and by whether its standard
    input was closed; how much write() accepts and read() returns is up to an oracle. *)
From Verif Require Import Base StreamSpec M_Buffered.

(** not code: the child process (see the comment above; processinputstream.cpp:121-190 starts it) *)
Record child := mkChild {
  (** everything the child writes, given the bytes it got and whether standard input is closed *)
  ch_out : list Z -> bool -> list Z;
  (** it exits without waiting for the end of its input *)
  ch_exits : list Z -> bool }.
(** not code: the two pipes (pipe(2), read(2), write(2), used by processinputstream.cpp:76-120) *)
Record pipes := mkPipes {
  (** write(fdin, b, n) after [k] bytes were accepted: the number of bytes accepted, or negative *)
  pp_write : Z -> Z -> Z;
  (** read(fdout, start, space) after [k] bytes were read and with n > 0 bytes available: wish for the number of bytes *)
  pp_read : Z -> Z -> Z }.

Section Process.
Context {P : Type}.
Variable par : ops P Z.
Variables (ch : child) (pp : pipes).

(** processinputstream.h:30-34; [pr_in] is [input], [pr_fdin] and [pr_fdout] tell whether the
    descriptors are open; [pr_fed] and [pr_got]: what the child was given, and how much was read of its output *)
Record proc := mkProc { pr_in : option P; pr_fdin : bool; pr_fdout : bool; pr_fed : list Z; pr_got : Z }.

(** processinputstream.cpp:75-102 writeToPipe; true: m_status = Error.  A write
    accepts at most [n] bytes. *)
Definition writeToPipe (s : proc) (p : P) : out (proc * bool) :=
  let pos := o_pos par p in
  let* (p, n, b) := o_read par p 1 0 in
  if (n <=? 0) || is_eof (o_status par p) then
    Ret (mkProc None false (pr_fdout s) (pr_fed s) (pr_got s), is_error (o_status par p))
  else
    let m := Z.min (pp_write pp (zlen (pr_fed s)) n) n in
    if m <? 0 then Ret (mkProc None (pr_fdin s) (pr_fdout s) (pr_fed s) (pr_got s), true)
    else
      let* p := (if m =? n then Ret p else let* (p, _) := o_reset par p (pos + n) in Ret p) in
      Ret (mkProc (Some p) (pr_fdin s) (pr_fdout s) (pr_fed s ++ slice b 0 m) (pr_got s), false).

(** read(fdout, start, space): blocks for ever if the child waits for input while nobody writes *)
Definition readOut (s : proc) (space : Z) : out (proc * Z * list Z) :=
  let avail := skipn (Z.to_nat (pr_got s)) (ch_out ch (pr_fed s) (negb (pr_fdin s))) in
  match avail with
  | [] => if pr_fdin s && negb (ch_exits ch (pr_fed s)) then Hang else Ret (s, 0, [])
  | _ => let k := Z.max 1 (Z.min (pp_read pp (pr_got s) (zlen avail)) (Z.min space (zlen avail))) in
         Ret (mkProc (pr_in s) (pr_fdin s) (pr_fdout s) (pr_fed s) (pr_got s + k), k, slice avail 0 k)
  end.
(** processinputstream.cpp:103-120; read() is assumed not to fail *)
Definition proc_fill (s : proc) (space : Z) : out (proc * Z * list Z * bool) :=
  if negb (pr_fdout s) then Ret (s, -1, [], false)
  else
    let* (s, err) := match pr_in s with
                     | Some p => match o_status par p with
                                 | Ok => writeToPipe s p
                                 | _ => Ret (s, false)
                                 end
                     | None => Ret (s, false)
                     end in
    let* (s, n, d) := readOut s space in
    if n <=? 0 then Ret (mkProc (pr_in s) (pr_fdin s) false (pr_fed s) (pr_got s), n, d, err)
    else Ret (s, n, d, err).
(** processinputstream.h:29-46: ProcessInputStream as a BufferedStream; the virtual functions of this class as a record, no code of its own *)
Definition proc_src : source proc Z := mkSource _ _ proc_fill (fun s => if pr_fdout s then 1%nat else 0%nat).
(** processinputstream.cpp:37-56,154-190: pipes and process were created *)
Definition proc_new (p : P) : bstream proc Z := bs_new (mkProc (Some p) true true [] 0).
(** calling fillBuffer repeatedly *)
Fixpoint proc_fills (s : proc) (l : list Z) : out proc :=
  match l with
  | [] => Ret s
  | sp :: l => let* (s, _, _, _) := proc_fill s sp in proc_fills s l
  end.
End Process.
Arguments proc : clear implicits.
