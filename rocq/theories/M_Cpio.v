(** Model of /repo/lib/cpioinputstream.cpp over an arbitrary input stream. *)
From Verif Require Import Base StreamSpec M_Sub ArchiveSpec M_Ar.

(** a char, which is signed on x86 *)
Definition schar (c : Z) : Z := if c <? 128 then c else c - 256.
(** cpioinputstream.cpp:134-150.  The shift wraps, as compiled code does (shifting out of the sign
    bit is not defined before C++20); the addition must not overflow. *)
Fixpoint readHex (val : Z) (l : list Z) : out Z :=
  match l with
  | [] => Ret val
  | c :: l' =>
      let v := wrap32 (val * 16) in
      let c := schar c in
      let* v := chk32 (v + (if 70 <? c then c - 87 else if 57 <? c then c - 55 else c - 48)) in
      readHex v l'
  end.
(** cpioinputstream.cpp:126-127: the name ends at the NUL or at [n] bytes; [l] is what may be read *)
Fixpoint upto_nul (l : list Z) (n : nat) : out (list Z) :=
  match n with
  | O => Ret []
  | S n' => match l with
            | [] => UB
            | c :: l' => if c =? 0 then Ret [] else let* r := upto_nul l' n' in Ret (c :: r)
            end
  end.
(** (char)(x % 4), completed to a multiple of 4 (108-110) *)
Definition pad4 (x : Z) : Z := let r := Z.rem x 4 in if r =? 0 then 0 else 4 - r.

(** cpioinputstream.cpp:30: the magic bytes "070701" *)
Definition cpio_magic : list Z := [48;55;48;55;48;49].
(** cpioinputstream.cpp:32-38 *)
Definition cpio_checkHeader (d : list Z) : bool := if zlen d <? 6 then false else list_eqb (slice d 0 6) cpio_magic.
(** cpioinputstream.cpp:130: the name "TRAILER!!!" *)
Definition trailer : list Z := [84;82;65;73;76;69;82;33;33;33].

Section Cpio.
Context {P : Type}.
Variable par : ops P Z.

(** substreamprovider.h:70-81, cpioinputstream.h [padding] *)
Record cpio := mkCpio { c_cur : P + sub P; c_pad : Z; c_st : status; c_info : info }.
(** cpioinputstream.cpp:39-42; [padding] is uninitialised but not used before the first header *)
Definition cpio_new (p : P) : cpio := mkCpio (inl p) 0 Ok (mkInfo [] (-1) 0 2).

(** cpioinputstream.cpp:70-133 *)
Definition cpio_header (p : P) (inf : info) (pad : Z) : out (P * info * Z * status) :=
  let* (p, nread, b) := o_read par p 110 110 in
  if negb (nread =? 110) then Ret (p, inf, pad, o_status par p)
  else if negb (110 <=? zlen b) then UB
  else if negb (list_eqb (slice b 0 6) cpio_magic) then Ret (p, inf, pad, Error)
  else
    let* size := readHex 0 (slice b 54 8) in
    let* mtime := readHex 0 (slice b 46 8) in
    let* fns := readHex 0 (slice b 94 8) in
    let inf := mkInfo (i_name inf) size mtime (i_type inf) in
    let* f2 := chk32 (fns + 2) in
    let pad := pad4 size in
    let* toread := chk32 (fns + pad4 f2) in
    let* (p, nread, b) := o_read par p toread toread in
    if negb (nread =? toread) then Ret (p, inf, pad, Error)
    else
      (* 120-127; b[0], b[1] are only read when fns - 1 > 2 *)
      let* b := (if 2 <? fns - 1 then
                   match b with
                   | b0 :: b1 :: r => Ret (if (b0 =? 46) && (b1 =? 47) then r else b)
                   | [b0] => if b0 =? 46 then UB else Ret b
                   | [] => UB
                   end
                 else Ret b) in
      let* name := upto_nul b (Z.to_nat fns) in
      Ret (p, mkInfo name size mtime (i_type inf), pad, if list_eqb name trailer then Eof else Ok).

(** cpioinputstream.cpp:53-55; [fuel] bounds the rounds *)
Fixpoint cpio_drain (fuel : nat) (s : sub P) : out (sub P) :=
  match su_st s with
  | Ok => match fuel with
          | O => Hang
          | S f => let* (s, _) := sub_skip par s (su_size s) in cpio_drain f s
          end
  | _ => Ret s
  end.
(** cpioinputstream.cpp:45-69 *)
Definition cpio_next (fuel : nat) (a : cpio) : out (cpio * option info) :=
  match c_st a with
  | Ok =>
      let* p := match c_cur a with
                | inl p => Ret p
                | inr s => let* s := cpio_drain fuel s in
                           if c_pad a =? 0 then Ret (su_par s)
                           else let* (p, _) := o_skip par (su_par s) (c_pad a) in Ret p
                end in
      let* (p, inf, pad, st) := cpio_header p (c_info a) (c_pad a) in
      let* s := sub_new par p (i_size inf) in
      match st with
      | Ok => Ret (mkCpio (inr s) pad Ok inf, Some inf)
      | _ => Ret (mkCpio (inl p) pad st inf, None)
      end
  | _ => Ret (mkCpio (match c_cur a with inl p => inl p | inr s => inl (su_par s) end) (c_pad a) (c_st a) (c_info a), None)
  end.
(** substreamprovider.h:140: calls on currentEntry(), here the SubInputStream made at cpioinputstream.cpp:63 *)
Definition cpio_entry (a : cpio) (h : list call) : out (cpio * list (obs Z)) :=
  match c_cur a with
  | inl _ => Ret (a, [])
  | inr s => let* (s, obs) := run (sub_ops par) s h in Ret (mkCpio (inr s) (c_pad a) (c_st a) (c_info a), obs)
  end.
(** cpioinputstream.h:28-43, substreamprovider.h:67-159: CpioInputStream as a SubStreamProvider; the virtual functions of this class as a record, no code of its own *)
Definition cpio_provider (fuel : nat) : provider cpio := mkProvider _ (cpio_next fuel) cpio_entry c_st.
End Cpio.
Arguments cpio : clear implicits.
