(** Model of /repo/lib/tarinputstream.cpp over an arbitrary input stream. *)
From Verif Require Import Base StreamSpec M_Sub ArchiveSpec M_Ar.

(** sscanf(b, "%o", &val) of the C library: white space, sign, octal digits, converted by strtoul
    (64 bit, saturating) and stored in 32 bits. None: no conversion. UB: the string has no end
    within the bytes [l] that may be read.  Only the characters needed for the conversion count as
    read (glibc also looks for the NUL). *)
Definition is_oct (c : Z) : bool := (48 <=? c) && (c <=? 55).
(** C library: ULONG_MAX *)
Definition UINT64_MAX : Z := 18446744073709551615.
(** C library: the digits read by sscanf("%o"), called at tarinputstream.cpp:186 *)
Fixpoint oct_val (acc : Z) (l : list Z) : out Z :=
  match l with
  | c :: l' => if is_oct c then oct_val (acc * 8 + (c - 48)) l' else Ret acc
  | [] => UB
  end.
(** C library: the digits of sscanf("%o") after a sign, called at tarinputstream.cpp:186 *)
Definition scan_digits (neg : bool) (l : list Z) : out (option Z) :=
  match l with
  | [] => UB
  | c :: _ => if is_oct c then
                let* v := oct_val 0 l in
                Ret (Some (wrap32 (if UINT64_MAX <? v then UINT64_MAX else if neg then - v else v)))
              else Ret None
  end.
(** C library: sscanf("%o"), called at tarinputstream.cpp:186 (see the comment above) *)
Fixpoint scan_octal (l : list Z) : out (option Z) :=
  match l with
  | [] => UB
  | c :: l' => if is_ws c then scan_octal l'
               else if c =? 45 then scan_digits true l'
               else if c =? 43 then scan_digits false l'
               else scan_digits false l
  end.
(** tarinputstream.cpp:103-107, 118-120: the tests for blocks of zeros *)
Definition all_zero (l : list Z) : bool := forallb (Z.eqb 0) l.
(** std::strlen on a buffer *)
Fixpoint strlen (l : list Z) : out Z :=
  match l with [] => UB | c :: l' => if c =? 0 then Ret 0 else let* n := strlen l' in Ret (1 + n) end.
(** C library: what is left behind std::strlen (tarinputstream.cpp:135) *)
Fixpoint drop_nonzero (l : list Z) : list Z := match l with c :: l' => if c =? 0 then l else drop_nonzero l' | [] => [] end.
(** tarinputstream.cpp:63-91; [h] holds at least 257 bytes if [hsize] says so *)
Definition tar_checkHeader (h : list Z) : bool :=
  let at_ i := match zget h i with Some c => c | None => 0 end in
  if zlen h <? 257 then false
  else if negb (all_zero (drop_nonzero (slice h 0 100))) then false
  else if all_zero (slice h 100 156) then false
  else (at_ 107 =? 0) && (at_ 115 =? 0) && (at_ 123 =? 0) && ((at_ 135 =? 0) || (at_ 135 =? 32)) && ((at_ 147 =? 0) || (at_ 147 =? 32)) && (at_ 256 =? 0).
(** tarinputstream.cpp:143: the name "././@LongLink" *)
Definition longlink : list Z := [46;47;46;47;64;76;111;110;103;76;105;110;107].

Section Tar.
Context {P : Type}.
Variable par : ops P Z.

(** substreamprovider.h:70-81, tarinputstream.h [numPaddingBytes] *)
Record tar := mkTar { t_cur : P + sub P; t_pad : Z; t_st : status; t_info : info }.
(** tarinputstream.cpp:29-31; numPaddingBytes is not used before the first header *)
Definition tar_new (p : P) : tar := mkTar (inl p) 0 Ok (mkInfo [] (-1) 0 0).

(** tarinputstream.cpp:51-62; called with m_status Ok. A block that is used has 512 bytes. *)
Definition tar_block (p : P) : out (P * status * list Z) :=
  let* (p, nread, b) := o_read par p 512 512 in
  if (nread =? 0) || is_eof (o_status par p) then Ret (p, Eof, [])
  else if negb (nread =? 512) then Ret (p, Error, [])
  else if negb (512 <=? zlen b) then UB
  else Ret (p, Ok, b).
(** tarinputstream.cpp:108-126 after the first block of zeros; [first]: numZeroBlocks is 1 *)
Fixpoint tar_zeros (fuel : nat) (first : bool) (p : P) : out (P * status) :=
  match fuel with
  | O => Hang
  | S f =>
      let* (p, st, b) := tar_block p in
      match st with
      | Eof => Ret (p, if first then Error else Eof)
      | Error => Ret (p, Error)
      | Ok => if all_zero (slice b 0 512) then tar_zeros f false p else Ret (p, Error)
      end
  end.
(** tarinputstream.cpp:183-193 on a field of the block [b] *)
Definition octalField (b : list Z) (offset : Z) : out (option Z) := scan_octal (slice b offset (zlen b - offset)).
(** tarinputstream.cpp:194-226: the name, or the status of a failure. append(begin, nread) with a
    negative nread throws std::length_error (outcome Abort). *)
Definition tar_longLink (p : P) (b : list Z) : out (P * status * list Z) :=
  let* r := octalField b 124 in
  match r with
  | None => Ret (p, Error, [])
  | Some toread =>
      let left := Z.rem toread 512 in
      let left := if left =? 0 then 0 else 512 - left in
      let* (p, nread, d) := o_read par p toread toread in
      if negb (nread =? toread) then Ret (p, Error, [])
      else if nread <? 0 then Abort
      else if negb (nread <=? zlen d) then UB
      else
        let* (p, skipped) := o_skip par p left in
        if negb (skipped =? left) then Ret (p, Error, slice d 0 nread)
        else Ret (p, Ok, slice d 0 nread)
  end.
(** tarinputstream.cpp:158-181 on the header [b] of the entry called [name] *)
Definition tar_fields (p : P) (pad : Z) (inf : info) (b name : list Z) : out (P * Z * status * info) :=
  let* rs := octalField b 124 in
  match rs with
  | None => Ret (p, pad, Error, mkInfo name 0 (i_mtime inf) (i_type inf))
  | Some size =>
      let* rm := octalField b 136 in
      match rm with
      | None => Ret (p, pad, Error, mkInfo name size 0 (i_type inf))
      | Some mtime =>
          let pad := 512 - Z.rem size 512 in
          let pad := if pad =? 512 then 0 else pad in
          match zget name (zlen name - 1), zget b 156 with
          | Some c, Some ty =>
              Ret (p, pad, Ok, mkInfo (if c =? 47 then slice name 0 (zlen name - 1) else name) size mtime
                                 (if (ty =? 0) || (ty =? 48) then 2 else if ty =? 53 then 1 else 0))
          | _, _ => UB
          end
      end
  end.
(** tarinputstream.cpp:92-182 *)
Fixpoint tar_parse (fuel : nat) (p : P) (pad : Z) (inf : info) : out (P * Z * status * info) :=
  match fuel with
  | O => Hang
  | S f =>
    let* (p, st, b) := tar_block p in
    match st with
    | Ok =>
        if all_zero (slice b 0 512) then
          let* (p, st) := tar_zeros f true p in Ret (p, pad, st, inf)
        else if negb (tar_checkHeader (slice b 0 257)) then Ret (p, pad, Error, inf)
        else
          let* len := strlen b in
          if len =? 0 then Ret (p, pad, Eof, inf)
          else
            let len := if 100 <? len then 100 else len in
            if (len =? 13) && list_eqb (slice b 0 13) longlink then
              let* (p, st, name) := tar_longLink p b in
              match st with
              | Ok =>
                  let* (p, st, b) := tar_block p in
                  match st with
                  | Ok => tar_fields p pad inf b name
                  | _ => Ret (p, pad, st, mkInfo name (i_size inf) (i_mtime inf) (i_type inf))
                  end
              | _ => Ret (p, pad, st, mkInfo name (i_size inf) (i_mtime inf) (i_type inf))
              end
            else if (1 <? len) && list_eqb (slice b 0 2) [46;47] then
              if len =? 2 then tar_parse f p pad (mkInfo [] (i_size inf) (i_mtime inf) (i_type inf))
              else tar_fields p pad inf b (slice b 2 (len - 2))
            else tar_fields p pad inf b (slice b 0 len)
    | _ => Ret (p, pad, Error, inf)
    end
  end.
(** tarinputstream.cpp:35-50 *)
Definition tar_next (fuel : nat) (a : tar) : out (tar * option info) :=
  match t_st a with
  | Ok =>
      let* p := match t_cur a with
                | inl p => Ret p
                | inr s => let* (s, _) := sub_skip par s (su_size s) in
                           let* (p, _) := o_skip par (su_par s) (t_pad a) in Ret p
                end in
      let* (p, pad, st, inf) := tar_parse fuel p (t_pad a) (t_info a) in
      match st with
      | Ok => if 0 <=? i_size inf
              then let* s := sub_new par p (i_size inf) in Ret (mkTar (inr s) pad Ok inf, Some inf)
              else Ret (mkTar (inl p) pad Ok inf, None)
      | _ => Ret (mkTar (inl p) pad st inf, None)
      end
  | _ => Ret (a, None)
  end.
(** substreamprovider.h:140: calls on currentEntry(), here the SubInputStream made at tarinputstream.cpp:47 *)
Definition tar_entry (a : tar) (h : list call) : out (tar * list (obs Z)) :=
  match t_cur a with
  | inl _ => Ret (a, [])
  | inr s => let* (s, obs) := run (sub_ops par) s h in Ret (mkTar (inr s) (t_pad a) (t_st a) (t_info a), obs)
  end.
(** tarinputstream.h:41-59, substreamprovider.h:67-159: TarInputStream as a SubStreamProvider; the virtual functions of this class as a record, no code of its own *)
Definition tar_provider (fuel : nat) : provider tar := mkProvider _ (tar_next fuel) tar_entry t_st.
End Tar.
Arguments tar : clear implicits.
