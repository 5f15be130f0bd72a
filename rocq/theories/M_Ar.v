(** Model of /repo/lib/arinputstream.cpp over an arbitrary input stream. *)
From Verif Require Import Base StreamSpec M_Sub ArchiveSpec.

(** atoi of the C library, as glibc does it: white space, sign, digits; strtol saturates at the
    limits of long, the conversion to int wraps. The list is the string up to its NUL. *)
Definition is_ws (c : Z) : bool := (c =? 32) || ((9 <=? c) && (c <=? 13)).
(** C library: isdigit in atoi, called at arinputstream.cpp:99, 105, 121 *)
Definition is_dig (c : Z) : bool := (48 <=? c) && (c <=? 57).
(** C library: the digits read by atoi, called at arinputstream.cpp:99, 105, 121 *)
Fixpoint dig_val (acc : Z) (l : list Z) : Z :=
  match l with
  | c :: l' => if is_dig c then dig_val (acc * 10 + (c - 48)) l' else acc
  | [] => acc
  end.
(** C library: the white space skipped by atoi, called at arinputstream.cpp:99, 105, 121 *)
Fixpoint skip_ws (l : list Z) : list Z :=
  match l with c :: l' => if is_ws c then skip_ws l' else l | [] => [] end.
(** C library: atoi, called at arinputstream.cpp:99, 105, 121 (see the comment above) *)
Definition atoi (l : list Z) : Z :=
  match skip_ws l with
  | c :: l' =>
      wrap32 (if c =? 45 then Z.max (- INT64_MAX - 1) (- dig_val 0 l')
              else if c =? 43 then Z.min INT64_MAX (dig_val 0 l')
              else Z.min INT64_MAX (dig_val 0 (c :: l')))
  | [] => 0
  end.
(** the C string starting at a cell: everything before the first NUL *)
Fixpoint c_str (l : list Z) : list Z :=
  match l with c :: l' => if c =? 0 then [] else c :: c_str l' | [] => [] end.
(** everything before the first '/' (strchr) *)
Fixpoint before_slash (l : list Z) : list Z :=
  match l with c :: l' => if c =? 47 then [] else c :: before_slash l' | [] => [] end.

Section Ar.
Context {P : Type}.
Variable par : ops P Z.

(** substreamprovider.h:74-83, arinputstream.h:33 [gnufilenames].  [a_cur]: the input, or the
    entry stream around it ([m_entrystream] set). *)
Record ar := mkAr { a_cur : P + sub P; a_names : list Z; a_st : status; a_info : info }.

(** arinputstream.cpp:28-34; the result of memcmp with the magic *)
Definition ar_magic : list Z := [33;60;97;114;99;104;62;10].
(** memcmp(...) == 0 at arinputstream.cpp:32; elsewhere operator== of std::string *)
Definition list_eqb (a b : list Z) : bool := if list_eq_dec Z.eq_dec a b then true else false.
(** arinputstream.cpp:28-34 *)
Definition ar_checkHeader (d : list Z) : bool := if zlen d <? 8 then false else list_eqb (slice d 0 8) ar_magic.
(** arinputstream.cpp:35-42 *)
Definition ar_new (p : P) : out ar :=
  let* (p, n, d) := o_read par p 8 8 in
  Ret (mkAr (inl p) [] (if negb (n =? 8) || negb (ar_checkHeader d) then Error else Ok) (mkInfo [] (-1) 0 0)).

(** arinputstream.cpp:78-83 *)
Fixpoint name_len (l : list Z) (n : nat) : nat :=
  match n, l with
  | S n', c :: l' => if (c =? 32) || (c =? 47) || (c =? 0) then O else S (name_len l' n')
  | _, _ => O
  end.
(** arinputstream.cpp:59-139: readHeader on the input [p]; result: input, names, status, info.
    The recursion is bounded by [fuel] (running out is the outcome Hang). *)
Fixpoint ar_header (fuel : nat) (p : P) (names : list Z) (inf : info) : out (P * list Z * status * info) :=
  match fuel with
  | O => Hang
  | S fuel =>
    let pos := o_pos par p in
    let* p := (if negb (Z.rem pos 2 =? 0) then let* (p, _) := o_skip par p 1 in Ret p else Ret p) in
    let* (p, nread, b) := o_read par p 60 60 in
    if is_error (o_status par p) then Ret (p, names, Error, inf)
    else if nread <=? 1 then Ret (p, names, Eof, inf)
    else if negb (nread =? 60) then Ret (p, names, Error, inf)
    else if negb (60 <=? zlen b) then UB (* memcpy(bc, b, 60) *)
    else
      let len := Z.of_nat (name_len b 16) in
      let size := atoi (c_str (slice b 48 12)) in
      let inf := mkInfo (i_name inf) size (i_mtime inf) (i_type inf) in
      if size <? 0 then Ret (p, names, Error, inf)
      else
      let inf := mkInfo (i_name inf) size (atoi (c_str (slice b 16 44))) (i_type inf) in
      if len =? 0 then
        match zget b 1 with
        | None => UB
        | Some b1 =>
          if b1 =? 47 then
            let* (p, nread, t) := o_read par p size size in
            if negb (nread =? size) then Ret (p, names, Error, inf)
            else if negb (size <=? zlen t) then UB (* assign(b, size) *)
            else let* (p, names, st, inf) := ar_header fuel p (slice t 0 size) inf in
                 Ret (p, names, st, mkInfo (i_name inf) (i_size inf) (i_mtime inf) 2)
          else if b1 =? 32 then
            let* (p, _) := o_skip par p size in
            let* (p, names, st, inf) := ar_header fuel p names inf in
            Ret (p, names, st, mkInfo (i_name inf) (i_size inf) (i_mtime inf) 2)
          else
            (* uint p = atoi(bc+1) *)
            let q := atoi (c_str (slice b 1 59)) mod 4294967296 in
            if zlen names <=? q then Ret (p, names, Error, inf)
            else Ret (p, names, Ok, mkInfo (before_slash (c_str (slice names q (zlen names - q)))) (i_size inf) (i_mtime inf) 2)
        end
      else Ret (p, names, Ok, mkInfo (slice b 0 len) (i_size inf) (i_mtime inf) 2)
  end.

(** arinputstream.cpp:45-58.  The destructor of the entry stream does nothing. *)
Definition ar_next (fuel : nat) (a : ar) : out (ar * option info) :=
  match a_st a with
  | Ok =>
      let* p := match a_cur a with
                | inl p => Ret p
                | inr s => let* (s, _) := sub_skip par s (su_size s) in Ret (su_par s)
                end in
      let* (p, names, st, inf) := ar_header fuel p (a_names a) (a_info a) in
      match st with
      | Ok => let* s := sub_new par p (i_size inf) in Ret (mkAr (inr s) names Ok inf, Some inf)
      | _ => Ret (mkAr (inl p) names st inf, None)
      end
  | _ => Ret (a, None)
  end.
(** substreamprovider.h:140: calls on currentEntry(), here the SubInputStream made at arinputstream.cpp:55 *)
Definition ar_entry (a : ar) (h : list call) : out (ar * list (obs Z)) :=
  match a_cur a with
  | inl _ => Ret (a, [])
  | inr s => let* (s, obs) := run (sub_ops par) s h in Ret (mkAr (inr s) (a_names a) (a_st a) (a_info a), obs)
  end.
(** arinputstream.h:27-41, substreamprovider.h:67-159: ArInputStream as a SubStreamProvider; the virtual functions of this class as a record, no code of its own *)
Definition ar_provider (fuel : nat) : provider ar := mkProvider _ (ar_next fuel) ar_entry a_st.
End Ar.
Arguments ar : clear implicits.
