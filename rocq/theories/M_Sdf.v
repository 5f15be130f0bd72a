(** Model of /repo/lib/sdfinputstream.cpp (nextEntry; checkHeader is in M_Detect.v) over an arbitrary input stream. *)
From Verif Require Import Base StreamSpec M_Kmp M_Sub ArchiveSpec M_Ar.

(** sdfinputstream.cpp:31 *)
Definition delimiter : list Z := [36;36;36;36].
(** ostream << int for n >= 0 *)
Fixpoint print (fuel : nat) (n : Z) : list Z :=
  match fuel with
  | O => []
  | S f => if n <? 10 then [48 + n] else print f (n / 10) ++ [48 + n mod 10]
  end.
(** "Molecule" *)
Definition molecule : list Z := [77;111;108;101;99;117;108;101].

Section Sdf.
Context {P : Type}.
Variable par : ops P Z.

(** sdfinputstream.h: [sd_cur] is the input, or [substream] (which is also m_entrystream) *)
Record sdf := mkSdf { sd_cur : P + sub P; sd_kmp : searcher; sd_num : Z; sd_prev : Z; sd_st : status }.
(** sdfinputstream.cpp:34-38 *)
Definition sdf_new (p : P) : out sdf :=
  let* k := setQuery kmp_null delimiter in Ret (mkSdf (inl p) k 0 0 Ok).

(** sdfinputstream.cpp:92-94 *)
Fixpoint sdf_drain (fuel : nat) (s : sub P) : out (sub P) :=
  match su_st s with
  | Ok => match fuel with
          | O => Hang
          | S f => let* (s, _, _) := sub_read par s 1 0 in sdf_drain f s
          end
  | _ => Ret s
  end.
(** sdfinputstream.cpp:112-116; [b] are the bytes at [dummy] *)
Fixpoint sdf_newlines (fuel : nat) (p : P) (b : list Z) : out P :=
  match o_status par p with
  | Ok => match b with
          | [] => UB
          | c :: _ => if (c =? 10) || (c =? 13)
                      then match fuel with
                           | O => Hang
                           | S f => let* (p, _, b) := o_read par p 1 1 in sdf_newlines f p b
                           end
                      else Ret p
          end
  | _ => Ret p
  end.
(** sdfinputstream.cpp:85-119: with a substream *)
Definition sdf_leave (fuel : nat) (s : sub P) (prev : Z) : out (P * bool) :=
  let* (s, _) := sub_reset par s 0 in
  let* s := sdf_drain fuel s in
  let err := is_error (su_st s) in
  let* (p, _) := o_reset par (su_par s) prev in
  match o_status par p with
  | Ok =>
      let* (p, nread, b) := o_read par p 4 4 in
      if (nread =? 4) && list_eqb (slice b 0 4) delimiter
      then let* (p, _, b) := o_read par p 1 1 in let* p := sdf_newlines fuel p b in Ret (p, err)
      else Ret (p, err)
  | _ => Ret (p, err)
  end.
(** sdfinputstream.cpp:130-140; the result is [len] *)
Fixpoint sdf_search (fuel : nat) (k : searcher) (p : P) (total : Z) : out (P * Z) :=
  match o_status par p with
  | Ok =>
      match fuel with
      | O => Hang
      | S f =>
          let* (p, nread, b) := o_read par p 1024 0 in
          if 0 <? nread then
            let* r := search k b in
            match r with
            | Some j => Ret (p, j + total)
            | None => let* t := chk32 (total + nread) in sdf_search f k p t
            end
          else sdf_search f k p total
      end
  | _ => Ret (p, 0)
  end.
(** sdfinputstream.cpp:81-170 *)
Definition sdf_next (fuel : nat) (a : sdf) : out (sdf * option info) :=
  match sd_st a with
  | Ok =>
      let* (p, err) := match sd_cur a with
                       | inl p => let* (p, _) := o_reset par p (sd_prev a) in Ret (p, false)
                       | inr s => let* (p, _) := o_reset par (su_par s) (sd_prev a) in
                                  sdf_leave fuel (mkSub p (su_off s) (su_size s) (su_pos s) (su_st s)) (sd_prev a)
                       end in
      let pos := o_pos par p in
      let* (p, len) := sdf_search fuel (sd_kmp a) p 0 in
      if is_error (o_status par p) then Ret (mkSdf (inl p) (sd_kmp a) (sd_num a) (sd_prev a) Error, None)
      else
        let* (p, _) := o_reset par p pos in
        if 0 <? len then
          let* s := sub_new par p len in
          let* n := chk32 (sd_num a + 1) in
          Ret (mkSdf (inr s) (sd_kmp a) n (o_pos par p + len) (if err : bool then Error else Ok),
               Some (mkInfo (molecule ++ print 11 n) len 0 2))
        else Ret (mkSdf (inl p) (sd_kmp a) (sd_num a) (sd_prev a) Eof, None)
  | _ => Ret (a, None)
  end.
(** substreamprovider.h:140: calls on currentEntry(), here a SubInputStream (sdfinputstream.cpp:81-170) *)
Definition sdf_entry (a : sdf) (h : list call) : out (sdf * list (obs Z)) :=
  match sd_cur a with
  | inl _ => Ret (a, [])
  | inr s => let* (s, obs) := run (sub_ops par) s h in Ret (mkSdf (inr s) (sd_kmp a) (sd_num a) (sd_prev a) (sd_st a), obs)
  end.
(** sdfinputstream.h:32-48, substreamprovider.h:67-159: SdfInputStream as a SubStreamProvider; the virtual functions of this class as a record, no code of its own *)
Definition sdf_provider (fuel : nat) : provider sdf := mkProvider _ (sdf_next fuel) sdf_entry sd_st.
End Sdf.
Arguments sdf : clear implicits.
