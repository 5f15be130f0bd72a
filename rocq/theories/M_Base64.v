(** Model of /repo/lib/base64inputstream.cpp. *)
From Verif Require Import Base StreamSpec M_Buffered.

(** base64inputstream.cpp:48-49: "ABC...Zabc...z0123456789+/" *)
Definition alphabet : list Z :=
  [65;66;67;68;69;70;71;72;73;74;75;76;77;78;79;80;81;82;83;84;85;86;87;88;89;90;
   97;98;99;100;101;102;103;104;105;106;107;108;109;110;111;112;113;114;115;116;117;118;119;120;121;122;
   48;49;50;51;52;53;54;55;56;57;43;47].
(** base64inputstream.cpp:57-70: the loop of initialize filling inalphabet/decoder; the
    tables are static, so cells that are never set are 0 *)
Fixpoint fill_tables (i : Z) (l : list Z) (ina : list bool) (dec : list Z) : list bool * list Z :=
  match l with
  | [] => (ina, dec)
  | c :: r => fill_tables (i + 1) r (splice ina c [true]) (splice dec c [i])
  end.
(** base64inputstream.cpp:48-70: the static tables after initialize *)
Definition tables : list bool * list Z :=
  Eval vm_compute in fill_tables 0 alphabet (repeat false 256) (repeat 0 133).
(** inalphabet[c], decoder[c]; reading outside of the arrays is undefined *)
Definition inalphabet (c : Z) : out bool := match zget (fst tables) c with Some b => Ret b | None => UB end.
(** base64inputstream.cpp:50: decoder[c] *)
Definition decoder (c : Z) : out Z := match zget (snd tables) c with Some b => Ret b | None => UB end.

Section B64.
Context {P : Type}.
Variable par : ops P Z.
(** unrolling bound of the while loop of fillBuffer (running out of it is the outcome [Hang]) *)
Variable fuel : nat.

(** base64inputstream.cpp:33-40 ([nleft] is never used).  [q_in = inr p]: input == 0, [p] being the stream it pointed to;
    [q_win]: the items from pos up to pend *)
Record b64 := mkQ { q_in : P + P; q_win : list Z; q_bits : Z; q_todo : Z; q_cc : Z }.
(** the stream that was given to the constructor; input == 0 *)
Definition q_par (q : b64) : P := match q_in q with inl p => p | inr p => p end.
(** base64inputstream.cpp:112, 179: the test of input *)
Definition q_null (q : b64) : bool := match q_in q with inl _ => false | inr _ => true end.
(** base64inputstream.cpp:80-88 *)
Definition b64_new (p : P) : b64 := mkQ (inl p) [] 0 0 0.

(** base64inputstream.cpp:89-105; the last component: m_status was set to Error *)
Definition moreData (q : b64) : out (b64 * bool * bool) :=
  match q_win q with
  | _ :: _ => Ret (q, true, false)
  | [] =>
      match q_in q with
      | inr _ => UB
      | inl p =>
          let* (p', nread, d) := o_read par p 1 0 in
          if nread <? -1 then Ret (mkQ (inr p') [] (q_bits q) (q_todo q) (q_cc q), false, true)
          else if nread <=? 0 then Ret (mkQ (inr p') [] (q_bits q) (q_todo q) (q_cc q), false, false)
          else Ret (mkQ (inl p') d (q_bits q) (q_todo q) (q_cc q), true, false)
      end
  end.

(** base64inputstream.cpp:132-178, the while loop; [d]: what was stored from start on *)
Fixpoint b64_loop (fuel : nat) (q : b64) (space : Z) (d : list Z) (nw : Z) : out (b64 * list Z * Z * bool) :=
  match fuel with
  | O => Hang
  | S f =>
      let* (q, more, err) := moreData q in
      if negb more then Ret (q, d, nw, err)
      else match q_win q with
      | [] => UB
      | c :: win =>
          let bits := q_bits q in
          let cc := q_cc q in
          if c =? 61 then
            let '(todo, bits) := if cc =? 2 then (1, Z.shiftr bits 10)
                                 else if cc =? 3 then (2, Z.shiftr bits 8) else (q_todo q, bits) in
            Ret (mkQ (inr (q_par q)) [] bits todo cc, d, nw, err)
          else
            let* ok := inalphabet c in
            if negb ok then b64_loop f (mkQ (q_in q) win bits (q_todo q) cc) space d nw
            else
              let* v := decoder c in
              let* bits := chk32 (bits + v) in
              let cc := cc + 1 in
              if cc =? 4 then
                if space <=? zlen d then Ret (mkQ (q_in q) win bits 3 cc, d, nw, err)
                else
                  let d := d ++ [Z.shiftr bits 16 mod 256] in
                  if space <=? zlen d then Ret (mkQ (q_in q) win bits 2 cc, d, nw + 1, err)
                  else
                    let d := d ++ [Z.land (Z.shiftr bits 8) 255] in
                    if space <=? zlen d then Ret (mkQ (q_in q) win bits 1 cc, d, nw + 2, err)
                    else
                      let d := d ++ [Z.land bits 255] in
                      b64_loop f (mkQ (q_in q) win 0 (q_todo q) 0) space d (nw + 3)
              else
                let* bits := chk32 (Z.shiftl bits 6) in
                b64_loop f (mkQ (q_in q) win bits (q_todo q) cc) space d nw
      end
  end.

(** base64inputstream.cpp:111-184 *)
Definition b64_fill (q : b64) (space : Z) : out (b64 * Z * list Z * bool) :=
  if q_null q && (q_todo q =? 0) then Ret (q, -1, [], false)
  else if negb (q_todo q =? 0) then
    if q_todo q =? 3 then Ret (mkQ (q_in q) (q_win q) (q_bits q) 2 (q_cc q), 1, [Z.shiftr (q_bits q) 16 mod 256], false)
    else if q_todo q =? 2 then Ret (mkQ (q_in q) (q_win q) (q_bits q) 1 (q_cc q), 1, [Z.land (Z.shiftr (q_bits q) 8) 255], false)
    else if q_todo q =? 1 then Ret (mkQ (q_in q) (q_win q) 0 0 0, 1, [Z.land (q_bits q) 255], false)
    else UB
  else
    let* (q', d, nw, err) := b64_loop fuel q space [] 0 in
    if (nw =? 0) && q_null q' && (q_todo q' =? 0)
    then Ret (q', -1, d, err) else Ret (q', nw, d, err).
(** [mu] is no part of the code, see M_Buffered.v *)
Definition b64_src : source b64 Z :=
  mkSource _ _ b64_fill (fun q => if q_null q then 0%nat else 1%nat).
End B64.
Arguments b64 : clear implicits.

(** in[i]: the bytes of the buffer; reading outside is undefined *)
Definition inb (l : list Z) (i : Z) : out Z := match zget l i with Some z => Ret z | None => UB end.
(** base64inputstream.cpp:201-213; [n] words from offset [c] on; [None]: return string() *)
Fixpoint dec_words (n : nat) (l : list Z) (c : Z) (d : list Z) : out (option (list Z)) :=
  match n with
  | O => Ret (Some d)
  | S m =>
      let* c0 := inb l c in let* i0 := inalphabet c0 in if negb i0 then Ret None else
      let* c1 := inb l (c + 1) in let* i1 := inalphabet c1 in if negb i1 then Ret None else
      let* c2 := inb l (c + 2) in let* i2 := inalphabet c2 in if negb i2 then Ret None else
      let* c3 := inb l (c + 3) in let* i3 := inalphabet c3 in if negb i3 then Ret None else
      let* k := decoder c1 in
      let* l2 := decoder c2 in
      let* v0 := decoder c0 in
      let* v3 := decoder c3 in
      dec_words m l (c + 4)
        (d ++ [(Z.shiftl v0 2 + Z.shiftr k 4) mod 256; (Z.shiftl k 4 + Z.shiftr l2 2) mod 256;
               (Z.shiftl l2 6 + v3) mod 256])
  end.
(** base64inputstream.cpp:186-230; [length] is the number of bytes behind [in] *)
Definition b64_decode (l : list Z) : out (list Z) :=
  let length := zlen l in
  if negb (length mod 4 =? 0) then Ret []
  else
    let* last := inb l (length - 1) in
    let words := if last =? 61 then length / 4 - 1 else length / 4 in
    let c := 4 * words in
    let* d := dec_words (Z.to_nat words) l 0 [] in
    match d with
    | None => Ret []
    | Some d =>
        let* last2 := inb l (length - 2) in
        if last2 =? 61 then
          let* c0 := inb l c in let* i0 := inalphabet c0 in if negb i0 then Ret [] else
          let* c1 := inb l (c + 1) in let* i1 := inalphabet c1 in if negb i1 then Ret [] else
          let* v0 := decoder c0 in let* v1 := decoder c1 in
          Ret (d ++ [(Z.shiftl v0 2 + Z.shiftr v1 4) mod 256])
        else if last =? 61 then
          let* c0 := inb l c in let* i0 := inalphabet c0 in if negb i0 then Ret [] else
          let* c1 := inb l (c + 1) in let* i1 := inalphabet c1 in if negb i1 then Ret [] else
          let* c2 := inb l (c + 2) in let* i2 := inalphabet c2 in if negb i2 then Ret [] else
          let* k := decoder c1 in let* v0 := decoder c0 in let* v2 := decoder c2 in
          Ret (d ++ [(Z.shiftl v0 2 + Z.shiftr k 4) mod 256; (Z.shiftl k 4 + Z.shiftr v2 2) mod 256])
        else Ret d
    end.
