(** Model of the bundled LZMA decoder, /repo/lib/lzma/LzmaDec.c and LzmaDec.h.
    Memory: arrays are lists.  An access outside of an array, and the use of a cell that was never written, is [UB].
    Machine arithmetic: UInt32 wraps ([u32]), CLzmaProb has 16 bits ([u16]), a Byte has 8 bits.  Sums of SizeT (64 bits) are
    integers: none comes near 2^64.  Only the build without _LZMA_SIZE_OPT and _LZMA_PROB32 is modelled. *)
From Verif Require Import Base.

(** Types.h UInt32: conversion to 32 bits *)
Definition u32 (z : Z) : Z := z mod 4294967296.
(** LzmaDec.h:13-17 CLzmaProb, UInt16: conversion to 16 bits *)
Definition u16 (z : Z) : Z := z mod 65536.

(** array access *)
Definition aget {A} (l : list A) (i : Z) : out A := match zget l i with Some x => Ret x | None => UB end.
(** not code: array[i] = x; outside of the array is undefined *)
Definition aset {A} (l : list A) (i : Z) (x : A) : out (list A) :=
  if (0 <=? i) && (i <? zlen l) then Ret (splice l i [x]) else UB.
(** bytes of the dictionary: [None] was not written yet *)
Definition dget (l : list (option Z)) (i : Z) : out Z := match zget l i with Some (Some x) => Ret x | _ => UB end.

(** LzmaDec.h:24-28 CLzmaProps *)
Record props := mkProps { p_lc : Z; p_lp : Z; p_pb : Z; p_dicSize : Z }.

(** LzmaDec.h:46-65 CLzmaDec.  [d_temp] is tempBuf up to tempBufSize; [buf] is only used during a call. *)
Record dec := mkDec {
  d_prop : props; d_probs : list Z; d_dic : list (option Z);
  d_range : Z; d_code : Z; d_dicPos : Z; d_processed : Z; d_check : Z; d_state : Z;
  d_rep0 : Z; d_rep1 : Z; d_rep2 : Z; d_rep3 : Z;
  d_remain : Z; d_needFlush : bool; d_needInit : bool; d_temp : list Z }.
(** LzmaDec.h:46-65 CLzmaDec: dicBufSize *)
Definition d_bufSize (p : dec) : Z := zlen (d_dic p).

(** LzmaDec.c:60-105: the layout of probs *)
Definition LenChoice := 0.
(** LzmaDec.c:71 *)
Definition LenChoice2 := 1.
(** LzmaDec.c:72 *)
Definition LenLow := 2.
(** LzmaDec.c:73 *)
Definition LenMid := LenLow + 128.
(** LzmaDec.c:74 *)
Definition LenHigh := LenMid + 128.
(** LzmaDec.c:75 *)
Definition kNumLenProbs := LenHigh + 256.
(** LzmaDec.c:91-92 *)
Definition kMatchSpecLenStart := 2 + 8 + 8 + 256.
(** LzmaDec.c:94 *)
Definition IsMatch := 0.
(** LzmaDec.c:95 *)
Definition IsRep := IsMatch + 192.
(** LzmaDec.c:96 *)
Definition IsRepG0 := IsRep + 12.
(** LzmaDec.c:97 *)
Definition IsRepG1 := IsRepG0 + 12.
(** LzmaDec.c:98 *)
Definition IsRepG2 := IsRepG1 + 12.
(** LzmaDec.c:99 *)
Definition IsRep0Long := IsRepG2 + 12.
(** LzmaDec.c:100 *)
Definition PosSlot := IsRep0Long + 192.
(** LzmaDec.c:101 *)
Definition SpecPos := PosSlot + 256.
(** LzmaDec.c:102 *)
Definition Align := SpecPos + 128 - 14.
(** LzmaDec.c:103 *)
Definition LenCoder := Align + 16.
(** LzmaDec.c:104 *)
Definition RepLenCoder := LenCoder + kNumLenProbs.
(** LzmaDec.c:105 *)
Definition Literal := RepLenCoder + kNumLenProbs.
(** LzmaDec.c:116-120 *)
Definition kLiteralNextStates : list Z :=
  [0; 0; 0; 0; 1; 2; 3; 4; 5; 6; 4; 5; 7; 7; 7; 7; 7; 7; 7; 10; 10; 10; 10; 10].
(** LzmaDec.h:44 *)
Definition REQUIRED_INPUT_MAX := 20.

(** the local variables range, code, buf (as an index of the input) and the array probs *)
Record rc := mkRc { r_range : Z; r_code : Z; r_buf : Z; r_probs : list Z }.

Section Input.
(** the readable bytes from p->buf on *)
Variable src : list Z.

(** LzmaDec.c:17 NORMALIZE *)
Definition normalize (r : rc) : out rc :=
  if r_range r <? 16777216 then
    let* b := aget src (r_buf r) in
    Ret (mkRc (u32 (r_range r * 256)) (u32 (r_code r * 256) + b mod 256) (r_buf r + 1) (r_probs r))
  else Ret r.
(** LzmaDec.c:19-21 IF_BIT_0, UPDATE_0, UPDATE_1: the bit, with range, code and the probability updated *)
Definition bit (i : Z) (r : rc) : out (rc * bool) :=
  let* ttt := aget (r_probs r) i in
  let* r := normalize r in
  let bound := u32 (r_range r / 2048 * ttt) in
  if r_code r <? bound then
    let* pr := aset (r_probs r) i (u16 (ttt + u32 (2048 - ttt) / 32)) in
    Ret (mkRc bound (r_code r) (r_buf r) pr, false)
  else
    let* pr := aset (r_probs r) i (u16 (ttt - ttt / 32)) in
    Ret (mkRc (u32 (r_range r - bound)) (u32 (r_code r - bound)) (r_buf r) pr, true).
(** LzmaDec.c:22-25 GET_BIT2: the bit as a number *)
Definition b2z (b : bool) : Z := if b then 1 else 0.
(** LzmaDec.c:22-27 GET_BIT(probs + i, i) *)
Definition get_bit (base i : Z) (r : rc) : out (rc * Z) :=
  let* (r, b) := bit (base + i) r in Ret (r, i + i + b2z b).
(** do { GET_BIT(probs + i, i) } while (i < limit); at most 8 rounds are needed *)
Fixpoint tree_loop (fuel : nat) (base limit i : Z) (r : rc) : out (rc * Z) :=
  match fuel with
  | O => Hang
  | S f => let* (r, i) := get_bit base i r in
           if i <? limit then tree_loop f base limit i r else Ret (r, i)
  end.
(** LzmaDec.c:27-29 TREE_DECODE *)
Definition tree_decode (base limit : Z) (r : rc) : out (rc * Z) :=
  let* (r, i) := tree_loop 8 base limit 1 r in Ret (r, i - limit).
(** LzmaDec.c:33-45 TREE_6_DECODE *)
Definition tree_6_decode (base : Z) (r : rc) : out (rc * Z) :=
  let i := 1 in
  let* (r, i) := get_bit base i r in
  let* (r, i) := get_bit base i r in
  let* (r, i) := get_bit base i r in
  let* (r, i) := get_bit base i r in
  let* (r, i) := get_bit base i r in
  let* (r, i) := get_bit base i r in
  Ret (r, i - 64).
(** LzmaDec.c:183-195 *)
Fixpoint matched_loop (fuel : nat) (prob matchByte offs symbol : Z) (r : rc) : out (rc * Z) :=
  match fuel with
  | O => Hang
  | S f =>
      let matchByte := matchByte * 2 in
      let bt := Z.land matchByte offs in
      let* (r, b) := bit (prob + offs + bt + symbol) r in
      let symbol := symbol + symbol + b2z b in
      let offs := if b then Z.land offs bt else Z.land offs (Z.lnot bt) in
      if symbol <? 256 then matched_loop f prob matchByte offs symbol r else Ret (r, symbol)
  end.
(** LzmaDec.c:316-325: [n] is numDirectBits, which is at least 1 *)
Fixpoint spec_loop (n : nat) (prob mask i distance : Z) (r : rc) : out (rc * Z) :=
  match n with
  | O => Ret (r, distance)
  | S n =>
      let* (r, b) := bit (prob + i) r in
      spec_loop n prob (u32 (mask * 2)) (i + i + b2z b) (if b then Z.lor distance mask else distance) r
  end.
(** LzmaDec.c:329-351 *)
Fixpoint direct_loop (n : nat) (distance : Z) (r : rc) : out (rc * Z) :=
  match n with
  | O => Ret (r, distance)
  | S n =>
      let* r := normalize r in
      let range := r_range r / 2 in
      let code := u32 (r_code r - range) in
      let t := u32 (0 - code / 2147483648) in
      direct_loop n (u32 (distance * 2 + u32 (t + 1)))
        (mkRc range (u32 (code + Z.land range t)) (r_buf r) (r_probs r))
  end.
(** LzmaDec.c:352-366: the mask is 1, 2, 4, 8 *)
Definition align_bits (distance : Z) (r : rc) : out (rc * Z) := spec_loop 4 Align 1 1 distance r.

(** LzmaDec.c:268-299; [prob] is LenCoder or RepLenCoder *)
Definition len_decode (prob posState : Z) (r : rc) : out (rc * Z) :=
  let* (r, c) := bit (prob + LenChoice) r in
  if negb c then tree_decode (prob + LenLow + posState * 8) 8 r
  else
    let* (r, c2) := bit (prob + LenChoice2) r in
    if negb c2 then let* (r, l) := tree_decode (prob + LenMid + posState * 8) 8 r in Ret (r, l + 8)
    else let* (r, l) := tree_decode (prob + LenHigh) 256 r in Ret (r, l + 16).
(** LzmaDec.c:301-382 *)
Definition distance_decode (len : Z) (r : rc) : out (rc * Z) :=
  let* (r, slot) := tree_6_decode (PosSlot + (if len <? 4 then len else 3) * 64) r in
  if 4 <=? slot then
    let n := slot / 2 - 1 in
    let d := Z.lor 2 (Z.land slot 1) in
    if slot <? 14 then
      let d := u32 (Z.shiftl d n) in
      spec_loop (Z.to_nat n) (SpecPos + d - slot - 1) 1 1 d r
    else
      let* (r, d) := direct_loop (Z.to_nat (n - 4)) d r in
      align_bits (u32 (d * 16)) r
  else Ret (r, slot).
End Input.

(** the local variables of LzmaDec_DecodeReal *)
Record vars := mkVars {
  v_rc : rc; v_dic : list (option Z); v_dicPos : Z; v_processed : Z; v_state : Z;
  v_rep0 : Z; v_rep1 : Z; v_rep2 : Z; v_rep3 : Z; v_len : Z }.
(** how one round of the loop ends: continue, break, return SZ_ERROR_DATA (probs and dic are changed already) *)
Inductive round := Cont (v : vars) | Break (v : vars) | Bad (pr : list Z) (dic : list (option Z)).

(** (dicPos - rep0) + ((dicPos < rep0) ? dicBufSize : 0) *)
Definition back_pos (size dicPos rep0 : Z) : Z := dicPos - rep0 + (if dicPos <? rep0 then size else 0).
(** LzmaDec.c:171-174, also 517-522 *)
Definition literal_probs (pr : props) (check processed : Z) (dic : list (option Z)) (dicPos : Z) : out Z :=
  if negb (check =? 0) || negb (processed =? 0) then
    let* b := dget dic ((if dicPos =? 0 then zlen dic else dicPos) - 1) in
    Ret (Literal + 768 * (Z.shiftl (Z.land processed (Z.shiftl 1 (p_lp pr) - 1)) (p_lc pr) + Z.shiftr b (8 - p_lc pr)))
  else Ret Literal.
(** LzmaDec.c:396-405: the do loop runs [n] times; n = 0 would run on *)
Fixpoint copy_plain (n : nat) (dic : list (option Z)) (dest pos : Z) : out (list (option Z)) :=
  match n with
  | O => Ret dic
  | S n => let* b := dget dic pos in let* dic := aset dic dest (Some b) in copy_plain n dic (dest + 1) (pos + 1)
  end.
(** LzmaDec.c:406-415 *)
Fixpoint copy_wrap (n : nat) (dic : list (option Z)) (dest pos : Z) : out (list (option Z)) :=
  match n with
  | O => Ret dic
  | S n => let* b := dget dic pos in let* dic := aset dic dest (Some b) in
           copy_wrap n dic (dest + 1) (if pos + 1 =? zlen dic then 0 else pos + 1)
  end.

(** LzmaDec.c:159-419: one round of the loop of LzmaDec_DecodeReal *)
Definition decode_round (src : list Z) (pr : props) (check limit : Z) (v : vars) : out round :=
  let size := zlen (v_dic v) in
  let state := v_state v in
  let posState := Z.land (v_processed v) (Z.shiftl 1 (p_pb pr) - 1) in
  let* (r, m) := bit src (IsMatch + state * 16 + posState) (v_rc v) in
  if negb m then
    let* prob := literal_probs pr check (v_processed v) (v_dic v) (v_dicPos v) in
    let* (r, symbol) :=
      if state <? 7 then tree_loop src 8 prob 256 1 r
      else
        let* mb := dget (v_dic v) (back_pos size (v_dicPos v) (v_rep0 v)) in
        matched_loop src 8 prob mb 256 1 r in
    let* dic := aset (v_dic v) (v_dicPos v) (Some (symbol mod 256)) in
    let* next := aget kLiteralNextStates state in
    Ret (Cont (mkVars r dic (v_dicPos v + 1) (u32 (v_processed v + 1)) next (v_rep0 v) (v_rep1 v) (v_rep2 v) (v_rep3 v) (v_len v)))
  else
    let* (r, rep) := bit src (IsRep + state) r in
    (* the match: new state (12 and more: a new distance), distances, length; or the one byte repetition; or an error *)
    let* res :=
      if negb rep then
        let* (r, len) := len_decode src LenCoder posState r in
        Ret (inl (r, state + 12, v_rep0 v, v_rep1 v, v_rep2 v, v_rep3 v, len))
      else if (check =? 0) && (v_processed v =? 0) then Ret (inr (Bad (r_probs r) (v_dic v)))
      else
        let* (r, g0) := bit src (IsRepG0 + state) r in
        let* rr :=
          if negb g0 then
            let* (r, long) := bit src (IsRep0Long + state * 16 + posState) r in
            if negb long then
              let* b := dget (v_dic v) (back_pos size (v_dicPos v) (v_rep0 v)) in
              let* dic := aset (v_dic v) (v_dicPos v) (Some b) in
              Ret (inr (Cont (mkVars r dic (v_dicPos v + 1) (u32 (v_processed v + 1)) (if state <? 7 then 9 else 11)
                     (v_rep0 v) (v_rep1 v) (v_rep2 v) (v_rep3 v) (v_len v))))
            else Ret (inl (r, v_rep0 v, v_rep1 v, v_rep2 v, v_rep3 v))
          else
            let* (r, g1) := bit src (IsRepG1 + state) r in
            if negb g1 then Ret (inl (r, v_rep1 v, v_rep0 v, v_rep2 v, v_rep3 v))
            else
              let* (r, g2) := bit src (IsRepG2 + state) r in
              if negb g2 then Ret (inl (r, v_rep2 v, v_rep0 v, v_rep1 v, v_rep3 v))
              else Ret (inl (r, v_rep3 v, v_rep0 v, v_rep1 v, v_rep2 v)) in
        match rr with
        | inr x => Ret (inr x)
        | inl (r, rep0, rep1, rep2, rep3) =>
            let* (r, len) := len_decode src RepLenCoder posState r in
            Ret (inl (r, if state <? 7 then 8 else 11, rep0, rep1, rep2, rep3, len))
        end in
    match res with
    | inr x => Ret x
    | inl (r, state, rep0, rep1, rep2, rep3, len) =>
      (* LzmaDec.c:301-382.  The test for 0xFFFFFFFF is in the branch of large slots in the code; in the other
         branches the distance is less than 128, so it may as well be after all of them. *)
      let* dd :=
        if 12 <=? state then
          let* (r, distance) := distance_decode src len r in
          if distance =? 4294967295 then
            Ret (inr (Break (mkVars r (v_dic v) (v_dicPos v) (v_processed v) (state - 12) rep0 rep1 rep2 rep3 (len + kMatchSpecLenStart))))
          else
            if (if check =? 0 then v_processed v <=? distance else check <=? distance) then Ret (inr (Bad (r_probs r) (v_dic v)))
            else Ret (inl (r, (if state <? 19 then 7 else 10), u32 (distance + 1), rep0, rep1, rep2))
        else Ret (inl (r, state, rep0, rep1, rep2, rep3)) in
      match dd with
      | inr x => Ret x
      | inl (r, state, rep0, rep1, rep2, rep3) =>
        let len := len + 2 in
        if limit =? v_dicPos v then Ret (Bad (r_probs r) (v_dic v))
        else
          (* LzmaDec.c:386-416 *)
          let rem := limit - v_dicPos v in
          let curLen := if rem <? len then u32 rem else len in
          let pos := back_pos size (v_dicPos v) rep0 in
          if curLen =? 0 then Hang
          else
            let* dic := if pos + curLen <=? size then copy_plain (Z.to_nat curLen) (v_dic v) (v_dicPos v) pos
                        else copy_wrap (Z.to_nat curLen) (v_dic v) (v_dicPos v) pos in
            Ret (Cont (mkVars r dic (v_dicPos v + curLen) (u32 (v_processed v + curLen)) state rep0 rep1 rep2 rep3 (len - curLen)))
      end
    end.

(** LzmaDec.c:159-419: do ... while (dicPos < limit && buf < bufLimit); every round writes at least one byte *)
Fixpoint decode_loop (fuel : nat) (src : list Z) (pr : props) (check limit bufLimit : Z) (v : vars) : out round :=
  match fuel with
  | O => Hang
  | S f =>
      let* x := decode_round src pr check limit v in
      match x with
      | Cont v => if (v_dicPos v <? limit) && (r_buf (v_rc v) <? bufLimit) then decode_loop f src pr check limit bufLimit v
                  else Ret (Cont v)
      | _ => Ret x
      end
  end.
(** LzmaDec.c:137-434 LzmaDec_DecodeReal; [buf] is p->buf, an index of [src].  Result: SZ_OK? and the new value of p->buf *)
Definition DecodeReal (src : list Z) (p : dec) (limit buf bufLimit : Z) : out (dec * Z * bool) :=
  let v := mkVars (mkRc (d_range p) (d_code p) buf (d_probs p)) (d_dic p) (d_dicPos p) (d_processed p) (d_state p)
             (d_rep0 p) (d_rep1 p) (d_rep2 p) (d_rep3 p) 0 in
  let* x := decode_loop (Z.to_nat (limit - d_dicPos p) + 1) src (d_prop p) (d_check p) limit bufLimit v in
  match x with
  | Bad pr dic => Ret (mkDec (d_prop p) pr dic (d_range p) (d_code p) (d_dicPos p) (d_processed p) (d_check p) (d_state p)
      (d_rep0 p) (d_rep1 p) (d_rep2 p) (d_rep3 p) (d_remain p) (d_needFlush p) (d_needInit p) (d_temp p), buf, false)
  | Cont v | Break v =>
      let* r := normalize src (v_rc v) in
      Ret (mkDec (d_prop p) (r_probs r) (v_dic v) (r_range r) (r_code r) (v_dicPos v) (v_processed v) (d_check p) (v_state v)
        (v_rep0 v) (v_rep1 v) (v_rep2 v) (v_rep3 v) (v_len v) (d_needFlush p) (d_needInit p) (d_temp p), r_buf r, true)
  end.

(** LzmaDec.c:453-457 *)
Fixpoint rem_loop (n : nat) (dic : list (option Z)) (dicPos rep0 : Z) : out (list (option Z)) :=
  match n with
  | O => Ret dic
  | S n => let* b := dget dic (back_pos (zlen dic) dicPos rep0) in
           let* dic := aset dic dicPos (Some b) in rem_loop n dic (dicPos + 1) rep0
  end.
(** LzmaDec.c:436-460 LzmaDec_WriteRem *)
Definition WriteRem (p : dec) (limit : Z) : out dec :=
  if negb (d_remain p =? 0) && (d_remain p <? kMatchSpecLenStart) then
    let len := if limit - d_dicPos p <? d_remain p then limit - d_dicPos p else d_remain p in
    if len <? 0 then UB else
    let check := if (d_check p =? 0) && (u32 (p_dicSize (d_prop p) - d_processed p) <=? len) then p_dicSize (d_prop p) else d_check p in
    let* dic := rem_loop (Z.to_nat len) (d_dic p) (d_dicPos p) (d_rep0 p) in
    Ret (mkDec (d_prop p) (d_probs p) dic (d_range p) (d_code p) (d_dicPos p + len) (u32 (d_processed p + len)) check (d_state p)
      (d_rep0 p) (d_rep1 p) (d_rep2 p) (d_rep3 p) (d_remain p - len) (d_needFlush p) (d_needInit p) (d_temp p))
  else Ret p.
(** not code: assignment to checkDicSize (LzmaDec.c:448-449, 474-475) *)
Definition set_check (p : dec) (c : Z) : dec :=
  mkDec (d_prop p) (d_probs p) (d_dic p) (d_range p) (d_code p) (d_dicPos p) (d_processed p) c (d_state p)
    (d_rep0 p) (d_rep1 p) (d_rep2 p) (d_rep3 p) (d_remain p) (d_needFlush p) (d_needInit p) (d_temp p).
(** not code: assignment to remainLen (LzmaDec.c:452, 480-483) *)
Definition set_remain (p : dec) (n : Z) : dec :=
  mkDec (d_prop p) (d_probs p) (d_dic p) (d_range p) (d_code p) (d_dicPos p) (d_processed p) (d_check p) (d_state p)
    (d_rep0 p) (d_rep1 p) (d_rep2 p) (d_rep3 p) n (d_needFlush p) (d_needInit p) (d_temp p).
(** not code: assignment to dicPos (LzmaDec.c:848-886) *)
Definition set_dicPos (p : dec) (n : Z) : dec :=
  mkDec (d_prop p) (d_probs p) (d_dic p) (d_range p) (d_code p) n (d_processed p) (d_check p) (d_state p)
    (d_rep0 p) (d_rep1 p) (d_rep2 p) (d_rep3 p) (d_remain p) (d_needFlush p) (d_needInit p) (d_temp p).
(** not code: assignment to tempBuf and tempBufSize (LzmaDec.c:727-846) *)
Definition set_temp (p : dec) (t : list Z) : dec :=
  mkDec (d_prop p) (d_probs p) (d_dic p) (d_range p) (d_code p) (d_dicPos p) (d_processed p) (d_check p) (d_state p)
    (d_rep0 p) (d_rep1 p) (d_rep2 p) (d_rep3 p) (d_remain p) (d_needFlush p) (d_needInit p) t.

(** LzmaDec.c:462-485 LzmaDec_DecodeReal2 *)
Fixpoint real2_loop (fuel : nat) (src : list Z) (p : dec) (limit buf bufLimit : Z) : out (dec * Z * bool) :=
  match fuel with
  | O => Hang
  | S f =>
      let rem := u32 (p_dicSize (d_prop p) - d_processed p) in
      let limit2 := if (d_check p =? 0) && (rem <? limit - d_dicPos p) then d_dicPos p + rem else limit in
      let* (p, buf, ok) := DecodeReal src p limit2 buf bufLimit in
      if negb ok then Ret (p, buf, false)
      else
        let p := if p_dicSize (d_prop p) <=? d_processed p then set_check p (p_dicSize (d_prop p)) else p in
        let* p := WriteRem p limit in
        if (d_dicPos p <? limit) && (buf <? bufLimit) && (d_remain p <? kMatchSpecLenStart)
        then real2_loop f src p limit buf bufLimit else Ret (p, buf, true)
  end.
(** LzmaDec.c:462-485 *)
Definition DecodeReal2 (src : list Z) (p : dec) (limit buf bufLimit : Z) : out (dec * Z * bool) :=
  let* (p, buf, ok) := real2_loop (Z.to_nat (limit - d_dicPos p) + 1) src p limit buf bufLimit in
  if negb ok then Ret (p, buf, false)
  else Ret ((if kMatchSpecLenStart <? d_remain p then set_remain p kMatchSpecLenStart else p), buf, true).

(** LzmaDec.c:487-493 *)
Inductive dummy := DERROR | DLIT | DMATCH | DREP.
(** LzmaDec.c:47-57: the macros with a check of the end of the input; [Ret None]: "return DUMMY_ERROR".
    Nothing is changed but range, code and buf. *)
Definition dbind {A B} (x : out (option A)) (f : A -> out (option B)) : out (option B) :=
  let* o := x in match o with Some a => f a | None => Ret None end.
Notation "'try*' p ':=' e 'in' k" := (dbind e (fun p => k)) (at level 200, p pattern, e at level 100, k at level 200).
Section Dummy.
Variables (src : list Z) (probs : list Z).
(** range, code, buf *)
Definition drc : Type := Z * Z * Z.
(** LzmaDec.c:47 NORMALIZE_CHECK *)
Definition normalize_check (r : drc) : out (option drc) :=
  let '(range, code, buf) := r in
  if range <? 16777216 then
    if zlen src <=? buf then Ret None
    else let* b := aget src buf in Ret (Some (u32 (range * 256), u32 (code * 256) + b mod 256, buf + 1))
  else Ret (Some r).
(** LzmaDec.c:49-51 IF_BIT_0_CHECK, UPDATE_0_CHECK, UPDATE_1_CHECK *)
Definition bit_check (i : Z) (r : drc) : out (option (drc * bool)) :=
  let* ttt := aget probs i in
  try* r := normalize_check r in
  let '(range, code, buf) := r in
  let bound := u32 (range / 2048 * ttt) in
  if code <? bound then Ret (Some ((bound, code, buf), false))
  else Ret (Some ((u32 (range - bound), u32 (code - bound), buf), true)).
(** LzmaDec.c:52-55 GET_BIT_CHECK *)
Definition get_bit_check (base i : Z) (r : drc) : out (option (drc * Z)) :=
  try* (r, b) := bit_check (base + i) r in Ret (Some (r, i + i + b2z b)).
(** LzmaDec.c:56-57 TREE_DECODE_CHECK: the loop *)
Fixpoint tree_loop_check (fuel : nat) (base limit i : Z) (r : drc) : out (option (drc * Z)) :=
  match fuel with
  | O => Hang
  | S f => try* (r, i) := get_bit_check base i r in
           if i <? limit then tree_loop_check f base limit i r else Ret (Some (r, i))
  end.
(** LzmaDec.c:56-57 TREE_DECODE_CHECK *)
Definition tree_decode_check (base limit : Z) (r : drc) : out (option (drc * Z)) :=
  try* (r, i) := tree_loop_check 8 base limit 1 r in Ret (Some (r, i - limit)).
(** LzmaDec.c:530-543 *)
Fixpoint matched_loop_check (fuel : nat) (prob matchByte offs symbol : Z) (r : drc) : out (option (drc * Z)) :=
  match fuel with
  | O => Hang
  | S f =>
      let matchByte := matchByte * 2 in
      let bt := Z.land matchByte offs in
      try* (r, b) := bit_check (prob + offs + bt + symbol) r in
      let symbol := symbol + symbol + b2z b in
      let offs := if b then Z.land offs bt else Z.land offs (Z.lnot bt) in
      if symbol <? 256 then matched_loop_check f prob matchByte offs symbol r else Ret (Some (r, symbol))
  end.
(** LzmaDec.c:657-667 *)
Fixpoint direct_loop_check (n : nat) (r : drc) : out (option drc) :=
  match n with
  | O => Ret (Some r)
  | S n =>
      try* r := normalize_check r in
      let '(range, code, buf) := r in
      let range := range / 2 in
      direct_loop_check n (range, u32 (code - Z.land range (u32 (u32 (code - range) / 2147483648 - 1))), buf)
  end.
(** LzmaDec.c:669-676 *)
Fixpoint bits_check (n : nat) (prob i : Z) (r : drc) : out (option drc) :=
  match n with
  | O => Ret (Some r)
  | S n => try* (r, i) := get_bit_check prob i r in bits_check n prob i r
  end.
(** LzmaDec.c:605-636 *)
Definition len_check (prob posState : Z) (r : drc) : out (option (drc * Z)) :=
  try* (r, c) := bit_check (prob + LenChoice) r in
  if negb c then tree_decode_check (prob + LenLow + posState * 8) 8 r
  else
    try* (r, c2) := bit_check (prob + LenChoice2) r in
    if negb c2 then try* (r, l) := tree_decode_check (prob + LenMid + posState * 8) 8 r in Ret (Some (r, l + 8))
    else try* (r, l) := tree_decode_check (prob + LenHigh) 256 r in Ret (Some (r, l + 16)).
(** LzmaDec.c:638-679 *)
Definition distance_check (len : Z) (r : drc) : out (option drc) :=
  try* (r, slot) := tree_decode_check (PosSlot + (if len <? 4 then len else 3) * 64) 64 r in
  if 4 <=? slot then
    let n := slot / 2 - 1 in
    if slot <? 14 then
      bits_check (Z.to_nat n) (SpecPos + Z.shiftl (Z.lor 2 (Z.land slot 1)) n - slot - 1) 1 r
    else
      try* r := direct_loop_check (Z.to_nat (n - 4)) r in
      bits_check 4 Align 1 r
  else Ret (Some r).
End Dummy.
(** LzmaDec.c:495-683 LzmaDec_TryDummy: [src] are the inSize bytes at buf *)
Definition dummy_run (p : dec) (src : list Z) : out (option (drc * dummy)) :=
  let probs := d_probs p in
  let state := d_state p in
  let posState := Z.land (d_processed p) (Z.shiftl 1 (p_pb (d_prop p)) - 1) in
  try* (r, m) := bit_check src probs (IsMatch + state * 16 + posState) (d_range p, d_code p, 0) in
  if negb m then
    let* prob := literal_probs (d_prop p) (d_check p) (d_processed p) (d_dic p) (d_dicPos p) in
    try* (r, _) :=
      if state <? 7 then tree_loop_check src probs 8 prob 256 1 r
      else
        let* mb := dget (d_dic p) (back_pos (d_bufSize p) (d_dicPos p) (d_rep0 p)) in
        matched_loop_check src probs 8 prob mb 256 1 r in
    Ret (Some (r, DLIT))
  else
    try* (r, rep) := bit_check src probs (IsRep + state) r in
    if negb rep then
      try* (r, len) := len_check src probs LenCoder posState r in
      try* r := distance_check src probs len r in
      Ret (Some (r, DMATCH))
    else
      try* (r, g0) := bit_check src probs (IsRepG0 + state) r in
      try* (r, short) :=
        if negb g0 then
          try* (r, long) := bit_check src probs (IsRep0Long + state * 16 + posState) r in
          Ret (Some (r, negb long))
        else
          try* (r, g1) := bit_check src probs (IsRepG1 + state) r in
          if negb g1 then Ret (Some (r, false))
          else try* (r, _) := bit_check src probs (IsRepG2 + state) r in Ret (Some (r, false)) in
      if short then Ret (Some (r, DREP))
      else try* (r, _) := len_check src probs RepLenCoder posState r in Ret (Some (r, DREP)).
(** LzmaDec.c:495-683 LzmaDec_TryDummy *)
Definition TryDummy (p : dec) (src : list Z) : out dummy :=
  let* x := (try* (r, res) := dummy_run p src in
             try* _ := normalize_check src r in Ret (Some res)) in
  Ret (match x with Some res => res | None => DERROR end).

(** LzmaDec.c:693-713 LzmaDec_Init; the contents of dic stay *)
Definition Init (p : dec) : dec :=
  mkDec (d_prop p) (d_probs p) (d_dic p) (d_range p) (d_code p) 0 0 0 (d_state p)
    (d_rep0 p) (d_rep1 p) (d_rep2 p) (d_rep3 p) 0 true true [].
(** LzmaDec.c:686-691 LzmaDec_InitRc *)
Definition InitRc (p : dec) (data : list Z) : out dec :=
  let* d1 := aget data 1 in let* d2 := aget data 2 in let* d3 := aget data 3 in let* d4 := aget data 4 in
  Ret (mkDec (d_prop p) (d_probs p) (d_dic p) 4294967295
    ((d1 mod 256) * 16777216 + (d2 mod 256) * 65536 + (d3 mod 256) * 256 + d4 mod 256)
    (d_dicPos p) (d_processed p) (d_check p) (d_state p)
    (d_rep0 p) (d_rep1 p) (d_rep2 p) (d_rep3 p) (d_remain p) false (d_needInit p) (d_temp p)).
(** LzmaDec.c:110 LzmaProps_GetNumProbs, also 717 *)
Definition numProbs (pr : props) : Z := Literal + 768 * 2 ^ (p_lc pr + p_lp pr).
(** LzmaDec.c:715-725 LzmaDec_InitStateReal.  Before it, probs is not initialised: [d_probs] is empty. *)
Definition InitStateReal (p : dec) : dec :=
  mkDec (d_prop p) (repeat 1024 (Z.to_nat (numProbs (d_prop p)))) (d_dic p) (d_range p) (d_code p) (d_dicPos p) (d_processed p) (d_check p) 0
    1 1 1 1 (d_remain p) (d_needFlush p) false (d_temp p).

(** LzmaDec.h:96-103 ELzmaStatus *)
Inductive lstatus := SNotSpecified | SFinishedWithMark | SNotFinished | SNeedsMoreInput | SMaybeFinished.

(** LzmaDec.c:740-754: copies bytes to tempBuf until it holds 5; SizeT arithmetic on the pointer src is the list itself *)
Fixpoint fill_init (temp src : list Z) (n : Z) : list Z * list Z * Z :=
  match src with
  | b :: src' => if zlen temp <? 5 then fill_init (temp ++ [b]) src' (n + 1) else (temp, src, n)
  | [] => (temp, src, n)
  end.
(** LzmaDec.c:814-817 *)
Fixpoint look_ahead (temp src : list Z) (n : Z) : list Z * Z :=
  match src with
  | b :: src' => if zlen temp <? REQUIRED_INPUT_MAX then look_ahead (temp ++ [b]) src' (n + 1) else (temp, n)
  | [] => (temp, n)
  end.
(** src += n *)
Definition advance (src : list Z) (n : Z) : out (list Z) :=
  if (0 <=? n) && (n <=? zlen src) then Ret (skipn (Z.to_nat n) src) else UB.

(** LzmaDec.c:736-842: the loop of LzmaDec_DecodeToDic.  [src]: the inSize bytes that are left, [n]: *srcLen.
    Every round but the last writes to the dictionary. *)
Fixpoint dic_loop (fuel : nat) (p : dec) (dicLimit : Z) (src : list Z) (n : Z) (fin : bool) (st : lstatus) : out (dec * Z * bool * lstatus) :=
  if d_remain p =? kMatchSpecLenStart then
    if d_code p =? 0 then Ret (p, n, true, SFinishedWithMark) else Ret (p, n, false, st)
  else match fuel with
  | O => Hang
  | S f =>
    let* start :=
      if d_needFlush p then
        let '(temp, src, n) := fill_init (d_temp p) src n in
        let p := set_temp p temp in
        if zlen temp <? 5 then Ret (inr (p, n, true, SNeedsMoreInput))
        else
          let* t0 := aget temp 0 in
          if negb (t0 mod 256 =? 0) then Ret (inr (p, n, false, st))
          else let* p := InitRc p temp in Ret (inl (set_temp p [], src, n))
      else Ret (inl (p, src, n)) in
    match start with
    | inr x => Ret x
    | inl (p, src, n) =>
      let full := dicLimit <=? d_dicPos p in
      if full && ((d_remain p =? 0) && (d_code p =? 0)) then Ret (p, n, true, SMaybeFinished)
      else if full && negb fin then Ret (p, n, true, SNotFinished)
      else if full && negb (d_remain p =? 0) then Ret (p, n, false, SNotFinished)
      else
        (* from here on [full] is checkEndMarkNow *)
        let p := if d_needInit p then InitStateReal p else p in
        match d_temp p with
        | [] =>
          let* go :=
            if (zlen src <? REQUIRED_INPUT_MAX) || full then
              let* dm := TryDummy p src in
              match dm with
              | DERROR =>
                  if REQUIRED_INPUT_MAX <? zlen src then UB
                  else Ret (inr (set_temp p src, n + zlen src, true, SNeedsMoreInput))
              | _ => if full && match dm with DMATCH => false | _ => true end then Ret (inr (p, n, false, SNotFinished))
                     else Ret (inl 0)
              end
            else Ret (inl (zlen src - REQUIRED_INPUT_MAX)) in
          match go with
          | inr x => Ret x
          | inl bufLimit =>
              let* (p, processed, ok) := DecodeReal2 src p dicLimit 0 bufLimit in
              if negb ok then Ret (p, n, false, st)
              else let* src := advance src processed in
                   dic_loop f p dicLimit src (n + processed) fin st
          end
        | _ =>
          let '(temp, lookAhead) := look_ahead (d_temp p) src 0 in
          let p := set_temp p temp in
          let rem := zlen temp in
          let* go :=
            if (rem <? REQUIRED_INPUT_MAX) || full then
              let* dm := TryDummy p temp in
              match dm with
              | DERROR => Ret (inr (p, n + lookAhead, true, SNeedsMoreInput))
              | _ => if full && match dm with DMATCH => false | _ => true end then Ret (inr (p, n, false, SNotFinished))
                     else Ret (inl tt)
              end
            else Ret (inl tt) in
          match go with
          | inr x => Ret x
          | inl _ =>
              let* (p, buf, ok) := DecodeReal2 temp p dicLimit 0 0 in
              if negb ok then Ret (p, n, false, st)
              else let lookAhead := u32 (lookAhead - u32 (rem - buf)) in
                   let* src := advance src lookAhead in
                   dic_loop f (set_temp p []) dicLimit src (n + lookAhead) fin st
          end
        end
    end
  end.
(** LzmaDec.c:727-846 LzmaDec_DecodeToDic: decoder, bytes consumed, SZ_OK?, status *)
Definition DecodeToDic (p : dec) (dicLimit : Z) (src : list Z) (fin : bool) : out (dec * Z * bool * lstatus) :=
  let* p := WriteRem p dicLimit in
  dic_loop (Z.to_nat (dicLimit - d_dicPos p) + 2) p dicLimit src 0 fin SNotSpecified.

(** memcpy of [n] bytes from dic + [o], which must have been written *)
Fixpoint dic_bytes (l : list (option Z)) : out (list Z) :=
  match l with
  | [] => Ret []
  | Some b :: l => let* r := dic_bytes l in Ret (b :: r)
  | None :: _ => UB
  end.
(** LzmaDec.c:848-886 LzmaDec_DecodeToBuf.  [dest]: what was written, [space]: outSize. *)
Fixpoint buf_loop (fuel : nat) (p : dec) (dest : list Z) (space : Z) (src : list Z) (n : Z) (fin : bool) : out (dec * Z * list Z * bool * lstatus) :=
  match fuel with
  | O => Hang
  | S f =>
      let p := if d_dicPos p =? d_bufSize p then set_dicPos p 0 else p in
      let dicPos := d_dicPos p in
      let all := d_bufSize p - dicPos <? space in
      let* (p, used, ok, st) := DecodeToDic p (if all then d_bufSize p else dicPos + space) src (if all then false else fin) in
      let* src := advance src used in
      let cur := d_dicPos p - dicPos in
      if (cur <? 0) || (space <? cur) then UB
      else
        let* y := dic_bytes (slice (d_dic p) dicPos cur) in
        let dest := dest ++ y in
        if negb ok then Ret (p, n + used, dest, false, st)
        else if (cur =? 0) || (space - cur =? 0) then Ret (p, n + used, dest, true, st)
        else buf_loop f p dest (space - cur) src (n + used) fin
  end.
(** LzmaDec.c:848-886 LzmaDec_DecodeToBuf *)
Definition DecodeToBuf (p : dec) (space : Z) (src : list Z) (fin : bool) : out (dec * Z * list Z * bool * lstatus) :=
  buf_loop (Z.to_nat space + 1) p [] space src 0 fin.

(** LzmaDec.c:906-930 LzmaProps_Decode; [None]: SZ_ERROR_UNSUPPORTED *)
Definition Props_Decode (data : list Z) : out (option props) :=
  if zlen data <? 5 then Ret None
  else
    let* d0 := aget data 0 in
    let* d1 := aget data 1 in let* d2 := aget data 2 in let* d3 := aget data 3 in let* d4 := aget data 4 in
    let dic := d1 mod 256 + (d2 mod 256) * 256 + (d3 mod 256) * 65536 + (d4 mod 256) * 16777216 in
    let dic := if dic <? 4096 then 4096 else dic in
    let d := d0 mod 256 in
    if 225 <=? d then Ret None
    else Ret (Some (mkProps (d mod 9) (d / 9 mod 5) (d / 9 / 5) dic)).
(** LzmaDec.c:955-975 LzmaDec_Allocate after LzmaDec_Construct and LzmaDec_Init: fresh arrays, nothing in them.
    The fields that Init does not set are not initialised; they are set before they are used, here they are 0. *)
Definition decoder (pr : props) : dec :=
  Init (mkDec pr [] (repeat None (Z.to_nat (p_dicSize pr))) 0 0 0 0 0 0 0 0 0 0 0 false false []).
