(** Model of the header decoding of /repo/lib/mailinputstream.cpp (lines 48-203). Bytes are 0..255 (char is signed in the
    code: only comparisons with ASCII characters matter; isxdigit is that of the C locale). *)
From Verif Require Import Base M_Kmp M_Base64.

(** mailinputstream.cpp:48-53 *)
Definition decodeHex (h : Z) : Z :=
  if (65 <=? h) && (h <=? 70) then 10 + h - 65
  else if (97 <=? h) && (h <=? 102) then 10 + h - 97
  else h - 48.
(** isxdigit in the C locale *)
Definition isxdigit (h : Z) : bool :=
  ((48 <=? h) && (h <=? 57)) || ((65 <=? h) && (h <=? 70)) || ((97 <=? h) && (h <=? 102)).
(** mailinputstream.cpp:119-132: [m] is the memory from the argument v on, [len] the argument, [v] and [pos] are offsets *)
Fixpoint qp_loop (fuel : nat) (m : list Z) (len v pos : Z) (decoded : list Z) : out (Z * list Z) :=
  if v <? len then
    match fuel with
    | O => Hang
    | S f =>
        let* c := rdc m v in
        let* esc := if (c =? 61) && (2 <? len - v)
                    then let* a := rdc m (v + 1) in
                         if isxdigit a then let* b := rdc m (v + 2) in Ret (isxdigit b) else Ret false
                    else Ret false in
        if esc : bool then
          let* a := rdc m (v + 1) in let* b := rdc m (v + 2) in
          qp_loop f m len (v + 3) (v + 3) (decoded ++ slice m pos (v - pos) ++ [(decodeHex a * 16 + decodeHex b) mod 256])
        else if c =? 95 then qp_loop f m len (v + 1) (v + 1) (decoded ++ slice m pos (v - pos) ++ [32])
        else qp_loop f m len (v + 1) pos decoded
    end
  else Ret (pos, decoded).
(** mailinputstream.cpp:110-137 *)
Definition decodeQuotedPrintable (m : list Z) (len : Z) : out (list Z) :=
  let* (pos, d) := qp_loop (Z.to_nat len) m len 0 0 [] in
  Ret (if pos <? len then d ++ slice m pos (len - pos) else d).

(** tolower in the C locale *)
Definition tolower (c : Z) : Z := if (65 <=? c) && (c <=? 90) then c + 32 else c.
(** strncasecmp(s, v + o, |s|) == 0 for a string s without 0 *)
Fixpoint strncase_eq (s : list Z) (m : list Z) (o : Z) : out bool :=
  match s with
  | [] => Ret true
  | c :: s' => let* d := rdc m o in if tolower c =? tolower d then strncase_eq s' m (o + 1) else Ret false
  end.
(** "utf-8" *)
Definition utf8_name : list Z := [117;116;102;45;56].
(** mailinputstream.cpp:156-161: advance to the next '?' or to the end [e] *)
Fixpoint find_q (fuel : nat) (m : list Z) (e i : Z) : out Z :=
  if i <? e then
    match fuel with
    | O => Hang
    | S f => let* c := rdc m i in if c =? 63 then Ret i else find_q f m e (i + 1)
    end
  else Ret i.

Section Header.
(** the iconv descriptors (mailinputstream.cpp:59, opened on first use and kept): [iconv c enc data]
    is the call iconv() of line 88 for the encoding [enc]; None: no such encoding or a failed conversion *)
Context {C : Type}.
Variable iconv : C -> list Z -> list Z -> C * option (list Z).

(** mailinputstream.cpp:71-94; lines 85: nothing happens to the empty string *)
Definition decode (c : C) (enc data : list Z) : C * list Z :=
  match data with
  | [] => (c, data)
  | _ => let '(c', r) := iconv c enc data in (c', match r with Some d => d | None => data end)
  end.
(** mailinputstream.cpp:171-189, [s] q1 q2 as after line 174 *)
Definition word (c : C) (m : list Z) (s q1 q2 fin : Z) (raw : list Z) : out (C * list Z) :=
  let* u := strncase_eq utf8_name m s in
  Ret (if u : bool then (c, raw) else decode c (slice m s (q1 - s - 1)) raw).
(** mailinputstream.cpp:151-197: [m] is the memory from the argument v on, s p e are offsets.
    Base64InputStream::decode of an empty text looks at the two characters in front of the text, which
    belong to the header value, and returns "" (base64inputstream.cpp:186-230). *)
Fixpoint header_loop (fuel : nat) (c : C) (m : list Z) (e s p : Z) (decoded : list Z) : out (C * Z * list Z) :=
  if s <? e then
    match fuel with
    | O => Hang
    | S f =>
        let* c0 := rdc m s in
        let* start := if (8 <? e - s) && (c0 =? 61) then let* c1 := rdc m (s + 1) in Ret (c1 =? 63) else Ret false in
        if start : bool then
          let fl := Z.to_nat e in
          let* q1 := find_q fl m e (s + 2) in
          let* q2 := find_q fl m e (q1 + 1) in
          let* fin := find_q fl m e (q2 + 1) in
          let* bad := if e - fin <? 1 then Ret true else let* x := rdc m (fin + 1) in Ret (negb (x =? 61)) in
          if bad : bool then header_loop f c m e (s + 1) p decoded
          else
            let decoded := decoded ++ slice m p (s - p) in
            let s := s + 2 in let q1 := q1 + 1 in let q2 := q2 + 1 in
            let text := slice m q2 (fin - q2) in
            let* k := rdc m q1 in
            let* (c', w) :=
              if (k =? 98) || (k =? 66) then
                let* raw := (match text with [] => Ret [] | _ => b64_decode text end) in word c m s q1 q2 fin raw
              else if (k =? 113) || (k =? 81) then
                let* raw := decodeQuotedPrintable text (fin - q2) in word c m s q1 q2 fin raw
              else Ret (c, []) in
            header_loop f c' m e (fin + 2) (fin + 2) (decoded ++ w)
        else
          let* fold := if (3 <? e - s) && (c0 =? 13) then
                         let* c1 := rdc m (s + 1) in
                         if c1 =? 10 then let* c2 := rdc m (s + 2) in Ret ((c2 =? 9) || (c2 =? 32)) else Ret false
                       else Ret false in
          if fold : bool then header_loop f c m e (s + 4) (s + 4) (decoded ++ slice m p (s - p))
          else header_loop f c m e (s + 1) p decoded
    end
  else Ret (c, p, decoded).
(** mailinputstream.cpp:141-203 *)
Definition decodedHeaderValue (c : C) (m : list Z) (len : Z) : out (C * list Z) :=
  let* (c, p, d) := header_loop (Z.to_nat len) c m len 0 0 [] in
  Ret (c, if p <? len then d ++ slice m p (len - p) else d).
End Header.
