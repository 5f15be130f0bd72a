(** Model of /repo/lib/textutils.cpp, the byte order functions of
    /repo/include/strigi/textutils.h and /repo/lib/dostime.cpp.
    A (char*, length) argument is the list of its bytes 0..255.  The (int32_t) conversion of
    the length of strings above 2 GB is not modelled. *)
From Verif Require Import Base.

(** textutils.cpp:48-50, 103-105: values that are rejected *)
Definition bad_val (val : Z) : bool :=
  (val =? 65534) || (val =? 65535) || ((55296 <=? val) && (val <=? 57343)).
(** textutils.cpp:53-64, 109-124: what a byte means at a character boundary *)
Inductive lead := L1 | L2 | L3 | L4 | Lbad.
(** textutils.cpp:112-124, and the same test in 31-69 *)
Definition classify (c : Z) : lead :=
  if (194 <=? c) && (c <=? 223) then L2
  else if Z.land 240 c =? 224 then L3
  else if (240 <=? c) && (c <=? 244) then L4
  else if (127 <? c) || ((c <? 32) && negb ((c =? 9) || (c =? 10) || (c =? 13))) then Lbad
  else L1.

(** textutils.cpp:32-69 *)
Fixpoint checkUtf8_loop (l : list Z) (nb val : Z) : bool :=
  match l with
  | [] => nb =? 0
  | c :: r =>
      if negb (nb =? 0) then
        if negb (Z.land 192 c =? 128) then false
        else
          let val := (Z.shiftl val 6 + Z.land c 63) mod 2 ^ 64 in
          let nb := nb - 1 in
          if (nb =? 0) && bad_val val then false else checkUtf8_loop r nb val
      else match classify c with
           | L2 => checkUtf8_loop r 1 (Z.land c 31)
           | L3 => checkUtf8_loop r 2 (Z.land c 15)
           | L4 => checkUtf8_loop r 3 (Z.land c 7)
           | Lbad => false
           | L1 => checkUtf8_loop r nb val
           end
  end.
(** textutils.cpp:31-69 *)
Definition checkUtf8 (l : list Z) : bool := checkUtf8_loop l 0 0.

(** textutils.cpp:85-129: (returned pointer as an offset, [None] = null; nb) *)
Fixpoint checkUtf8p_loop (l : list Z) (p cs nb val : Z) : option Z * Z :=
  match l with
  | [] => (if negb (nb =? 0) then Some cs else None, nb)
  | c :: r =>
      if negb (nb =? 0) then
        if negb (Z.land 192 c =? 128) then (Some p, 0)
        else
          let val := (Z.shiftl val 6 + Z.land c 63) mod 2 ^ 64 in
          let nb := nb - 1 in
          if (nb =? 0) && bad_val val then (Some p, nb) else checkUtf8p_loop r (p + 1) cs nb val
      else match classify c with
           | L2 => checkUtf8p_loop r (p + 1) p 1 (Z.land c 31)
           | L3 => checkUtf8p_loop r (p + 1) p 2 (Z.land c 15)
           | L4 => checkUtf8p_loop r (p + 1) p 3 (Z.land c 7)
           | Lbad => (Some p, nb)
           | L1 => checkUtf8p_loop r (p + 1) cs nb val
           end
  end.
(** textutils.cpp:84-129 *)
Definition checkUtf8p (l : list Z) : option Z * Z := checkUtf8p_loop l 0 0 0 0.

(** textutils.cpp:139-164; the list is the C string without its terminating zero.  The
    message on stderr is not modelled. *)
Fixpoint convertNewLines_loop (l : list Z) (nb : Z) : list Z :=
  match l with
  | [] => []
  | c :: r =>
      if negb (nb =? 0) then
        if negb (Z.land 192 c =? 128) then c :: r else c :: convertNewLines_loop r (nb - 1)
      else if (194 <=? c) && (c <=? 223) then c :: convertNewLines_loop r 1
      else if Z.land 240 c =? 224 then c :: convertNewLines_loop r 2
      else if (240 <=? c) && (c <=? 244) then c :: convertNewLines_loop r 3
      else if (c =? 10) || (c =? 13) then 32 :: convertNewLines_loop r nb
      else c :: convertNewLines_loop r nb
  end.
(** textutils.cpp:138-164 *)
Definition convertNewLines (l : list Z) : list Z := convertNewLines_loop l 0.

(** ** byte order *)
(** conversion to uintN_t / intN_t *)
Definition uN (n z : Z) : Z := z mod 2 ^ n.
(** conversion to intN_t *)
Definition sN (n z : Z) : Z := let r := z mod 2 ^ n in if r <? 2 ^ (n - 1) then r else r - 2 ^ n.
(** the value of an object whose bytes in memory are [l], on a host that stores the least
    significant byte first ([big = false], no __BIG_ENDIAN__) or last.  Alignment
    requirements of reinterpret_cast are not modelled. *)
Fixpoint lsb_first (l : list Z) : Z := match l with [] => 0 | b :: r => b + 256 * lsb_first r end.
(** *reinterpret_cast<const intN_t*>(c), textutils.h:46-88 *)
Definition native (big : bool) (l : list Z) : Z := if big then lsb_first (rev l) else lsb_first l.
(** textutils.cpp:166-167 *)
Definition swap16 (x : Z) : Z := Z.lor (Z.land (Z.shiftr x 8) 255) (Z.shiftl (Z.land x 255) 8).
(** textutils.cpp:169-171 *)
Definition swap32 (x : Z) : Z :=
  Z.lor (Z.lor (Z.lor (Z.shiftr (Z.land x 4278190080) 24) (Z.shiftr (Z.land x 16711680) 8))
               (Z.shiftl (Z.land x 65280) 8)) (Z.shiftl (Z.land x 255) 24).
(** textutils.cpp:172-180 *)
Definition swap64 (x : Z) : Z :=
  Z.lor (Z.lor (Z.lor (Z.lor (Z.lor (Z.lor (Z.lor
    (Z.shiftr (Z.land x (Z.shiftl 255 56)) 56) (Z.shiftr (Z.land x (Z.shiftl 255 48)) 40))
    (Z.shiftr (Z.land x (Z.shiftl 255 40)) 24)) (Z.shiftr (Z.land x (Z.shiftl 255 32)) 8))
    (Z.shiftl (Z.land x (Z.shiftl 255 24)) 8)) (Z.shiftl (Z.land x (Z.shiftl 255 16)) 24))
    (Z.shiftl (Z.land x (Z.shiftl 255 8)) 40)) (Z.shiftl (Z.land x 255) 56).
(** textutils.h:46-88 and textutils.cpp:183-231; [big]: compiled with __BIG_ENDIAN__; [l]: the bytes read *)
Definition readLittleEndianInt16 (big : bool) l := let x := sN 16 (native big l) in if big then sN 16 (swap16 x) else x.
(** textutils.h:74-76, textutils.cpp:187-190 *)
Definition readLittleEndianUInt16 (big : bool) l := let x := uN 16 (native big l) in if big then uN 16 (swap16 x) else x.
(** textutils.h:77-79, textutils.cpp:191-194 *)
Definition readLittleEndianInt32 (big : bool) l := let x := sN 32 (native big l) in if big then sN 32 (swap32 x) else x.
(** textutils.h:80-82, textutils.cpp:195-198 *)
Definition readLittleEndianUInt32 (big : bool) l := let x := uN 32 (native big l) in if big then uN 32 (swap32 x) else x.
(** textutils.h:83-85, textutils.cpp:199-202 *)
Definition readLittleEndianInt64 (big : bool) l := let x := sN 64 (native big l) in if big then sN 64 (swap64 x) else x.
(** textutils.h:86-88, textutils.cpp:203-206 *)
Definition readLittleEndianUInt64 (big : bool) l := let x := uN 64 (native big l) in if big then uN 64 (swap64 x) else x.
(** textutils.h:46-48, textutils.cpp:208-211 *)
Definition readBigEndianInt16 (big : bool) l := let x := sN 16 (native big l) in if big then x else sN 16 (swap16 x).
(** textutils.h:49-51, textutils.cpp:212-215 *)
Definition readBigEndianUInt16 (big : bool) l := let x := uN 16 (native big l) in if big then x else uN 16 (swap16 x).
(** textutils.h:52-54, textutils.cpp:216-219 *)
Definition readBigEndianInt32 (big : bool) l := let x := sN 32 (native big l) in if big then x else sN 32 (swap32 x).
(** textutils.h:55-57, textutils.cpp:220-223 *)
Definition readBigEndianUInt32 (big : bool) l := let x := uN 32 (native big l) in if big then x else uN 32 (swap32 x).
(** textutils.h:58-60, textutils.cpp:224-227 *)
Definition readBigEndianInt64 (big : bool) l := let x := sN 64 (native big l) in if big then x else sN 64 (swap64 x).
(** textutils.h:61-63, textutils.cpp:228-231 *)
Definition readBigEndianUInt64 (big : bool) l := let x := uN 64 (native big l) in if big then x else uN 64 (swap64 x).
(** textutils.h:109-111, 127-129: the overloads for unsigned char* call the 16 bit functions *)
Definition readLittleEndianInt64_uc (big : bool) l := readLittleEndianInt16 big (firstn 2 l).
(** textutils.h:127-129 *)
Definition readBigEndianInt64_uc (big : bool) l := readBigEndianInt16 big (firstn 2 l).

(** ** dostime.cpp:40-62; the fields handed to mktime *)
Record tm := mkTm { tm_year : Z; tm_mon : Z; tm_mday : Z; tm_hour : Z; tm_min : Z; tm_sec : Z }.
(** dostime.cpp:40-59 *)
Definition dos_fields (dostime : Z) : tm :=
  mkTm (Z.shiftr dostime 25 + 80) (Z.land (Z.shiftr dostime 21) 15 - 1) (Z.land (Z.shiftr dostime 16) 31)
       (Z.land (Z.shiftr dostime 11) 15) (Z.land (Z.shiftr dostime 5) 63) (Z.shiftl (Z.land dostime 31) 1).
(** dostime.cpp:40-62 *)
Definition dos2unixtime (mktime : tm -> Z) (dostime : Z) : Z := mktime (dos_fields dostime).
