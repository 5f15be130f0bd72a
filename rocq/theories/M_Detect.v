(** Model of the checkHeader functions and of /repo/lib/substreamproviderprovider.cpp.  [d] is the
    memory behind [data]; [datasize] is its length (an int32_t).  Every access outside [d] is UB. *)
From Verif Require Import Base StreamSpec M_Kmp M_Ar DetectSpec.

(** std::memcmp(data + off, m, len(m)) == 0: all bytes must be accessible *)
Definition memeq (d : list Z) (off : Z) (m : list Z) : out bool :=
  if (0 <=? off) && (off + zlen m <=? zlen d) then Ret (list_eqb (slice d off (zlen m)) m) else UB.

(** arinputstream.cpp:28-34 *)
Definition ar_check (d : list Z) : out bool :=
  if zlen d <? 8 then Ret false else memeq d 0 [33;60;97;114;99;104;62;10].
(** cpioinputstream.cpp:32-38 *)
Definition cpio_check (d : list Z) : out bool :=
  if zlen d <? 6 then Ret false else memeq d 0 [48;55;48;55;48;49].
(** zipinputstream.cpp:33-39 *)
Definition zip_check (d : list Z) : out bool :=
  if zlen d <? 4 then Ret false else let* b := memeq d 0 [80;75;3;4] in Ret (b && (8 <? zlen d)).
(** rpminputstream.cpp:41-48 *)
Definition rpm_check (d : list Z) : out bool :=
  if zlen d <? 6 then Ret false else memeq d 0 [237;171;238;219;3;0].
(** oleinputstream.cpp:404-409 *)
Definition ole_check (d : list Z) : out bool :=
  if 8 <? zlen d then memeq d 0 [208;207;17;224;161;177;26;225] else Ret false.
(** gzipinputstream.cpp:44-47 *)
Definition gzip_check (d : list Z) : out bool :=
  if 2 <? zlen d then let* a := rdc d 0 in
    if a =? 31 then let* b := rdc d 1 in Ret (b =? 139) else Ret false
  else Ret false.
(** bz2inputstream.cpp:39-47 *)
Definition bz2_check (d : list Z) : out bool :=
  if zlen d <? 10 then Ret false else
  let* m := memeq d 0 [66;90] in
  if negb m then Ret false else
  let* c := rdc d 2 in
  if negb ((c =? 104) || (c =? 48)) then Ret false else memeq d 4 [49;65;89;38;83;89].
(** unsigned value of [n] bytes, least significant first: LzmaDec.c:914 and strigi_endian.h *)
Fixpoint rd_le (n : nat) (d : list Z) (i : Z) : out Z :=
  match n with
  | O => Ret 0
  | S k => let* b := rdc d i in let* r := rd_le k d (i + 1) in Ret (b + 256 * r)
  end.
(** lzmainputstream.cpp:46-63 with LzmaProps_Decode (lzma/LzmaDec.c:906-930; LZMA_PROPS_SIZE 5, LZMA_DIC_MIN 2^12) *)
Definition lzma_check (d : list Z) : out bool :=
  if zlen d <? 5 + 8 then Ret false else
  let* a := rdc d 0 in
  if negb (a =? 93) then Ret false else
  let* b := rdc d 1 in
  if negb (b =? 0) then Ret false else
  let* dic := rd_le 4 d 1 in
  let dic := if dic <? 4096 then 4096 else dic in
  let res_ok := a <? 9 * 5 * 5 in
  let* u := rd_le 8 d 5 in
  let size := if u <? 9223372036854775808 then u else u - 18446744073709551616 in
  Ret (res_ok && (dic <=? 33554432) && ((size =? -1) || ((dic <? size) && (size <? 1099511627776)))).
(** while (k-- && test(h[p])) ++p; *)
Fixpoint scan_while (test : Z -> bool) (k : nat) (d : list Z) (p : Z) : out Z :=
  match k with
  | O => Ret p
  | S k' => let* c := rdc d p in if test c then scan_while test k' d (p + 1) else Ret p
  end.
(** tarinputstream.cpp:63-91 *)
Definition tar_check (d : list Z) : out bool :=
  if zlen d <? 257 then Ret false else
  let* p := scan_while (fun c => negb (c =? 0)) 100 d 0 in
  let* p := scan_while (fun c => c =? 0) (Z.to_nat (100 - p)) d p in
  if p <? 100 then Ret false else
  let* q := scan_while (fun c => c =? 0) (Z.to_nat (256 - p)) d p in
  if q =? 256 then Ret false else
  let* h107 := rdc d 107 in let* h115 := rdc d 115 in let* h123 := rdc d 123 in
  let* h135 := rdc d 135 in let* h147 := rdc d 147 in let* h256 := rdc d 256 in
  Ret (negb (negb (h107 =? 0) || negb (h115 =? 0) || negb (h123 =? 0) ||
             (negb (h135 =? 0) && negb (h135 =? 32)) || (negb (h147 =? 0) && negb (h147 =? 32)) ||
             negb (h256 =? 0))).

(** sdfinputstream.cpp:49-63: the offset of the next line; [size] counts from [o] to the end of [d] *)
Definition skip80Line (d : list Z) (o : Z) : out (option Z) :=
  let size := zlen d - o in
  if size <=? 0 then Ret None else
  let max := Z.min size 81 in
  let* e := scan_while (fun c => negb (c =? 10) && negb (c =? 13)) (Z.to_nat max) d o in
  let i := e - o in
  if i =? max then Ret None else
  let* c := rdc d (o + i) in
  if c =? 10 then Ret (if i + 1 <? size then Some (o + i + 1) else None)
  else
    let* n := (if i + 1 <? size then let* c1 := rdc d (o + i + 1) in Ret (negb (c1 =? 10)) else Ret false) in
    if n then Ret (Some (o + i + 1))
    else Ret (if i + 2 <? size then Some (o + i + 2) else None).
(** sdfinputstream.cpp:71-75: thisLine and nextLine after [k] more rounds *)
Fixpoint sdf_lines (k : nat) (d : list Z) (this next : Z) : out (Z * option Z) :=
  match k with
  | O => Ret (this, Some next)
  | S k' => let* r := skip80Line d next in
            match r with None => Ret (next, None) | Some n => sdf_lines k' d next n end
  end.
(** "V2000", sdfinputstream.cpp:29 *)
Definition sdf_label : list Z := [86;50;48;48;48].
(** sdfinputstream.cpp:64-80 *)
Definition sdf_check (d : list Z) : out bool :=
  if zlen d <=? 10 then Ret false else
  let* (this, next) := sdf_lines 4 d 0 0 in
  match next with
  | None => Ret false
  | Some n => let* r := kmp_search sdf_label (slice d this (n - this)) in
              Ret (match r with Some _ => true | None => false end)
  end.

(** mailinputstream.cpp:217-224 *)
Inductive mstate := InName | InValue | MaybeNewLine | PossibleName | MaybeEnd | InBody.
(** one character, mailinputstream.cpp:248-303; None: return false.  The two [continue]s re-evaluate
    the character in the new state. A plain char of 128 and more is negative (or >= 128). *)
Definition name_step (c : Z) : option mstate :=
  if c =? 58 then Some InValue
  else if (c =? 32) || (c =? 9) then None
  else if 128 <=? c then None
  else if (c <=? 31) || (c =? 127) then None
  else Some InName.
(** mailinputstream.cpp:263-270: the state InHeaderValueField *)
Definition value_step (c : Z) : option mstate :=
  if c =? 13 then Some MaybeNewLine else if 128 <=? c then None else Some InValue.
(** mailinputstream.cpp:248-303: the switch on the state *)
Definition mail_step (s : mstate) (c : Z) : option mstate :=
  match s with
  | InName => name_step c
  | InValue => value_step c
  | MaybeNewLine => if c =? 10 then Some PossibleName else value_step c
  | PossibleName => if (c =? 32) || (c =? 9) then Some InValue
                    else if c =? 13 then Some MaybeEnd else name_step c
  | MaybeEnd => if c =? 10 then Some InBody else None
  | InBody => if 128 <=? c then None else Some InBody
  end.
(** mailinputstream.cpp:243-307 *)
Fixpoint mail_loop (k : nat) (d : list Z) (pos : Z) (s : mstate) : out bool :=
  match k with
  | O => Ret true
  | S k' => let* c := rdc d pos in
            match mail_step s c with None => Ret false | Some s' => mail_loop k' d (pos + 1) s' end
  end.
(** mailinputstream.cpp:210-309 checkHeader *)
Definition mail_check (d : list Z) : out bool := mail_loop (length d) d 0 InName.

(** substreamproviderprovider.cpp:32-55.  The result tells which provider is created on the input *)
Section Dispatch.
Context {P : Type}.
Variable par : ops P Z.
(** substreamproviderprovider.cpp:31-55 *)
Definition subStreamProvider (p : P) : out (P * kind) :=
  let pos := o_pos par p in
  let* (p, n, h) := o_read par p 1024 0 in
  let* (p, _) := o_reset par p pos in
  if n <=? 0 then Ret (p, KNone) else
  (* the fprintf of header[0] .. header[3], line 42 *)
  let* _ := rdc h 0 in let* _ := rdc h 1 in let* _ := rdc h 2 in let* _ := rdc h 3 in
  let* m := mail_check h in
  if m then Ret (p, KMail) else
  let* z := zip_check h in
  if z then Ret (p, KZip) else
  let* s := sdf_check h in
  Ret (p, if s then KSdf else KNone).
End Dispatch.
