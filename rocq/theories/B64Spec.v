(** Specification of base64 (RFC 4648 section 4, RFC 2045 section 6.8), independent of the code.
    Bytes and characters are numbers 0..255. *)
From Verif Require Import Base.

(** A-Z a-z 0-9 + / *)
Definition b64char (v : Z) : Z :=
  if v <? 26 then 65 + v else if v <? 52 then 97 + (v - 26) else if v <? 62 then 48 + (v - 52)
  else if v =? 62 then 43 else 47.
Definition b64val (c : Z) : option Z :=
  if (65 <=? c) && (c <=? 90) then Some (c - 65)
  else if (97 <=? c) && (c <=? 122) then Some (26 + (c - 97))
  else if (48 <=? c) && (c <=? 57) then Some (52 + (c - 48))
  else if c =? 43 then Some 62 else if c =? 47 then Some 63 else None.
Definition pad : Z := 61.
Definition byte (c : Z) : Prop := 0 <= c < 256.

(** the standard encoding *)
Fixpoint b64encode (l : list Z) : list Z :=
  match l with
  | a :: b :: c :: r =>
      b64char (a / 4) :: b64char (a mod 4 * 16 + b / 16) :: b64char (b mod 16 * 4 + c / 64) :: b64char (c mod 64) :: b64encode r
  | [a; b] => [b64char (a / 4); b64char (a mod 4 * 16 + b / 16); b64char (b mod 16 * 4); pad]
  | [a] => [b64char (a / 4); b64char (a mod 4 * 16); pad; pad]
  | [] => []
  end.

(** what an encoded text stands for: the characters of the alphabet before the first '=',
    in groups of four; everything else is ignored.  An incomplete last group counts
    when it is closed by '=' *)
Fixpoint before_pad (l : list Z) : list Z :=
  match l with [] => [] | c :: r => if c =? pad then [] else c :: before_pad r end.
Definition has_pad (l : list Z) : bool := existsb (Z.eqb pad) l.
Fixpoint sextets (l : list Z) : list Z :=
  match l with [] => [] | c :: r => match b64val c with Some v => v :: sextets r | None => sextets r end end.
Fixpoint groups (closed : bool) (l : list Z) : list Z :=
  match l with
  | a :: b :: c :: d :: r => (a * 4 + b / 16) :: (b mod 16 * 16 + c / 4) :: (c mod 4 * 64 + d) :: groups closed r
  | [a; b; c] => if closed then [a * 4 + b / 16; b mod 16 * 16 + c / 4] else []
  | [a; b] => if closed then [a * 4 + b / 16] else []
  | _ => []
  end.
Definition b64decoded (l : list Z) : list Z := groups (has_pad l) (sextets (before_pad l)).
(** a correctly padded encoded text without other characters *)
Definition alpha (c : Z) : Prop := exists v, b64val c = Some v.
Definition well_formed (l : list Z) : Prop :=
  zlen l mod 4 = 0 /\ exists q r, l = q ++ r /\ Forall alpha q /\ (r = [] \/ r = [pad] \/ r = [pad; pad]).
(** the characters that count *)
Definition relevantb (c : Z) : bool := match b64val c with Some _ => true | None => c =? pad end.
