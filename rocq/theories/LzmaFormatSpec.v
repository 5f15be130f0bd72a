(** The LZMA format: what the bytes of an LZMA stream mean.  Written after the published LZMA specification, without the
    data structures of the decoder: the history is the whole output, a probability belongs to a named context, and input
    is a list. *)
From Verif Require Import Base.

(** properties of a stream: literal context bits, literal position bits, position bits, size of the dictionary *)
Record lzprops := mkLzprops { x_lc : Z; x_lp : Z; x_pb : Z; x_dict : Z }.
Definition lzprops_ok (p : lzprops) : Prop := 0 <= x_lc p <= 8 /\ 0 <= x_lp p <= 4 /\ 0 <= x_pb p <= 4 /\ 4096 <= x_dict p < 4294967296.

(** the contexts that have a probability of their own: [state] 0..11; [pos]: position modulo 2^pb; [node]: the bits of the number
    that were decoded already, behind a leading 1 *)
Inductive ctx :=
| CMatch (state pos : Z) | CRep (state : Z) | CRepG0 (state : Z) | CRepG1 (state : Z) | CRepG2 (state : Z) | CRep0Long (state pos : Z)
| CLenChoice (rep : bool) | CLenChoice2 (rep : bool)
| CLenLow (rep : bool) (pos node : Z) | CLenMid (rep : bool) (pos node : Z) | CLenHigh (rep : bool) (node : Z)
| CSlot (len node : Z) | CSpecial (slot node : Z) | CAlign (node : Z)
| CLiteral (lit node : Z).
Definition ctx_dec (a b : ctx) : {a = b} + {a <> b}.
Proof. decide equality; try apply Z.eq_dec; apply bool_dec. Defined.

(** ** The range coder.  Probabilities that a bit is 0 are out of 2048.  Numbers have 32 bits. *)
Record coder := mkCoder { k_probs : ctx -> Z; k_range : Z; k_code : Z; k_in : list Z }.
Definition set_prob (f : ctx -> Z) (c : ctx) (v : Z) : ctx -> Z := fun d => if ctx_dec d c then v else f d.
(** a range below 2^24 is extended by the next byte; [None]: there is none *)
Definition norm (k : coder) : option coder :=
  if k_range k <? 2 ^ 24 then
    match k_in k with
    | b :: r => Some (mkCoder (k_probs k) (k_range k * 256) ((k_code k * 256) mod 2 ^ 32 + b mod 256) r)
    | [] => None
    end
  else Some k.
(** a bit with an adaptive probability *)
Definition coded (c : ctx) (k : coder) : coder * bool :=
  let v := k_probs k c in
  let bound := k_range k / 2048 * v in
  if k_code k <? bound then (mkCoder (set_prob (k_probs k) c (v + (2048 - v) / 32)) bound (k_code k) (k_in k), false)
  else (mkCoder (set_prob (k_probs k) c (v - v / 32)) (k_range k - bound) (k_code k - bound) (k_in k), true).
(** a bit that halves the range: 1 if the code is in the upper half.  A code that is not below the range (this is only possible if
    the stream starts with 0 and four times 255) counts as in the lower half if it is 2^31 or more above. *)
Definition halved (k : coder) : coder * bool :=
  let range := k_range k / 2 in
  if (range <=? k_code k) && (k_code k - range <? 2 ^ 31) then (mkCoder (k_probs k) range (k_code k - range) (k_in k), true)
  else (mkCoder (k_probs k) range (k_code k) (k_in k), false).

(** ** What is coded: programs that ask for bits *)
Inductive prog (A : Type) :=
| Done (a : A) | Coded (c : ctx) (next : bool -> prog A) | Halved (next : bool -> prog A).
Arguments Done {A}. Arguments Coded {A}. Arguments Halved {A}.
Fixpoint pbind {A B} (p : prog A) (f : A -> prog B) : prog B :=
  match p with
  | Done a => f a
  | Coded c n => Coded c (fun b => pbind (n b) f)
  | Halved n => Halved (fun b => pbind (n b) f)
  end.
Notation "'ask' x ':=' p 'in' k" := (pbind p (fun x => k)) (at level 200, x name, p at level 100, k at level 200).
Fixpoint decode {A} (p : prog A) (k : coder) : option (A * coder) :=
  match p with
  | Done a => Some (a, k)
  | Coded c n => match norm k with Some k => let (k, b) := coded c k in decode (n b) k | None => None end
  | Halved n => match norm k with Some k => let (k, b) := halved k in decode (n b) k | None => None end
  end.
Definition one (c : ctx) : prog bool := Coded c Done.
Definition z_of (b : bool) : Z := if b then 1 else 0.

(** a number of [n] bits, highest bit first *)
Fixpoint tree (mk : Z -> ctx) (n : nat) (m : Z) : prog Z :=
  match n with O => Done m | S n => ask b := one (mk m) in tree mk n (2 * m + z_of b) end.
Definition number (mk : Z -> ctx) (n : nat) : prog Z := ask m := tree mk n 1 in Done (m - 2 ^ Z.of_nat n).
(** lowest bit first *)
Fixpoint reverse (mk : Z -> ctx) (n : nat) (m weight : Z) : prog Z :=
  match n with
  | O => Done 0
  | S n => ask b := one (mk m) in ask r := reverse mk n (2 * m + z_of b) (2 * weight) in Done (z_of b * weight + r)
  end.
Definition reversed (mk : Z -> ctx) (n : nat) : prog Z := reverse mk n 1 1.
(** bits without a probability, highest first *)
Fixpoint direct (n : nat) (m : Z) : prog Z :=
  match n with O => Done m | S n => Halved (fun b => direct n (2 * m + z_of b)) end.

(** a literal: a byte, in the context of its neighbourhood [lit] *)
Definition plain (lit : Z) (n : nat) (m : Z) : prog Z := ask m := tree (CLiteral lit) n m in Done (m - 256).
(** behind a match: the byte that would have continued it is part of the context as long as its bits are those of the literal *)
Fixpoint matched (lit expected : Z) (n : nat) (m : Z) : prog Z :=
  match n with
  | O => Done (m - 256)
  | S n =>
      let e := Z.testbit expected (Z.of_nat n) in
      ask b := one (CLiteral lit ((1 + z_of e) * 256 + m)) in
      if Bool.eqb b e then matched lit expected n (2 * m + z_of b) else plain lit n (2 * m + z_of b)
  end.
(** length of a match, less 2 *)
Definition length_ (rep : bool) (pos : Z) : prog Z :=
  ask c := one (CLenChoice rep) in
  if c then
    ask c := one (CLenChoice2 rep) in
    if c then ask l := number (CLenHigh rep) 8 in Done (16 + l)
    else ask l := number (CLenMid rep pos) 3 in Done (8 + l)
  else number (CLenLow rep pos) 3.
(** distance of a match, less 1 *)
Definition distance (len : Z) : prog Z :=
  ask slot := number (CSlot (Z.min len 3)) 6 in
  if slot <? 4 then Done slot
  else
    let bits := slot / 2 - 1 in
    let high := 2 + slot mod 2 in
    if slot <? 14 then
      ask low := reversed (CSpecial slot) (Z.to_nat bits) in
      Done (high * 2 ^ bits + low)
    else
      ask mid := direct (Z.to_nat (bits - 4)) high in
      ask low := reversed CAlign 4 in
      Done (mid * 16 + low).

Inductive symbol := Lit (b : Z) | New (len dist : Z) | Short | Again (which len : Z) | EndMark.
Definition sym (state pos lit : Z) (expected : option Z) : prog symbol :=
  ask m := one (CMatch state pos) in
  if m then
    ask r := one (CRep state) in
    if r then
      ask g := one (CRepG0 state) in
      ask w := if g then
                 ask g := one (CRepG1 state) in
                 if g then ask g := one (CRepG2 state) in Done (Some (if g then 3 else 2)) else Done (Some 1)
               else
                 ask l := one (CRep0Long state pos) in
                 Done (if l then Some 0 else None) in
      match w with
      | None => Done Short
      | Some w => ask l := length_ true pos in Done (Again w (l + 2))
      end
    else
      ask l := length_ false pos in
      ask d := distance l in
      Done (if d =? 4294967295 then EndMark else New (l + 2) (d + 1))
  else
    ask b := match expected with None => plain lit 8 1 | Some e => matched lit e 8 1 end in
    Done (Lit b).

(** ** The state of a stream: everything decoded so far, and the last four distances *)
Record lz := mkLz { z_coder : coder; z_state : Z; z_rep0 : Z; z_rep1 : Z; z_rep2 : Z; z_rep3 : Z; z_out : list Z }.
(** the byte [d] places back *)
Definition back (d : Z) (o : list Z) : Z := nth (length o - Z.to_nat d) o 0.
Fixpoint copy (n : nat) (d : Z) (o : list Z) : list Z := match n with O => o | S n => copy n d (o ++ [back d o]) end.
(** what the next symbol depends on: the position, the previous byte, and behind a match the byte at the last distance *)
Definition next_sym (p : lzprops) (z : lz) : prog symbol :=
  let pos := zlen (z_out z) in
  let prev := match z_out z with [] => 0 | _ => back 1 (z_out z) end in
  sym (z_state z) (pos mod 2 ^ x_pb p) (pos mod 2 ^ x_lp p * 2 ^ x_lc p + prev / 2 ^ (8 - x_lc p))
    (if z_state z <? 7 then None else Some (back (z_rep0 z) (z_out z))).
Definition after_literal (state : Z) : Z := if state <? 4 then 0 else if state <? 10 then state - 3 else state - 6.
Inductive outcome := Starved | Next (z : lz) | Marked (k : coder) | Invalid.
(** one symbol; after it the coder is normalised *)
Definition step (p : lzprops) (z : lz) : outcome :=
  match decode (next_sym p z) (z_coder z) with
  | None => Starved
  | Some (s, k) =>
    match norm k with
    | None => Starved
    | Some k =>
      let lit_state := z_state z <? 7 in
      let '(r0, r1, r2, r3) := (z_rep0 z, z_rep1 z, z_rep2 z, z_rep3 z) in
      match s with
      | EndMark => Marked k
      | Lit b => Next (mkLz k (after_literal (z_state z)) r0 r1 r2 r3 (z_out z ++ [b]))
      | New len d =>
          if (d <=? zlen (z_out z)) && (d <=? x_dict p)
          then Next (mkLz k (if lit_state then 7 else 10) d r0 r1 r2 (copy (Z.to_nat len) d (z_out z)))
          else Invalid
      | _ =>
        match z_out z with
        | [] => Invalid
        | _ =>
          match s with
          | Again w len =>
              let '(d, r1, r2, r3) := if w =? 0 then (r0, r1, r2, r3) else if w =? 1 then (r1, r0, r2, r3)
                                      else if w =? 2 then (r2, r0, r1, r3) else (r3, r0, r1, r2) in
              Next (mkLz k (if lit_state then 8 else 11) d r1 r2 r3 (copy (Z.to_nat len) d (z_out z)))
          | _ => Next (mkLz k (if lit_state then 9 else 11) r0 r1 r2 r3 (z_out z ++ [back r0 (z_out z)]))
          end
        end
      end
    end
  end.
(** a stream starts with a 0 and the code *)
Definition start (r : list Z) : option lz :=
  match r with
  | b0 :: b1 :: b2 :: b3 :: b4 :: r =>
      if b0 mod 256 =? 0 then
        Some (mkLz (mkCoder (fun _ => 1024) (2 ^ 32 - 1) ((((b1 mod 256) * 256 + b2 mod 256) * 256 + b3 mod 256) * 256 + b4 mod 256) r) 0 1 1 1 1 [])
      else None
  | _ => None
  end.
Inductive steps (p : lzprops) : lz -> lz -> Prop :=
| Steps0 z : steps p z z
| StepsS z y x : steps p z y -> step p y = Next x -> steps p z x.
(** everything that can be decoded.  A byte of input is enough for fewer than 400 symbols: P_LzmaFormat.run_stops. *)
Fixpoint lzrun (n : nat) (p : lzprops) (z : lz) : lz :=
  match n with O => z | S n => match step p z with Next z => lzrun n p z | _ => z end end.
Definition lz_output (p : lzprops) (r : list Z) : list Z :=
  match start r with None => [] | Some z => z_out (lzrun (400 * (length r + 1)) p z) end.
(** [c] is the complete code of [x], with or without an end mark: nothing is left over and the final code is 0 *)
Definition lz_marked_data (p : lzprops) (c x : list Z) : Prop :=
  exists z y k, start c = Some z /\ steps p z y /\ z_out y = x /\ step p y = Marked k /\ k_in k = [] /\ k_code k = 0.
Definition lz_unmarked_data (p : lzprops) (c x : list Z) : Prop :=
  exists z y, start c = Some z /\ steps p z y /\ z_out y = x /\ k_in (z_coder y) = [] /\ k_code (z_coder y) = 0.
(** data that is not LZMA: the mistake comes after at most [m] bytes of output *)
Definition lz_wrong (p : lzprops) (t : list Z) (m : Z) : Prop :=
  (5 <= zlen t /\ start t = None) \/
  exists z0 z, start t = Some z0 /\ steps p z0 z /\ zlen (z_out z) <= m /\ (step p z = Invalid \/ exists k, step p z = Marked k /\ k_code k <> 0).
(** a symbol follows [o], or is partly in [o]; and the data does not end with [o] *)
Definition lz_continues (p : lzprops) (t o : list Z) : Prop :=
  exists z0 z y, start t = Some z0 /\ steps p z0 z /\ step p z = Next y /\ zlen (z_out z) <= zlen o < zlen (z_out y) /\ ~ (z_out z = o /\ k_code (z_coder z) = 0).
(** everything was decoded, but the data does not end *)
Definition lz_starving (p : lzprops) (r o : list Z) : Prop :=
  (zlen r < 5 /\ o = []) \/ exists z0 z, start r = Some z0 /\ steps p z0 z /\ step p z = Starved /\ z_out z = o.
