(** Character encodings, independent of the code, and what is assumed of iconv (C30). *)
From Verif Require Import Base.

(** what a list of bytes starts with, in a given shift state: a character (or a shift sequence) of [k] bytes that is
    written as [u] and is followed by the state [s'], the beginning of a character, or something that no character starts with *)
Inductive front (A St : Type) := Char (k : Z) (u : list A) (s' : St) | Incomplete | Invalid.
Arguments Char {A St}. Arguments Incomplete {A St}. Arguments Invalid {A St}.
(** [St] are the shift states; a stateless encoding has one: [unit] *)
Definition encoding (A St : Type) := St -> list Z -> front A St.
(** characters are complete as soon as their bytes are there and have at most [maxin] bytes and at most [maxout] items *)
Record encoding_ok {A St} (e : encoding A St) (maxin maxout : Z) : Prop := {
  eo_char : forall s l k u s', e s l = Char k u s' -> 1 <= k <= zlen l /\ zlen u <= maxout /\ forall r, e s (l ++ r) = Char k u s';
  eo_invalid : forall s l, e s l = Invalid -> forall r, e s (l ++ r) = Invalid;
  eo_incomplete : forall s l, e s l = Incomplete -> zlen l < maxin;
  eo_nothing : forall s, e s [] = Incomplete }.
(** from state [s] the bytes are a sequence of characters, which is written as ... and leads to the state ... *)
Inductive converts {A St} (e : encoding A St) : St -> list Z -> list A -> St -> Prop :=
| cv_end s : converts e s [] [] s
| cv_char s l k u s' us s2 : e s l = Char k u s' -> converts e s' (skipn (Z.to_nat k) l) us s2 -> converts e s l (u ++ us) s2.
(** ... or only up to a place where something invalid starts or the input ends within a character *)
Inductive breaks {A St} (e : encoding A St) : St -> list Z -> list A -> Prop :=
| br_here s l : l <> [] -> e s l = Incomplete \/ e s l = Invalid -> breaks e s l []
| br_char s l k u s' us : e s l = Char k u s' -> breaks e s' (skipn (Z.to_nat k) l) us -> breaks e s l (u ++ us).

(** iconv(3): from the state of the descriptor it converts complete characters from the front of the input as long as they fit;
    tells how many bytes were converted, what was written, and why it stopped: everything done, EILSEQ, EINVAL, E2BIG; the
    descriptor is then in the state behind the converted characters (the last result) *)
Inductive ires := Done | Eilseq | Einval | E2big.
Definition converter (A St : Type) := St -> list Z -> Z -> Z * list A * ires * St.
Definition converter_ok {A St} (e : encoding A St) (maxout : Z) (ic : converter A St) : Prop :=
  forall s l space k y r s', 0 <= space -> ic s l space = (k, y, r, s') ->
    0 <= k <= zlen l /\ zlen y <= space /\ converts e s (firstn (Z.to_nat k) l) y s' /\
    match r with
    | Done => k = zlen l
    | Eilseq => e s' (skipn (Z.to_nat k) l) = Invalid
    | Einval => k < zlen l /\ e s' (skipn (Z.to_nat k) l) = Incomplete
    | E2big => k < zlen l /\ space - zlen y < maxout
    end.
