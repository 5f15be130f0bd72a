(** What the C library says about the functions that lib/compat.cpp replaces. *)
From Verif Require Import Base.

(** ** Characters and strings in memory *)
(** a char of the "C" locale, -128..127 *)
Definition lower (c : Z) : Z := if (65 <=? c) && (c <=? 90) then c + 32 else c.
(** [s] is a C string: chars other than NUL *)
Definition cstr (s : list Z) : Prop := Forall (fun c => -128 <= c < 128 /\ c <> 0) s.
(** equal except for case *)
Definition same_text (a b : list Z) : Prop := Forall2 (fun x y => lower x = lower y) a b.
(** the first char in which two strings differ (the end counts as a NUL) is less in [a] than in [b] *)
Definition before (a b : list Z) : Prop :=
  exists p q a' b', a = p ++ a' /\ b = q ++ b' /\ same_text p q /\ lower (hd 0 a') < lower (hd 0 b').
(** [little] is at offset [i] of [big] when case is ignored *)
Definition occurs_at (little big : list Z) (i : Z) : Prop :=
  exists p m t, big = p ++ m ++ t /\ zlen p = i /\ same_text m little.
