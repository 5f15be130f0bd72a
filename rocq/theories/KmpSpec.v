(** Specification for C11: occurrences of a string in a string. *)
From Verif Require Import Base.
(** specification: where a string occurs *)
Definition occurs_at (q hay : list Z) (j : Z) : Prop := 0 <= j /\ j + zlen q <= zlen hay /\ slice hay j (zlen q) = q.
(** at most 7 characters, or the last three characters do not occur earlier in the query *)
Definition short_or_unique_tail (q : list Z) : Prop :=
  zlen q <= 7 \/ forall p, 0 <= p < zlen q - 3 -> slice q p 3 <> slice q (zlen q - 3) 3.

Definition bytes (l : list Z) : Prop := Forall (fun c => 0 <= c < 256) l.
