(** Specification for C35: who shares a listing, and what a lister lists. *)
From Verif Require Import Base StreamSpec M_DirLister.

(** how many hold the listing [l]: the reader and the listers *)
Definition holders (w : world) (l : nat) : Z :=
  Z.of_nat (count_occ Nat.eq_dec (w_held w) l) +
  zlen (filter (fun x => match d_listing (snd x) with Some k => Nat.eqb k l | None => false end) (w_listers w)).
(** what the next call of nextEntry() works on: the listing and the directory in it *)
Definition lists_what (p : priv) : option (nat * list Z) :=
  match d_listing p with
  | None => None
  | Some l => Some (l, match d_entry p with None => d_url p | Some e => e end)
  end.
(** A program that follows the rules of C++: it names new objects freshly, uses existing ones only, and
    the reader releases a listing once, and shares only one it holds. *)
Definition legal (w : world) (o : op) : Prop :=
  match o with
  | OpNew a _ | OpStatic a _ => lister (w_listers w) a = None
  | OpShare a l _ => lister (w_listers w) a = None /\ In l (w_held w)
  | OpRelease l => In l (w_held w)
  | OpCopy a b => lister (w_listers w) a = None /\ lister (w_listers w) b <> None
  | OpAssign a b => lister (w_listers w) a <> None /\ lister (w_listers w) b <> None
  | OpDestroy a | OpUse a => lister (w_listers w) a <> None
  end.
(** [ok os]: every operation is legal in the world in which it is made, and meets [extra] *)
Fixpoint all_legal (extra : op -> Prop) (w : world) (os : list op) : Prop :=
  match os with
  | [] => True
  | o :: os => legal w o /\ extra o /\ forall w', step w o = Ret w' -> all_legal extra w' os
  end.
