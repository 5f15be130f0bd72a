(** Specification for C40: the listing an archive must produce. *)
From Verif Require Import Base StreamSpec ArchiveSpec CacheSpec M_Listing.

(** an entry with unknown size gets the size found by reading it; an entry that is an archive is also a
    directory, with the entries of that archive *)
Fixpoint listed (e : entry) : listing :=
  match e with
  | Entry i real s =>
      let size := if i_size i <? 0 then Z.max real 0 else i_size i in
      match s with
      | Plain => L (mkInfo (i_name i) size (i_mtime i) (i_type i)) []
      | Arch e es => L (mkInfo (i_name i) size (i_mtime i) (Z.lor (i_type i) 1)) (listed e :: map listed es)
      end
  end.
Definition listed_root (root : info) (s : stream) : listing :=
  match s with
  | Plain => L root []
  | Arch e es => L (mkInfo (i_name root) (i_size root) (i_mtime root) (Z.lor (i_type root) 1)) (listed e :: map listed es)
  end.
(** how deep archives are nested in the stream of an entry (0: no archive) *)
Fixpoint levels (s : stream) : nat :=
  match s with Plain => O | Arch e es => S (fold_left (fun m x => Nat.max m (levels_e x)) es (levels_e e)) end
with levels_e (e : entry) : nat := match e with Entry _ _ s => levels s end.
(** how many entries there are at all levels *)
Fixpoint count (s : stream) : nat :=
  match s with Plain => O | Arch e es => fold_left (fun m x => m + count_e x)%nat es (count_e e) end
with count_e (e : entry) : nat := match e with Entry _ _ s => S (count s) end.
