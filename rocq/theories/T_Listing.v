(** C40: listing an archive with everything nested in it. *)
From Verif Require Import Base StreamSpec ArchiveSpec CacheSpec M_Ar M_Cache P_Cache M_Listing ListingSpec P_Listing.

(** For every archive whose nesting is at most nine levels, the traversal ends after one step per entry
    (at all levels) and one more, without a crash, and the tree it leaves is the one built from the
    listing of the archive: every entry once, in order, under its own archive, with its data. *)
Theorem C40_listing_partial : forall root s, (levels s <= 9)%nat ->
  exists st', (let '(st, d) := list_new root s in list_all (count s + 2) (levels s + 1) st d) = Ret st' /\
    list_root st' = Some (build (listed_root root s)).
Proof. exact listing_ok. Qed.
(** so whatever is asked about the url of the archive afterwards is answered from that listing *)
Theorem C40_then_find_partial : forall url root s q, (levels s <= 9)%nat ->
  exists st' t r, (let '(st, d) := list_new root s in list_all (count s + 2) (levels s + 1) st d) = Ret st' /\
    list_root st' = Some t /\ findEntry [(url, t)] q = Ret r /\
    answer [(url, listed_root root s)] q (match r with Some t => Some (t_info t) | None => None end).
Proof.
  intros url root s q HL. destruct (listing_ok root s HL) as (st' & E & R).
  destruct (findEntry_ok [(url, listed_root root s)] q) as (r & F & A).
  exists st', (build (listed_root root s)), r. split; [exact E|]. split; [exact R|]. split; [exact F|exact A].
Qed.
(** Missing: with ten levels the code indexes its stack of ten elements at position ten. *)
Fixpoint chain (n : nat) : stream :=
  match n with O => Plain | S n => Arch (Entry (mkInfo [97] 4 0 2) 4 (chain n)) [] end.
Theorem C40_ten_levels_refuted : levels (chain 10) = 10%nat /\
  (let '(st, d) := list_new (mkInfo [114] 9 0 2) (chain 10) in list_all (count (chain 10) + 2) 20 st d) = UB.
Proof. split; vm_compute; reflexivity. Qed.
(** Nine levels, with siblings of unknown size: nothing is lost. *)
Theorem C40_case :
  let s := Arch (Entry (mkInfo [120] (-1) 7 2) 3 (chain 8)) [Entry (mkInfo [121] (-1) 8 2) 6 Plain] in
  levels s = 9%nat /\
  match (let '(st, d) := list_new (mkInfo [114] 9 0 2) s in list_all (count s + 2) (levels s + 1) st d) with
  | Ret st => match list_root st with
              | Some t => findEntry [([114], t)] [114;47;121] = Ret (Some (T (mkInfo [121] 6 8 2) [])) /\
                          (exists u, findEntry [([114], t)] [114;47;120;47;97;47;97] = Ret (Some u) /\ t_info u = mkInfo [97] 4 0 3)
              | None => False end
  | _ => False end.
Proof. split; [vm_compute; reflexivity|]. vm_compute. split; [reflexivity|]. eexists. split; reflexivity. Qed.
