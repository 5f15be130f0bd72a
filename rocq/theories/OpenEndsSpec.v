(** Specification for C54: opening a file whatever its bytes are. *)
From Verif Require Import Base StreamSpec ArchiveSpec M_Open.

(** The result of subStreamProvider(): no archive, or a provider standing at its first entry.  In the second case the consumer may use the
    entry in any way ([within_max], ArchiveSpec.v: reads, skips, resets that do not go beyond the announced size), then every further
    call of nextEntry() returns, the same holds for the entries it announces, and it returns null after fewer than [k] of them. *)
Definition opened_ends {R} (k : nat) (o : opened R) : Prop :=
  match o with
  | NoArchive _ => True
  | Found pv st i _ => forall h, Forall (within_max INT32_MAX i) h ->
      safe True (pv_entry pv st h) (fun '(st2, _) => ends True pv (within_max INT32_MAX) k st2)
  end.
(** a decompressor that writes at most [M] bytes, [DI]: its states after reading and writing some number of bytes (InflateSpec.sane_codec) *)
Definition limited {D} (M : Z) (DI : D -> Z -> Z -> Prop) : Prop := forall d u o, DI d u o -> o <= M.
