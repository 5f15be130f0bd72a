(** Specification for C59: listing an archive that was cut off. *)
From Verif Require Import Base StreamSpec ArchiveSpec CpioSpec.

(** An input that reports no error of its own (not even for skips at its end), and reports its end when a read gets less than asked for. *)
Definition quiet {St} (par : ops St Z) (full : list Z) (lim : Z) : Prop :=
  forall p v c p' ob, Conforms par full False lim p v -> call_ok full lim c -> exec par p c = Ret (p', ob) ->
    ob_st ob <> Error /\ match c with Read mn _ => ob_ret ob < mn -> ob_st ob = Eof | _ => True end.
(** What is left of an archive of which only the first [k] bytes are there: the members that are complete, and the member
    whose header is complete but whose data are not, with the data that are there; and the status() in which the code ends the listing:
    Error only if the cut is in the name of a header, after its first 110 bytes. *)
Inductive cpio_cut (lim : Z) : Z -> list Z -> list member -> option (info * list Z) -> status -> Prop :=
| cut_eof : forall k, cpio_cut lim k [] [] None Eof
| cut_trailer : forall k head mtime size rest, cpio_head lim trailer_name mtime size head -> zlen head <= k -> cpio_cut lim k (head ++ rest) [] None Eof
| cut_head : forall k head name mtime size rest, cpio_head lim name mtime size head -> k < zlen head ->
    cpio_cut lim k (head ++ rest) [] None (if k <? 110 then Eof else Error)
| cut_data : forall k head name mtime data pad rest, cpio_head lim name mtime (zlen data) head -> plain_name name <> trailer_name ->
    zlen head <= k < zlen head + zlen data ->
    cpio_cut lim k (head ++ data ++ pad ++ rest) [] (Some (mkInfo (plain_name name) (zlen data) mtime 2, slice data 0 (k - zlen head))) Eof
| cut_whole : forall k head name mtime data pad rest ms last fin, cpio_head lim name mtime (zlen data) head -> plain_name name <> trailer_name ->
    zlen head + zlen data <= k -> 0 <= zlen pad < 4 -> (zlen data + zlen pad) mod 4 = 0 ->
    cpio_cut lim (k - zlen (head ++ data ++ pad)) rest ms last fin ->
    cpio_cut lim k (head ++ data ++ pad ++ rest) (mkMember (mkInfo (plain_name name) (zlen data) mtime 2) data :: ms) last fin.
(** The provider lists the complete members as in ArchiveSpec.v, then the member that is cut: its stream gives only data of
    that member, no call reports the end; then nextEntry() returns null.  The last status() is [fin]. *)
Fixpoint lists_cut {St} (pv : provider St) (lim : Z) (ms : list member) (last : option (info * list Z)) (fin : status) (st : St) : Prop :=
  match ms with
  | [] => match last with
          | None => exists st', pv_next pv st = Ret (st', None) /\ pv_status pv st' = fin
          | Some (i, data) => exists st1, pv_next pv st = Ret (st1, Some i) /\ pv_status pv st1 = Ok /\
              forall h, Forall (call_ok data lim) h ->
                exists st2 obs, pv_entry pv st1 h = Ret (st2, obs) /\ accepts data True view0 h obs /\ Forall (fun ob => ob_ret ob <> -1) obs /\
                  exists st', pv_next pv st2 = Ret (st', None) /\ pv_status pv st' = fin
          end
  | m :: ms' => exists st1, pv_next pv st = Ret (st1, Some (m_info m)) /\ pv_status pv st1 = Ok /\
      forall h, Forall (call_ok (m_data m) lim) h ->
        exists st2 obs, pv_entry pv st1 h = Ret (st2, obs) /\ accepts (m_data m) False view0 h obs /\ lists_cut pv lim ms' last fin st2
  end.
