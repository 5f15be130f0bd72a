(** A form of the stream contract for streams that support reset only within the segment that
    was handed out last (streambase.h:166-191): histories in which every reset goes into the
    currently valid segment.  [Reset p] stands for a reset to the position of that segment
    that is nearest to [p].  With [edge = false] a reset forward to the very end of the segment
    is left out (a rewind, or a reset that stays where it is, is always included). *)
From Verif Require Import Base StreamSpec.

Section Seg.
Context {St A : Type}.
Variable edge : bool.
Definition last_target (v : view) : Z := if edge || (v_pos v =? v_hi v) then v_hi v else v_hi v - 1.
Definition into_segment (v : view) (c : call) : call :=
  match c with Reset p => Reset (Z.max (v_lo v) (Z.min (last_target v) p)) | _ => c end.
Fixpoint run_seg (o : ops St A) (s : St) (v : view) (l : list call) : out (St * list (obs A)) :=
  match l with
  | [] => Ret (s, [])
  | c :: l' =>
      let c := into_segment v c in
      let* (s', ob) := exec o s c in
      if is_error (ob_st ob) then Ret (s', [ob])
      else let* (s'', obs) := run_seg o s' (next_view v c ob) l' in Ret (s'', ob :: obs)
  end.
Fixpoint accepts_seg (content : list A) (fails : Prop) (v : view) (l : list call) (obs : list (obs A)) : Prop :=
  match l, obs with
  | [], [] => True
  | c :: l', ob :: obs' =>
      let c := into_segment v c in
      if is_error (ob_st ob) then bad_obs content fails v c ob /\ obs' = []
      else good_obs content fails v c ob /\ accepts_seg content fails (next_view v c ob) l' obs'
  | _, _ => False
  end.
Definition ConformsSeg (o : ops St A) (content : list A) (fails : Prop) (calls : call -> Prop) (s : St) (v : view) : Prop :=
  forall l, Forall calls l -> exists s' obs, run_seg o s v l = Ret (s', obs) /\ accepts_seg content fails v l obs.
End Seg.
(** read and skip arguments as documented (max = 0 meaning "no limit"), with room for a
    terminator of [tl] items; reset arguments arbitrary *)
Definition seg_call (lim tl : Z) (c : call) : Prop :=
  match c with
  | Read mn mx => 1 <= mn /\ mn + tl <= lim /\ mn + tl <= INT32_MAX /\ (mn <= mx <= INT32_MAX \/ mx = 0)
  | Skip n => 0 <= n <= INT32_MAX
  | Reset _ => True
  end.
(** no call of the history moves the stream back *)
Definition no_reset (c : call) : Prop := match c with Reset _ => False | _ => True end.
