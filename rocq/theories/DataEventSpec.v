(** Specification for C20 (documentation in /repo/include/strigi/dataeventinputstream.h:27-97). *)
From Verif Require Import Base StreamSpec M_DataEvent.

Section Spec.
Context {A : Type}.
(** Forward reset is implemented by skipping: it ends the validity of the segment handed out
    before.  Otherwise the contract of StreamSpec.v. *)
Definition next_view_fwd (v : view) (c : call) (ob : obs A) : view :=
  match c with
  | Reset p => if v_pos v <? p then mkView (ob_ret ob) (ob_ret ob) (ob_ret ob) else next_view v c ob
  | _ => next_view v c ob
  end.
Fixpoint accepts_fwd (content : list A) (fails : Prop) (v : view) (l : list call) (obs : list (obs A)) : Prop :=
  match l, obs with
  | [], [] => True
  | c :: l', ob :: obs' =>
      if is_error (ob_st ob) then bad_obs content fails v c ob /\ obs' = []
      else good_obs content fails v c ob /\ accepts_fwd content fails (next_view_fwd v c ob) l' obs'
  | _, _ => False
  end.

(** the furthest position that was reached *)
Definition furthest (obs : list (obs A)) : Z := fold_left (fun m ob => Z.max m (ob_pos ob)) obs 0.

(** what a handler whose answers are [want] has seen when position [far] was reached:
    consecutive non-empty pieces of the content; all of it up to [far] as long as it wanted
    more, and nothing more after the first refusal; the end at most once, as the last
    call, and only when everything was read *)
Definition handler_saw (content : list A) (want : list (list A) -> bool) (far : Z) (log : list (event A)) : Prop :=
  exists ds ended, log = map Data ds ++ (if ended : bool then [End] else []) /\
    Forall (fun d => d <> []) ds /\
    (forall i, (0 < i < length ds)%nat -> want (firstn i ds) = true) /\
    (ended = true -> far = zlen content) /\
    ((concat ds = slice content 0 far /\ (ds <> [] -> want ds = true)) \/
     (ds <> [] /\ want ds = false /\ exists k, 0 <= k <= far /\ concat ds = slice content 0 k)).

(** the input, used as documented and while it reports no error, never announces a wrong
    size, and going back never fails *)
Definition honest {P} (par : ops P A) (content : list A) (lim : Z) (p : P) : Prop :=
  forall l p' obs, Forall (call_ok content lim) l -> run par p l = Ret (p', obs) -> Forall (fun ob => ob_st ob <> Error) obs ->
    (o_size par p' = -1 \/ o_size par p' = zlen content) /\
    forall q p'' r, 0 <= q <= o_pos par p' -> o_reset par p' q = Ret (p'', r) -> o_status par p'' <> Error.
(** a read that met the end *)
Fixpoint short_read (l : list call) (obs : list (obs A)) : bool :=
  match l, obs with
  | Read mn _ :: l', ob :: obs' => ((ob_ret ob <? mn) && negb (is_error (ob_st ob))) || short_read l' obs'
  | _ :: l', _ :: obs' => short_read l' obs'
  | _, _ => false
  end.
End Spec.
