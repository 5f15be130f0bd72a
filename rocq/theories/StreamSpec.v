(** The specification of the stream API, written from the documentation in
    /repo/include/strigi/streambase.h:74-191 and independent of every
    implementation.  A stream is observed through read / skip / reset and the
    accessors position(), size(), status(). *)
From Verif Require Import Base.

(** streambase.h:31-36 [enum StreamStatus] *)
Inductive status := Ok | Eof | Error.
Definition is_error (s : status) : bool := match s with Error => true | _ => false end.
Definition is_eof (s : status) : bool := match s with Eof => true | _ => false end.

(** The interface of a stream implementation with state [St] and items [A];
    streambase.h:78-98 (accessors), 151 (read), 165 (skip), 191 (reset).
    [o_read s min max] returns the new state, the return value of the call and
    the items behind the pointer that was handed out. *)
Record ops (St A : Type) := mkOps {
  o_read   : St -> Z -> Z -> out (St * Z * list A);
  o_skip   : St -> Z -> out (St * Z);
  o_reset  : St -> Z -> out (St * Z);
  o_pos    : St -> Z;
  o_size   : St -> Z;
  o_status : St -> status }.
Arguments o_read {St A}. Arguments o_skip {St A}. Arguments o_reset {St A}.
Arguments o_pos {St A}. Arguments o_size {St A}. Arguments o_status {St A}.

(** calls and what a caller observes of one call *)
Inductive call := Read (min max : Z) | Skip (n : Z) | Reset (p : Z).
Record obs (A : Type) := mkObs {
  ob_ret : Z; ob_data : list A; ob_pos : Z; ob_size : Z; ob_st : status }.
Arguments mkObs {A}. Arguments ob_ret {A}. Arguments ob_data {A}.
Arguments ob_pos {A}. Arguments ob_size {A}. Arguments ob_st {A}.

Definition observe {St A} (o : ops St A) (s : St) (n : Z) (d : list A) : obs A :=
  mkObs n d (o_pos o s) (o_size o s) (o_status o s).
Definition exec {St A} (o : ops St A) (s : St) (c : call) : out (St * obs A) :=
  match c with
  | Read mn mx => let* (s', n, d) := o_read o s mn mx in Ret (s', observe o s' n d)
  | Skip n => let* (s', k) := o_skip o s n in Ret (s', observe o s' k [])
  | Reset p => let* (s', r) := o_reset o s p in Ret (s', observe o s' r [])
  end.
(** run a history of calls; the history ends early when status() becomes Error *)
Fixpoint run {St A} (o : ops St A) (s : St) (l : list call) : out (St * list (obs A)) :=
  match l with
  | [] => Ret (s, [])
  | c :: l' =>
      let* (s', ob) := exec o s c in
      if is_error (ob_st ob) then Ret (s', [ob])
      else let* (s'', obs) := run o s' l' in Ret (s'', ob :: obs)
  end.

(** ** What the documentation promises *)

(** the caller's view: current position and the segment of the last successful
    read whose pointer is still valid (streambase.h:166-186) *)
Record view := mkView { v_pos : Z; v_lo : Z; v_hi : Z }.
Definition view0 : view := mkView 0 0 0.
Definition view_ok {A} (content : list A) (v : view) : Prop :=
  0 <= v_lo v <= v_pos v /\ v_pos v <= v_hi v <= zlen content.

(** documented arguments; [lim] bounds the minimal request of one read.
    The documentation also allows 0 < max < min ("no limit"): see the theorems
    about that case next to each stream. *)
Definition call_ok {A} (content : list A) (lim : Z) (c : call) : Prop :=
  match c with
  | Read mn mx => 1 <= mn <= lim /\ mn <= INT32_MAX /\
                  (mn <= mx <= INT32_MAX \/ INT32_MIN <= mx <= 0)
  | Skip n => 0 <= n <= INT32_MAX
  | Reset p => 0 <= p <= zlen content
  end.

Definition next_view {A} (v : view) (c : call) (ob : obs A) : view :=
  match c with
  | Read _ _ => if 0 <? ob_ret ob
                then mkView (v_pos v + ob_ret ob) (v_pos v) (v_pos v + ob_ret ob)
                else mkView (v_pos v) (v_pos v) (v_pos v)
  | Skip _ => let q := v_pos v + Z.max 0 (ob_ret ob) in mkView q q q
  | Reset p => if (v_lo v <=? p) && (p <=? v_hi v) then mkView p (v_lo v) (v_hi v)
               else mkView (ob_ret ob) (ob_ret ob) (ob_ret ob)
  end.

(** a call that did not end in Error; [fails] tells whether the stream is allowed
    to fail (then also the size announced in advance may be wrong) *)
Definition good_obs {A} (content : list A) (fails : Prop) (v : view) (c : call) (ob : obs A) : Prop :=
  let v' := next_view v c ob in
  ob_st ob <> Error /\
  (ob_st ob = Eof -> v_pos v' = zlen content) /\
  ob_pos ob = v_pos v' /\
  (fails \/ ob_size ob = -1 \/ ob_size ob = zlen content) /\
  match c with
  | Read mn mx =>
      (* the items at the current position, at least min or up to the end, at most max *)
      (0 < ob_ret ob /\ ob_data ob = slice content (v_pos v) (ob_ret ob) /\
       v_pos v + ob_ret ob <= zlen content /\
       (mn <= mx -> ob_ret ob <= mx) /\
       (mn <= ob_ret ob \/ v_pos v + ob_ret ob = zlen content))
      (* or -1 because the end had already been reached *)
      \/ (ob_ret ob = -1 /\ ob_data ob = [] /\ v_pos v = zlen content /\ ob_st ob = Eof)
  | Skip n =>
      (0 <= ob_ret ob <= n /\ v_pos v + ob_ret ob <= zlen content /\
       (ob_ret ob = n \/ v_pos v + ob_ret ob = zlen content))
      \/ (ob_ret ob = -1 /\ v_pos v = zlen content)
  | Reset p =>
      (* inside the valid segment: exactly there; otherwise the new position is
         returned and lies between the old and the requested one *)
      ob_ret ob = v_pos v' /\ Z.min p (v_pos v) <= ob_ret ob <= Z.max p (v_pos v)
  end.

(** a call that ended in Error: only allowed for streams that may fail, and
    for an attempt to skip past the end *)
Definition bad_obs {A} (content : list A) (fails : Prop) (v : view) (c : call) (ob : obs A) : Prop :=
  ob_st ob = Error /\
  match c with
  | Read _ _ => fails /\ ob_ret ob = -2
  | Skip n => fails \/ (0 < n /\ v_pos v = zlen content)
  | Reset _ => fails
  end.

Fixpoint accepts {A} (content : list A) (fails : Prop) (v : view) (l : list call) (obs : list (obs A)) : Prop :=
  match l, obs with
  | [], [] => True
  | c :: l', ob :: obs' =>
      if is_error (ob_st ob) then bad_obs content fails v c ob /\ obs' = []
      else good_obs content fails v c ob /\ accepts content fails (next_view v c ob) l' obs'
  | _, _ => False
  end.

(** ** The contract: every history of documented calls returns (no undefined
    behaviour, failed assertion or endless loop) and is accepted. *)
Definition Conforms {St A} (o : ops St A) (content : list A) (fails : Prop) (lim : Z) (s : St) (v : view) : Prop :=
  view_ok content v /\ o_pos o s = v_pos v /\
  forall l, Forall (call_ok content lim) l ->
    exists s' obs, run o s l = Ret (s', obs) /\ accepts content fails v l obs.
