(** Specification for C39: the stream contract for callers that keep to an additional rule. *)
From Verif Require Import Base StreamSpec.

(** As long as every call is documented and meets [rule] (which may depend on what the caller knows: the
    position and the segment of the last read), each call returns as the contract says. *)
Fixpoint behaves {St A} (rule : view -> call -> Prop) (o : ops St A) (content : list A) (fails : Prop) (lim : Z)
    (s : St) (v : view) (l : list call) : Prop :=
  match l with
  | [] => True
  | c :: l => call_ok content lim c -> rule v c ->
      exists s' ob, exec o s c = Ret (s', ob) /\
        (bad_obs content fails v c ob \/
         good_obs content fails v c ob /\ behaves rule o content fails lim s' (next_view v c ob) l)
  end.
(** the rule for skipping streams: reset stays where it is or returns to an item that the last read
    returned; no skip on streams that may fail *)
Definition skipping_rule (fails : Prop) (v : view) (c : call) : Prop :=
  match c with
  | Reset p => v_lo v <= p < v_hi v \/ p = v_pos v
  | Skip n => ~ fails
  | _ => True
  end.
(** the same, and no skip beyond the end *)
Definition skipping_inside_rule {A} (content : list A) (v : view) (c : call) : Prop :=
  match c with
  | Reset p => v_lo v <= p < v_hi v \/ p = v_pos v
  | Skip n => v_pos v + n <= zlen content
  | _ => True
  end.
