(** Vocabulary for C38. *)
From Verif Require Import Base StreamSpec M_Process.

(** [a] is [b] with some items left out *)
Inductive subseq {A} : list A -> list A -> Prop :=
| ss_nil b : subseq [] b
| ss_take x a b : subseq a b -> subseq (x :: a) (x :: b)
| ss_drop x a b : subseq a b -> subseq a (x :: b).

(** an input that is read with read(1,0) and reports the end with a separate read *)
Definition EndsSeparately {P} (par : ops P Z) (full : list Z) (LI : P -> Z -> Prop) : Prop :=
  forall p c, LI p c -> 0 <= c <= zlen full /\ o_status par p = Ok /\
    exists p' n d, o_read par p 1 0 = Ret (p', n, d) /\
      ((0 < n /\ d = slice full c n /\ c + n <= zlen full /\ o_status par p' = Ok /\ LI p' (c + n)) \/
       (n <= 0 /\ c = zlen full /\ o_status par p' <> Error)).
(** a child that answers: its output only grows, it writes something for every input it gets, and
    it runs until its input is closed *)
Definition Answers (ch : child) : Prop :=
  (forall a b, exists t, ch_out ch (a ++ b) false = ch_out ch a false ++ t /\ (b <> [] -> t <> [])) /\
  (forall a, exists t, ch_out ch a true = ch_out ch a false ++ t) /\
  (forall a, ch_exits ch a = false).
(** blocking pipes: write() accepts everything *)
Definition Blocking (pp : pipes) : Prop := forall k n, pp_write pp k n = n.
