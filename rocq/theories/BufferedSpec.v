(** Specification side of buffered streams: what a fillBuffer implementation must do
    (bufferedstream.h:44-63 documentation), independent of the buffer. *)
From Verif Require Import Base StreamSpec M_Buffered.

(** after an error: fillBuffer writes nothing any more and within [k] further calls returns
    a negative number (it is called again while it returns 0) *)
Fixpoint dies {S A} (src : source S A) (k : nat) (s : S) : Prop :=
  forall space, 1 <= space <= INT32_MAX -> exists s' m e, fill src s space = Ret (s', m, [], e) /\
    (m < 0 \/ m = 0 /\ match k with O => False | Datatypes.S k' => dies src k' s' end).

(** [SR s c]: the source in state [s] has delivered the first [c] items of
    [content]; [SE s]: it is in a final state.  fillBuffer(start, space) writes at most [space] items, namely
    the next ones, and returns their number; 0 only finitely often in a row
    (measured by [mu]); a negative number without error only at the end. *)
Definition SrcOK {S A} (src : source S A) (content : list A) (fails : Prop)
    (SR : S -> Z -> Prop) (SE : S -> Prop) : Prop :=
  forall s c space, SR s c -> 1 <= space <= INT32_MAX ->
  exists s' n d err, fill src s space = Ret (s', n, d, err) /\ zlen d <= space /\
    ((err = false /\ 0 < n /\ d = slice content c n /\ c + n <= zlen content /\ SR s' (c + n)
        /\ (mu src s' <= mu src s)%nat)
     \/ (err = false /\ n = 0 /\ SR s' c /\ (mu src s' < mu src s)%nat)
     \/ (err = false /\ n < 0 /\ c = zlen content /\ SE s')
     \/ (err = true /\ fails /\
         (* m_status was set to Error: data that was decoded before may still be
            handed over, but then nothing more comes *)
         (n < 0 \/
          0 < n /\ d = slice content c n /\ c + n <= zlen content /\
          (forall space', 1 <= space' <= INT32_MAX -> exists s2 m e, fill src s' space' = Ret (s2, m, [], e) /\ m < 0)
          \/ 0 <= n /\ d = slice content c n /\ c + n <= zlen content /\ exists k, (k + 1 <= mu src s)%nat /\ dies src k s'))).

Definition BUF_LIM : Z := 1073741824. (* 2^30 *)
