(** Specification for C56 (/repo/include/strigi/streambase.h:89-98): "The size of the stream is always
    known if the end of the stream has been reached." *)
From Verif Require Import Base StreamSpec.

(** After every history of documented calls: when status() is Eof, size() is the number of items of
    the stream (and not -1, which stands for an unknown size). *)
Definition size_known {St A} (o : ops St A) (content : list A) (lim : Z) (s : St) : Prop :=
  forall l s' obs, Forall (call_ok content lim) l -> run o s l = Ret (s', obs) ->
    o_status o s' = Eof -> o_size o s' = zlen content.
