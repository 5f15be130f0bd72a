(** What SdfInputStream makes of a file, and what it should make of it. *)
From Verif Require Import Base KmpSpec ArchiveSpec.

(** "$$$$" *)
Definition delim : list Z := [36;36;36;36].
(** [bytes] is [rec], the first delimiter, and [rest] *)
Definition first_delim (bytes rec rest : list Z) : Prop :=
  bytes = rec ++ delim ++ rest /\ forall d, d < zlen rec -> ~ occurs_at delim bytes d.
Definition newline (c : Z) : Prop := c = 10 \/ c = 13.
(** decimal digits without leading zeros *)
Inductive decimal : Z -> list Z -> Prop :=
| dec_digit d : 0 <= d < 10 -> decimal d [48 + d]
| dec_more n l d : decimal n l -> 0 < n -> 0 <= d < 10 -> decimal (n * 10 + d) (l ++ [48 + d]).
(** "Molecule" and the number *)
Definition entry_name (k : Z) (name : list Z) : Prop := exists l, decimal k l /\ name = [77;111;108;101;99;117;108;101] ++ l.

(** What is listed from [bytes] on, when [k] entries have been listed: up to the first delimiter; behind it
    the newlines and one further byte are lost.  Bytes without a delimiter and
    empty records end the listing. *)
Inductive sdf_listing : Z -> list Z -> list member -> Prop :=
| sl_none k bytes : (forall d, ~ occurs_at delim bytes d) -> sdf_listing k bytes []
| sl_empty k rest : sdf_listing k (delim ++ rest) []
| sl_record k bytes rec nl rest name ms :
    first_delim bytes rec (nl ++ rest) -> rec <> [] -> Forall newline nl -> (forall c t, rest = c :: t -> ~ newline c) ->
    entry_name (k + 1) name -> sdf_listing (k + 1) (tl rest) ms ->
    sdf_listing k bytes (mkMember (mkInfo name (zlen rec) 0 2) rec :: ms).

(** what a user expects: the records, each ended by a line "$$$$" *)
Inductive sdf_records : list Z -> list (list Z) -> Prop :=
| rc_none bytes : (forall d, ~ occurs_at delim bytes d) -> sdf_records bytes []
| rc_record bytes rec eol rest rs : first_delim bytes rec (eol ++ rest) -> eol = [10] \/ eol = [13;10] -> sdf_records rest rs -> sdf_records bytes (rec :: rs).
