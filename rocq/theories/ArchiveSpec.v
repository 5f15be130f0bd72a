(** Vocabulary for C22-C27: what it means that a stream of entries lists members, whatever
    the consumer does with each entry; and the safety contract of an input stream. *)
From Verif Require Import Base StreamSpec.

(** substreamprovider.h:40-58 EntryInfo; type 0 unknown, 1 directory, 2 file *)
Record info := mkInfo { i_name : list Z; i_size : Z; i_mtime : Z; i_type : Z }.
(** a SubStreamProvider: nextEntry() (None: null pointer), status(), and a history of calls on the current entry *)
Record provider (St : Type) := mkProvider {
  pv_next : St -> out (St * option info);
  pv_entry : St -> list call -> out (St * list (obs Z));
  pv_status : St -> status }.
Arguments pv_next {St}. Arguments pv_entry {St}. Arguments pv_status {St}.

Record member := mkMember { m_info : info; m_data : list Z }.
(** Iterating from [st] lists exactly [ms]: each nextEntry() announces the next member, its stream
    has the contents of that member under every history of documented calls, the iteration goes on
    correctly whatever that history was, and after the last member nextEntry() returns null with
    a status() satisfying [fin]. *)
Fixpoint lists_end {St} (fin : status -> Prop) (pv : provider St) (lim : Z) (ms : list member) (st : St) : Prop :=
  match ms with
  | [] => exists st', pv_next pv st = Ret (st', None) /\ fin (pv_status pv st')
  | m :: ms' => exists st1, pv_next pv st = Ret (st1, Some (m_info m)) /\ pv_status pv st1 = Ok /\
      forall h, Forall (call_ok (m_data m) lim) h ->
        exists st2 obs, pv_entry pv st1 h = Ret (st2, obs) /\ accepts (m_data m) False view0 h obs /\ lists_end fin pv lim ms' st2
  end.
(** ... ends with Eof *)
Notation lists := (lists_end (fun s => s = Eof)).

(** iterate: for each history in [hs], call nextEntry() and, if it is not null, use the entry as told *)
Fixpoint iterate {St} (pv : provider St) (hs : list (list call)) (st : St) : out (St * list (info * list (obs Z))) :=
  match hs with
  | [] => Ret (st, [])
  | h :: hs' =>
      let* (st1, r) := pv_next pv st in
      match r with
      | None => Ret (st1, [])
      | Some i => let* (st2, obs) := pv_entry pv st1 h in
                  let* (st3, l) := iterate pv hs' st2 in Ret (st3, (i, obs) :: l)
      end
  end.

(** ** Safety contract of an input stream: what is assumed of it when the archive on it may be
    anything.  [I] is an invariant of its states.  Reads ask for at least [mn <= lim] bytes, also
    nonsensical numbers.  [content]: the bytes of the stream, if they are fixed; otherwise nothing is
    said about the bytes.  Every call returns, or crashes if [cr] says that this is possible; a read returns at least
    -2, hands out as many bytes as it says, respects max, moves the position accordingly, and leaves
    status() Ok only if min was reached; skip and reset move within bounds.
    [neg]: skip may be called with a negative number, and fails only with status Error or at the end. *)
Definition safe {A} (cr : Prop) (x : out A) (Q : A -> Prop) : Prop :=
  match x with Ret a => Q a | Hang => False | UB | Abort => cr end.
Definition data_at (content : option (list Z)) (pos : Z) (d : list Z) : Prop :=
  match content with Some full => d = slice full pos (zlen d) | None => True end.
Definition in_content (content : option (list Z)) (pos : Z) : Prop :=
  match content with Some full => pos <= zlen full | None => True end.
Definition at_end (content : option (list Z)) (pos : Z) : Prop :=
  match content with Some full => pos = zlen full | None => False end.
Record Tame {P} (par : ops P Z) (content : option (list Z)) (lim : Z) (cr neg : Prop) (I : P -> Prop) : Prop := {
  tm_pos : forall p, I p -> 0 <= o_pos par p /\ in_content content (o_pos par p);
  tm_read : forall p mn mx, I p -> INT32_MIN <= mn <= INT32_MAX -> mn <= lim -> INT32_MIN <= mx <= INT32_MAX ->
    safe cr (o_read par p mn mx) (fun '(p', n, d) => I p' /\ -2 <= n <= INT32_MAX /\ zlen d = Z.max 0 n /\ Forall (fun c => 0 <= c < 256) d /\
        data_at content (o_pos par p) d /\ o_pos par p <= o_pos par p' /\ (0 <= n -> o_pos par p' = o_pos par p + n) /\
        (1 <= mn <= mx -> n <= mx) /\ (1 <= mn -> mn <= mx \/ mx <= 0 -> n < mn -> o_status par p' <> Ok));
  tm_skip : forall p n, I p -> 0 <= n < 4294967296 \/ neg ->
    safe cr (o_skip par p n) (fun '(p', k) => I p' /\ o_pos par p <= o_pos par p' /\ (o_status par p' <> Error -> o_pos par p' = o_pos par p + Z.max 0 k) /\ (0 <= n -> k <= n) /\ (neg -> k < 0 -> o_status par p' = Error \/ at_end content (o_pos par p')));
  tm_reset : forall p q, I p -> 0 <= q ->
    safe cr (o_reset par p q) (fun '(p', r) => I p' /\ (r < 0 /\ o_pos par p' = o_pos par p \/ r = o_pos par p' /\ Z.min q (o_pos par p) <= r <= Z.max q (o_pos par p))) }.
(** calls a consumer may make on an entry, whatever the entry contains *)
Definition any_call (lim : Z) (c : call) : Prop :=
  match c with
  | Read mn mx => 1 <= mn <= lim /\ mn <= INT32_MAX /\ INT32_MIN <= mx <= INT32_MAX
  | Skip n => 0 <= n <= INT32_MAX
  | Reset p => 0 <= p
  end.
(** ... and does not reset beyond the announced size, if one is announced *)
Definition within (lim : Z) (i : info) (c : call) : Prop :=
  any_call lim c /\ match c with Reset p => i_size i < 0 \/ p <= i_size i | _ => True end.
(** ... and max is not negative *)
Definition within_max (lim : Z) (i : info) (c : call) : Prop := within lim i c /\ match c with Read _ mx => 0 <= mx | _ => True end.
(** Iterating from [st] ends: after fewer than [k] entries nextEntry() returns null, whatever the consumer (calls satisfying [C])
    did with the entries; every call returns.  [crash] says whether undefined behaviour or a failed
    assertion is tolerated (it then counts as an end): with [crash := False] there is none. *)
Fixpoint ends {St} (crash : Prop) (pv : provider St) (C : info -> call -> Prop) (k : nat) (st : St) : Prop :=
  match k with
  | O => False
  | S k' =>
      safe crash (pv_next pv st) (fun '(st1, r) =>
        match r with
        | None => True
        | Some i => forall h, Forall (C i) h -> safe crash (pv_entry pv st1 h) (fun '(st2, _) => ends crash pv C k' st2)
        end)
  end.
(** ... moreover each entry is a stream that may fail but delivers consistent data of at most [B] bytes and at most the announced size *)
Fixpoint bounded {St} (pv : provider St) (lim B : Z) (k : nat) (st : St) : Prop :=
  match k with
  | O => False
  | S k' => exists st1 r, pv_next pv st = Ret (st1, r) /\
      match r with
      | None => True
      | Some i => exists data, zlen data <= B /\ zlen data <= i_size i /\
          forall h, Forall (any_call lim) h -> exists st2 obs, pv_entry pv st1 h = Ret (st2, obs) /\
            accepts data True view0 h obs /\ bounded pv lim B k' st2
      end
  end.
Lemma bounded_ends {St} (pv : provider St) lim B k : forall st, bounded pv lim B k st -> ends False pv (fun _ => any_call lim) k st.
Proof.
  induction k as [|k IH]; intros st; cbn [bounded ends]; [tauto|]. intros (st1 & r & E & H). rewrite E. cbn [safe].
  destruct r as [i|]; [|exact I]. destruct H as (data & _ & _ & H). intros h Hh. destruct (H h Hh) as (st2 & obs & E2 & _ & Hb).
  rewrite E2. cbn [safe]. apply IH; exact Hb.
Qed.
