(** Model of the traversal in /repo/lib/listinginprogress.cpp:160-248 over abstract archives.
    Which streams are archives, and with which entries, is given (it is decided by
    listinginprogress.cpp:80-158 and the archive readers); replaced and freed memory is not modelled. *)
From Verif Require Import Base StreamSpec ArchiveSpec M_Ar CacheSpec M_Cache.

(** the stream of an entry: plain data, or an archive with a first entry and further ones
    (subStreamProvider() only returns providers that have a first entry, lines 141-146);
    [real]: the size that is known after reading the stream of the entry to its end *)
Inductive stream := Plain | Arch (first : entry) (more : list entry)
(** substreamprovider.h:32-57 EntryInfo and the stream of the entry (currentEntry(), 140) *)
with entry := Entry (i : info) (real : Z) (s : stream).
(** substreamprovider.h:147: entryInfo() *)
Definition e_info (e : entry) : info := match e with Entry i _ _ => i end.
(** not code: see [stream] *)
Definition e_real (e : entry) : Z := match e with Entry _ r _ => r end.
(** substreamprovider.h:140: currentEntry() *)
Definition e_stream (e : entry) : stream := match e with Entry _ _ s => s end.

(** listinginprogress.h:54-59 StackEntry: [k_p]: the provider, i.e. the current entry and those that
    nextEntry() will still deliver (None: null); [k_entry]: the cache entry being filled (None: null) *)
Record frame := mkFrame { k_p : option (entry * list entry); k_entry : option tree }.
(** listinginprogress.h:54-59: a StackEntry as the constructor of vector leaves it (listinginprogress.cpp:166) *)
Definition frame0 : frame := mkFrame None None.
(** listinginprogress.cpp:80-158 subStreamProvider: the provider for a stream, or null *)
Definition provider_of (s : stream) : option (entry * list entry) :=
  match s with Plain => None | Arch e es => Some (e, es) end.
(** type | Dir *)
Definition or_dir (i : info) : info := mkInfo (i_name i) (i_size i) (i_mtime i) (Z.lor (i_type i) 1).

(** vector::operator[]: outside is UB *)
Definition at_ (st : list frame) (d : Z) : out frame := match zget st d with Some f => Ret f | None => UB end.
(** listinginprogress.cpp:200-237: assignment to stack[d] *)
Definition put (st : list frame) (d : Z) (f : frame) : list frame := splice st d [f].

(** listinginprogress.cpp:222-236: add [ce] to [e] at index [depth] and move on *)
Definition list_add (st : list frame) (depth : Z) (ce : tree) : out (list frame * Z) :=
  let* e := at_ st depth in
  match k_p e, k_entry e with
  | Some (cur, more), Some parent =>
      let i := t_info ce in
      let i := if i_size i <? 0 then mkInfo (i_name i) (Z.max (e_real cur) 0) (i_mtime i) (i_type i) else i in
      let parent := addEntry parent (T i (t_ch ce)) in
      let p := match more with [] => None | c :: m => Some (c, m) end in
      Ret (put st depth (mkFrame p (Some parent)), depth)
  | _, _ => UB  (* null pointer *)
  end.
(** listinginprogress.cpp:200-237 [int nextEntry(int depth)]; [fuel] bounds the recursion *)
Fixpoint next_entry (fuel : nat) (st : list frame) (depth : Z) : out (list frame * Z) :=
  match fuel with
  | O => Hang
  | S fuel =>
      let st := if zlen st <? depth + 1 then st ++ repeat frame0 (Z.to_nat (depth + 1 - zlen st)) else st in
      let* e := at_ st depth in
      let* _ := at_ st (depth + 1) in
      match k_p e with
      | Some (cur, _) =>
          let p := provider_of (e_stream cur) in
          let i := match p with Some _ => or_dir (e_info cur) | None => e_info cur end in
          let st := put st (depth + 1) (mkFrame p (Some (T i []))) in
          match p with
          | Some _ => next_entry fuel st (depth + 1)
          | None => list_add st depth (T i [])
          end
      | None =>
          if negb (depth =? 0) then
            match k_entry e with Some ce => list_add st (depth - 1) ce | None => UB end
          else Ret (st, -1)
      end
  end.
(** listinginprogress.cpp:195-197 / 234-244: call nextEntry(depth) until it returns a negative number *)
Fixpoint list_all (calls fuel : nat) (st : list frame) (depth : Z) : out (list frame) :=
  match calls with
  | O => Hang
  | S k => if depth <? 0 then Ret st else
           let* (st, depth) := next_entry fuel st depth in list_all k fuel st depth
  end.
(** listinginprogress.cpp:160-177: the stack after the constructor *)
Definition list_new (root : info) (s : stream) : list frame * Z :=
  match provider_of s with
  | Some p => (put (repeat frame0 10) 0 (mkFrame (Some p) (Some (T (or_dir root) []))), 0)
  | None => (put (repeat frame0 10) 0 (mkFrame None (Some (T root []))), -1)
  end.
(** the entry filled by the listing *)
Definition list_root (st : list frame) : option tree := match zget st 0 with Some f => k_entry f | None => None end.
