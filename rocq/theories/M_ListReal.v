(** Model of /repo/lib/listinginprogress.cpp:160-248 on real streams: M_Listing.v takes for granted which streams are archives with which
    entries; here every entry is opened with subStreamProvider() (M_Open.v) and the providers are those of the archive formats. *)
From Coq Require Import Bool.
From Verif Require Import Base StreamSpec ArchiveSpec M_Inflate M_Lzma CacheSpec M_Cache M_Listing M_Open.

(** ** The stream of the current entry of a provider, as an input stream.
    All the levels of a listing work on one file, so the state of a provider changes when a nested provider reads the entry.  Here the stream
    of an entry has as its state the calls that were made on it: a call repeats them on the provider [st0] that returned the entry, and
    the provider goes on behind all these calls.  Calls outside of the documented arguments (StreamSpec.call_ok, for a stream of [len] bytes)
    have undefined behaviour; a stream in status Error refuses all calls. *)
Definition call_okb (len lim : Z) (c : call) : bool :=
  match c with
  | Read mn mx => (1 <=? mn) && (mn <=? lim) && (mn <=? INT32_MAX) && ((mn <=? mx) && (mx <=? INT32_MAX) || (INT32_MIN <=? mx) && (mx <=? 0))
  | Skip n => (0 <=? n) && (n <=? INT32_MAX)
  | Reset p => (0 <=? p) && (p <=? len)
  end.
(** not code: the documented calls made on the stream of the current entry so far (see the comment above) *)
Definition hist (len lim : Z) : Type := { h : list call | forallb (call_okb len lim) h = true }.
(** not code: no calls yet *)
Definition hist0 {len lim} : hist len lim := exist _ [] eq_refl.
Lemma hist_snoc len lim h c : forallb (call_okb len lim) h = true -> call_okb len lim c = true -> forallb (call_okb len lim) (h ++ [c]) = true.
Proof. intros H1 H2. rewrite forallb_app. cbn [forallb]. rewrite H1, H2. reflexivity. Qed.
(** not code: one more call; None if it is outside of the documentation (streambase.h:118-191) *)
Definition hist_add {len lim} (h : hist len lim) (c : call) : option (hist len lim) :=
  match bool_dec (call_okb len lim c) true with
  | left e => Some (exist _ (proj1_sig h ++ [c]) (hist_snoc len lim _ c (proj2_sig h) e))
  | right _ => None
  end.
Section EntryStream.
Context {St : Type}.
Variables (pv : provider St) (st0 : St) (i : info).
(** the last observation made on the entry; before any call: position 0, the size of the entry information, status Ok.
    Simplification: the position of a stream in status Error is the one it had before the call that failed. *)
Definition last_obs (h : list call) : Z * Z * status :=
  match pv_entry pv st0 h with
  | Ret (_, obs) => match rev obs with
      | ob :: before => (match ob_st ob, before with Error, o :: _ => ob_pos o | Error, [] => 0 | _, _ => ob_pos ob end, ob_size ob, ob_st ob)
      | [] => (0, i_size i, Ok)
      end
  | _ => (0, i_size i, Ok)
  end.
(** substreamprovider.h:140: a call on currentEntry(): the calls are repeated on the provider *)
Definition entry_call {len lim} (h : hist len lim) (c : call) : out (hist len lim * Z * list Z) :=
  match hist_add h c with
  | None => UB
  | Some h' =>
      let* (_, obs) := pv_entry pv st0 (proj1_sig h') in
      match nth_error obs (length (proj1_sig h)) with
      | Some ob => Ret (h', ob_ret ob, ob_data ob)
      | None => Ret (h', -2, [])
      end
  end.
(** substreamprovider.h:140: currentEntry() as an InputStream; the virtual functions of this class as a record, no code of its own *)
Definition entry_ops (len lim : Z) : ops (hist len lim) Z :=
  mkOps _ _ (fun h mn mx => entry_call h (Read mn mx))
    (fun h n => let* (h, r, _) := entry_call h (Skip n) in Ret (h, r))
    (fun h p => let* (h, r, _) := entry_call h (Reset p) in Ret (h, r))
    (fun h => fst (fst (last_obs (proj1_sig h)))) (fun h => snd (fst (last_obs (proj1_sig h)))) (fun h => snd (last_obs (proj1_sig h))).
(** the number of bytes of the entry, found by reading them ([fuel]: at least as many) *)
Definition entry_len (fuel : nat) : Z := fst (fst (last_obs (repeat (Read 1 0) fuel))).
(** listinginprogress.cpp:223-229: while (es->read(c, 1, 0) > 0) {}; es->size(); the calls made are added to [h] *)
Fixpoint drain_entry (fuel : nat) (h : list call) : out (list call * Z) :=
  match fuel with
  | O => Hang
  | S fuel =>
      let* (_, obs) := pv_entry pv st0 (h ++ [Read 1 0]) in
      match nth_error obs (length h) with
      | Some ob => if 0 <? ob_ret ob then drain_entry fuel (h ++ [Read 1 0]) else Ret (h ++ [Read 1 0], ob_size ob)
      | None => Ret (h, snd (fst (last_obs h)))
      end
  end.
End EntryStream.

Section Listing.
Context {Dg Db Dl : Type}.
(** as in M_Open; [lim]: no reader asks for more bytes at once *)
Variables (cg : codec Dg) (cb : codec Db) (cl : lzcodec Dl) (bufsize : Z) (gas : nat) (alloc_ok : bool) (subs : list sub_type) (lim : Z) (fuel : nat).

(** listinginprogress.h:54-59 StackEntry: [r_p]: the provider, or null (NoArchive), with the calls made on the entry (of [r_len] bytes) of the frame
    above; [r_entry]: the cache entry being filled (None: null) *)
Record rframe := mkRF { r_len : Z; r_p : opened (hist r_len lim); r_entry : option tree }.
(** listinginprogress.h:54-59: a StackEntry as the constructor of vector leaves it (listinginprogress.cpp:166) *)
Definition rframe0 : rframe := mkRF 0 (NoArchive hist0) None.
(** listinginprogress.cpp:200-237: stack[d], outside of the vector is undefined *)
Definition rat (st : list rframe) (d : Z) : out rframe := match zget st d with Some f => Ret f | None => UB end.
(** listinginprogress.cpp:200-237: assignment to stack[d] *)
Definition rput (st : list rframe) (d : Z) (f : rframe) : list rframe := splice st d [f].

(** listinginprogress.cpp:222-236; [h]: the calls made on the current entry so far *)
Definition real_add (st : list rframe) (depth : Z) (ce : tree) (h : list call) : out (list rframe * Z) :=
  let* e := rat st depth in
  match r_p e, r_entry e with
  | Found pv s i inp, Some parent =>
      let ci := t_info ce in
      let* (h, ci) := if i_size ci <? 0
                      then let* (h, size) := drain_entry pv s i fuel h in Ret (h, mkInfo (i_name ci) (Z.max size 0) (i_mtime ci) (i_type ci))
                      else Ret (h, ci) in
      let parent := addEntry parent (T ci (t_ch ce)) in
      let* (s, _) := pv_entry pv s h in
      let* (s, r) := pv_next pv s in
      let p := match r with Some i => Found pv s i inp | None => NoArchive (inp s) end in
      Ret (rput st depth (mkRF (r_len e) p (Some parent)), depth)
  | _, _ => UB  (* null pointer *)
  end.
(** listinginprogress.cpp:200-237; [rec] bounds the recursion *)
Fixpoint rnext_entry (rec : nat) (st : list rframe) (depth : Z) : out (list rframe * Z) :=
  match rec with
  | O => Hang
  | S rec =>
      let st := if zlen st <? depth + 1 then st ++ repeat rframe0 (Z.to_nat (depth + 1 - zlen st)) else st in
      let* e := rat st depth in
      let* _ := rat st (depth + 1) in
      match r_p e with
      | Found pv s i _ =>
          let len := entry_len pv s i fuel in
          let* o := open_archive cg cb cl bufsize gas alloc_ok subs (Any (entry_ops pv s i len lim) hist0 (fun h => h)) in
          match o with
          | Found _ _ _ _ => rnext_entry rec (rput st (depth + 1) (mkRF len o (Some (T (or_dir i) [])))) (depth + 1)
          | NoArchive h => real_add (rput st (depth + 1) (mkRF len o (Some (T i [])))) depth (T i []) (proj1_sig h)
          end
      | NoArchive h =>
          if negb (depth =? 0) then
            match r_entry e with Some ce => real_add st (depth - 1) ce (proj1_sig h) | None => UB end
          else Ret (st, -1)
      end
  end.
(** listinginprogress.cpp:195-197 / 234-244 *)
Fixpoint rlist_all (calls rec : nat) (st : list rframe) (depth : Z) : out (list rframe) :=
  match calls with
  | O => Hang
  | S k => if depth <? 0 then Ret st else
           let* (st, depth) := rnext_entry rec st depth in rlist_all k rec st depth
  end.
(** listinginprogress.cpp:160-177 for the file with the stream [par], [p] *)
Definition rlist_new {P} (root : info) (par : ops P Z) (p : P) : out (list rframe * Z) :=
  let* o := open_archive cg cb cl bufsize gas alloc_ok subs (Any par p (fun _ => hist0 (len := 0) (lim := lim))) in
  match o with
  | Found _ _ _ _ => Ret (rput (repeat rframe0 10) 0 (mkRF 0 o (Some (T (or_dir root) []))), 0)
  | NoArchive _ => Ret (rput (repeat rframe0 10) 0 (mkRF 0 o (Some (T root []))), -1)
  end.
(** the entry filled by the listing *)
Definition rlist_root (st : list rframe) : option tree := match zget st 0 with Some f => r_entry f | None => None end.
End Listing.
