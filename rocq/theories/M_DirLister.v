(** Model of the lifetime of ArchiveReader::DirLister and of the listings it shares:
    /repo/lib/archivereader.cpp:35-62, 114-134, 191-205, 434-485 and the reference count of
    listinginprogress.h:72-94. Not modelled: what the listings contain (see M_Listing.v), the vector of a
    DirLister without a listing, and memory exhaustion. *)
From Verif Require Import Base StreamSpec.

(** archivereader.cpp:35-43 DirLister::Private: [d_listing]: listing (None: NULL); [d_entry]: the
    directory whose entries are listed, once nextEntry() has looked it up (None: entry == NULL) *)
Record priv := mkPriv { d_listing : option nat; d_entry : option (list Z); d_url : list Z }.
(** The heap of listings: None: never allocated or deleted; Some n: alive with refcount n.
    [w_held]: ArchiveReaderPrivate::listingsInProgress; [w_listers]: the DirListers that exist *)
Record world := mkWorld { w_heap : list (option Z); w_held : list nat; w_listers : list (nat * priv) }.
(** not code: before anything was done with the reader (archivereader.cpp:174-190) *)
Definition world0 : world := mkWorld [] [] [].

(** not code: assignment to a list element *)
Fixpoint set_nth {A} (l : list A) (k : nat) (a : A) : list A :=
  match l, k with [], _ => [] | _ :: l, O => a :: l | x :: l, S k => x :: set_nth l k a end.
(** listinginprogress.h:92 ref(): on a deleted object this is undefined *)
Definition ref (h : list (option Z)) (l : nat) : out (list (option Z)) :=
  match nth_error h l with Some (Some n) => Ret (set_nth h l (Some (n + 1))) | _ => UB end.
(** archivereader.cpp:52, 57, 203, 472: if (listing->unref()) delete listing (listinginprogress.h:93) *)
Definition unref (h : list (option Z)) (l : nat) : out (list (option Z)) :=
  match nth_error h l with
  | Some (Some n) => Ret (set_nth h l (if n - 1 =? 0 then None else Some (n - 1)))
  | _ => UB
  end.
(** archivereader.cpp:52, 57: if (listing && listing->unref()) delete listing *)
Definition unref_opt (h : list (option Z)) (o : option nat) : out (list (option Z)) :=
  match o with None => Ret h | Some l => unref h l end.
(** archivereader.cpp:59: if (listing) listing->ref() *)
Definition ref_opt (h : list (option Z)) (o : option nat) : out (list (option Z)) :=
  match o with None => Ret h | Some l => ref h l end.

(** not code: the DirLister that the program knows by number (its member p, archivereader.cpp:114-134) *)
Fixpoint lister (ls : list (nat * priv)) (a : nat) : option priv :=
  match ls with [] => None | (k, p) :: ls => if Nat.eqb k a then Some p else lister ls a end.
(** not code: assignment to a DirLister that the program knows by number (archivereader.cpp:130-134) *)
Fixpoint update (ls : list (nat * priv)) (a : nat) (p : priv) : list (nat * priv) :=
  match ls with [] => [] | (k, q) :: ls => if Nat.eqb k a then (k, p) :: ls else (k, q) :: update ls a p end.
(** not code: a DirLister ceases to exist (archivereader.cpp:122-124) *)
Fixpoint remove (ls : list (nat * priv)) (a : nat) : list (nat * priv) :=
  match ls with [] => [] | (k, q) :: ls => if Nat.eqb k a then ls else (k, q) :: remove ls a end.

(** What a program can do. The name [a] of a new lister is fresh. *)
Inductive op :=
| OpNew (a : nat) (url : list Z)              (* dirEntries: a new listing, held by the reader and by [a] *)
| OpShare (a : nat) (l : nat) (url : list Z)  (* dirEntries: a listing in progress, now also held by [a] *)
| OpStatic (a : nat) (url : list Z)           (* dirEntries: a lister without a listing *)
| OpRelease (l : nat)                         (* the reader drops a finished listing, or is destroyed *)
| OpCopy (a b : nat)                          (* DirLister a(b) *)
| OpAssign (a b : nat)                        (* a = b *)
| OpDestroy (a : nat)                         (* ~DirLister *)
| OpUse (a : nat).                            (* a.nextEntry(e) *)

Definition step (w : world) (o : op) : out world :=
  match o with
  | OpNew a url =>  (* archivereader.cpp:457-464, 474, 48-51 *)
      let l := length (w_heap w) in
      let* h := ref (w_heap w ++ [Some 0]) l in
      let* h := ref h l in
      Ret (mkWorld h (l :: w_held w) ((a, mkPriv (Some l) None url) :: w_listers w))
  | OpShare a l url =>  (* archivereader.cpp:440-442, 474, 48-51 *)
      let* h := ref (w_heap w) l in
      Ret (mkWorld h (w_held w) ((a, mkPriv (Some l) None url) :: w_listers w))
  | OpStatic a url => Ret (mkWorld (w_heap w) (w_held w) ((a, mkPriv None None url) :: w_listers w))
  | OpRelease l =>  (* archivereader.cpp:467-472, 198-204 *)
      let* h := unref (w_heap w) l in
      Ret (mkWorld h (List.remove Nat.eq_dec l (w_held w)) (w_listers w))
  | OpCopy a b =>  (* archivereader.cpp:117-119: the copy constructor of Private is the implicit one *)
      match lister (w_listers w) b with
      | Some p => Ret (mkWorld (w_heap w) (w_held w) ((a, p) :: w_listers w))
      | None => UB
      end
  | OpAssign a b =>  (* archivereader.cpp:130-134, 54-62: url is const and stays *)
      match lister (w_listers w) a, lister (w_listers w) b with
      | Some p, Some q =>
          let* h := unref_opt (w_heap w) (d_listing p) in
          let* h := ref_opt h (d_listing q) in
          Ret (mkWorld h (w_held w) (update (w_listers w) a (mkPriv (d_listing q) (d_entry q) (d_url p))))
      | _, _ => UB
      end
  | OpDestroy a =>  (* archivereader.cpp:122-124, 51-53 *)
      match lister (w_listers w) a with
      | Some p =>
          let* h := unref_opt (w_heap w) (d_listing p) in
          Ret (mkWorld h (w_held w) (remove (w_listers w) a))
      | None => UB
      end
  | OpUse a =>  (* archivereader.cpp:63-89: listing->nextEntry(url) or listing->nextEntry(entry) *)
      match lister (w_listers w) a with
      | Some p =>
          match d_listing p with
          | None => Ret w
          | Some l => match nth_error (w_heap w) l with
                      | Some (Some _) =>
                          let e := match d_entry p with None => d_url p | Some e => e end in
                          Ret (mkWorld (w_heap w) (w_held w) (update (w_listers w) a (mkPriv (Some l) (Some e) (d_url p))))
                      | _ => UB
                      end
          end
      | None => UB
      end
  end.
(** not code: a program, doing one thing after the other *)
Fixpoint steps (w : world) (os : list op) : out world :=
  match os with [] => Ret w | o :: os => let* w := step w o in steps w os end.
