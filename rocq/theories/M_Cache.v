(** Model of /repo/lib/archiveentrycache.cpp and of the tree building of /repo/lib/listinginprogress.cpp.
    Pointers to SubEntry are modelled by trees (no entry is shared), std::map by an association list;
    the sorted order of std::map and the freeing of replaced subtrees (they leak) are not modelled. *)
From Verif Require Import Base StreamSpec ArchiveSpec M_Ar CacheSpec.

(** archiveentrycache.h:43-55 SubEntry *)
Inductive tree := T (i : info) (ch : list (list Z * tree)).
(** archiveentrycache.h:43: entry *)
Definition t_info (t : tree) : info := match t with T i _ => i end.
(** archiveentrycache.h:45: entries *)
Definition t_ch (t : tree) : list (list Z * tree) := match t with T _ ch => ch end.
(** std::map: find and operator[] = *)
Fixpoint get {V} (m : list (list Z * V)) (k : list Z) : option V :=
  match m with [] => None | (k', v) :: m' => if list_eqb k' k then Some v else get m' k end.
(** std::map: operator[] with an assignment (listinginprogress.cpp:62, 67) *)
Fixpoint set {V} (m : list (list Z * V)) (k : list Z) (v : V) : list (list Z * V) :=
  match m with [] => [(k, v)] | (k', v') :: m' => if list_eqb k' k then (k, v) :: m' else (k', v') :: set m' k v end.

(** string::find('/', from): index of the first '/' at or behind [from] *)
Fixpoint find_slash (s : list Z) (from : nat) (i : Z) : option Z :=
  match s with
  | [] => None
  | c :: s' => match from with
               | O => if c =? 47 then Some i else find_slash s' O (i + 1)
               | S k => find_slash s' k (i + 1)
               end
  end.
(** string::rfind('/') *)
Fixpoint rfind_slash (s : list Z) (i : Z) (r : option Z) : option Z :=
  match s with [] => r | c :: s' => rfind_slash s' (i + 1) (if c =? 47 then Some i else r) end.

(** archiveentrycache.cpp:65-91 on the entry [e]; [p]: the position behind which the next component
    starts. string::assign(url, pos, n) throws (outcome Abort) if pos > size. Each round consumes at
    least one character: [fuel] is the length of the url. *)
Fixpoint find_below (fuel : nat) (e : tree) (url : list Z) (p : Z) : out (option tree) :=
  match fuel with
  | O => Hang
  | S fuel =>
      let np := find_slash url (Z.to_nat (p + 1)) 0 in
      if negb (p + 1 <=? zlen url) then Abort else
      let name := match np with None => slice url (p + 1) (zlen url) | Some q => slice url (p + 1) (q - p - 1) end in
      match get (t_ch e) name with
      | None => Ret None           (* e = 0; p is unchanged, and not url.length() *)
      | Some c => match np with
                  | None => Ret (Some c)
                  | Some q => if q =? zlen url then Ret (Some c) else find_below fuel c url q
                  end
      end
  end.
(** archiveentrycache.cpp:64-91 *)
Definition root_findEntry (root : tree) (rootpath url : list Z) : out (option tree) :=
  find_below (length url + 1) root url (zlen rootpath).
(** archiveentrycache.cpp:31-49; the url becomes shorter in every round *)
Fixpoint findRootEntry (fuel : nat) (cache : list (list Z * tree)) (n : list Z) : out (option (list Z * tree)) :=
  match fuel with
  | O => Hang
  | S fuel =>
      match get cache n with
      | Some t => Ret (Some (n, t))
      | None => match rfind_slash n 0 None with
                | None => Ret None
                | Some p => findRootEntry fuel cache (slice n 0 p)
                end
      end
  end.
(** archiveentrycache.cpp:53-63 *)
Definition findEntry (cache : list (list Z * tree)) (url : list Z) : out (option tree) :=
  let* r := findRootEntry (length url + 1) cache url in
  match r with
  | None => Ret None
  | Some (path, t) => if list_eqb path url then Ret (Some t) else root_findEntry t path url
  end.

(** listinginprogress.cpp:41-50: the directory components and the remaining name *)
Fixpoint split_path (name : list Z) (cur : list Z) : list (list Z) * list Z :=
  match name with
  | [] => ([], rev cur)
  | c :: r => if c =? 47 then let '(ns, l) := split_path r [] in (rev cur :: ns, l) else split_path r (c :: cur)
  end.
(** listinginprogress.cpp:57-62: a directory that is created on the way *)
Definition new_dir (n : list Z) : tree := T (mkInfo n 0 0 1) [].
(** listinginprogress.cpp:52-67 (mtime of a created directory: substreamprovider.h:32-57 sets it to 0) *)
Fixpoint add_at (names : list (list Z)) (last : list Z) (se parent : tree) : tree :=
  match names with
  | [] => T (t_info parent) (set (t_ch parent) last se)
  | n :: ns => let child := match get (t_ch parent) n with Some c => c | None => new_dir n end in
               T (t_info parent) (set (t_ch parent) n (add_at ns last se child))
  end.
(** listinginprogress.cpp:63-67: the last component becomes the name *)
Definition with_name (i : info) (n : list Z) : info := mkInfo n (i_size i) (i_mtime i) (i_type i).
(** listinginprogress.cpp:38-68 *)
Definition addEntry (parent se : tree) : tree :=
  let '(names, last) := split_path (i_name (t_info se)) [] in
  add_at names last (T (with_name (t_info se) last) (t_ch se)) parent.
(** The tree after a complete listing: listinginprogress.cpp:226-227 adds every entry, with the subtree of
    its own entries, to the entry that contains it (see M_Listing.v for the traversal itself). *)
Fixpoint build (l : listing) : tree :=
  match l with L i sub => fold_left (fun t e => addEntry t (build e)) sub (T i []) end.
