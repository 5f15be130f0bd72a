(** Model of /repo/lib/archivereader.cpp: dirEntries and the DirLister it returns (35-112, 434-485), stat
    (303-388), isArchive, canHandle (416-423, 486-499), openStream (212-299, 389-400) and of the parts of
    /repo/lib/listinginprogress.cpp they use (234-272), on top of M_Listing.v and M_Cache.v.
    Given: what the StreamOpeners answer ([fs]; one opener) and which streams are archives with which entries
    (see M_Listing.v). A ListingInProgress and the tree it fills (root) share a number. A pointer to a SubEntry
    is the path from the root to it; this is right as long as no entry of the tree is replaced (the code
    leaks a replaced entry and keeps using the pointer). Reference counts are in M_DirLister.v. The properties
    map of EntryInfo and the streams kept open are not modelled. *)
From Verif Require Import Base StreamSpec ArchiveSpec M_Ar CacheSpec M_Cache M_Listing.

(** What StreamOpener::stat and openStream (filestreamopener.cpp:37-69) give for a url: None: neither exists;
    [f_stream]: None: it cannot be opened (a directory) *)
Record file := mkFile { f_info : info; f_stream : option stream }.

(** listinginprogress.h:72-94; [lp_open]: stream != NULL; [lp_root]: root != 0; [lp_freed]: the tree that root
    pointed to has been deleted. The tree itself is in the first element of the stack (list_root). *)
Record lip := mkLip { lp_url : list Z; lp_st : list frame; lp_depth : Z; lp_open : bool; lp_root : bool; lp_freed : bool }.
(** archivereader.cpp:35-51 DirLister::Private; [dl_node]: entry (None: NULL), as a path in the tree of the listing *)
Record dl := mkDl { dl_pos : Z; dl_list : list info; dl_lip : option nat; dl_node : option (list (list Z)); dl_done : list (list Z); dl_url : list Z }.
(** archivereader.cpp:137-190 (openstreams and subs are left out), and the DirListers in use *)
Record reader := mkReader { r_lips : list lip; r_prog : list (list Z * nat); r_cache : list (list Z * nat); r_dls : list dl }.
(** archivereader.cpp:174-190: a new reader *)
Definition reader0 : reader := mkReader [] [] [] [].

(** map::erase(key) *)
Fixpoint del {V} (m : list (list Z * V)) (k : list Z) : list (list Z * V) :=
  match m with [] => [] | (k', v) :: m' => if list_eqb k' k then m' else (k', v) :: del m' k end.
(** not code: assignment to a list element *)
Fixpoint upd {A} (l : list A) (k : nat) (a : A) : list A :=
  match l, k with [], _ => [] | _ :: l, O => a :: l | x :: l, S k => x :: upd l k a end.
(** operator< of std::string (char_traits compare bytes as unsigned) and the order of std::map *)
Fixpoint str_lt (a b : list Z) : bool :=
  match a, b with
  | _, [] => false
  | [], _ :: _ => true
  | x :: a', y :: b' => if x <? y then true else if y <? x then false else str_lt a' b'
  end.
(** std::map: insertion (order of the keys) *)
Fixpoint ins {V} (x : list Z * V) (m : list (list Z * V)) : list (list Z * V) :=
  match m with [] => [x] | y :: m' => if str_lt (fst x) (fst y) then x :: m else y :: ins x m' end.
(** std::map: the elements in the order of iteration (archivereader.cpp:95-111, 434-485) *)
Definition in_order {V} (m : list (list Z * V)) : list (list Z * V) := fold_right ins [] m.

(** dereferencing root, or a pointer to a SubEntry: UB if the tree has been deleted *)
Definition lip_tree (l : lip) : out tree :=
  if lp_freed l then UB else match list_root (lp_st l) with Some t => Ret t | None => UB end.
(** listinginprogress.h:80: *root *)
Definition lip_root (l : lip) : out tree := if lp_root l then lip_tree l else UB.
(** not code: the SubEntry at a path of the tree (std::map of archiveentrycache.h:45) *)
Fixpoint node_at (t : tree) (p : list (list Z)) : option tree :=
  match p with [] => Some t | n :: p' => match get (t_ch t) n with None => None | Some c => node_at c p' end end.
(** archivereader.cpp:35-112: *entry, for a pointer that the lister keeps *)
Definition lip_node (l : lip) (p : list (list Z)) : out tree :=
  let* t := lip_tree l in match node_at t p with Some n => Ret n | None => UB end.

(** listinginprogress.cpp:238-248 [bool nextEntry()]; the recursion of nextEntry(int) ends at the tenth level *)
Definition lip_adv (l : lip) : out (lip * bool) :=
  let* (st, d) := (if 0 <=? lp_depth l then next_entry 20 (lp_st l) (lp_depth l) else Ret (lp_st l, lp_depth l)) in
  Ret (mkLip (lp_url l) st d (if d <? 0 then false else lp_open l) (lp_root l) (lp_freed l), 0 <=? d).
(** listinginprogress.cpp:262-271 [bool nextEntry(const SubEntry* entry)] *)
Fixpoint lip_grow (N : nat) (l : lip) (p : list (list Z)) (size : Z) : out (lip * bool) :=
  match N with
  | O => Hang
  | S N => let* (l, ok) := lip_adv l in
           let* n := lip_node l p in
           if ok && (size =? zlen (t_ch n)) then lip_grow N l p size else Ret (l, size <? zlen (t_ch n))
  end.
(** listinginprogress.cpp:262-271 *)
Definition lip_next_node (N : nat) (l : lip) (p : list (list Z)) : out (lip * bool) :=
  if lp_depth l <? 0 then Ret (l, false) else let* n := lip_node l p in lip_grow N l p (zlen (t_ch n)).
(** listinginprogress.cpp:249-261 [nextEntry(url)]: a pointer to the entry at url, or NULL *)
Fixpoint lip_search (N : nat) (l : lip) (url : list Z) (ok : bool) (e : option tree) : out (lip * option tree) :=
  match N with
  | O => Hang
  | S N => if ok && match e with None => true | Some n => zlen (t_ch n) =? 0 end then
             let* (l, ok) := lip_adv l in
             let* t := lip_root l in
             let* e := root_findEntry t (lp_url l) url in lip_search N l url ok e
           else Ret (l, e)
  end.
(** archiveentrycache.cpp:64-91: the path of url below the root of the listing *)
Definition rest_path (base url : list Z) : list (list Z) :=
  let '(ns, l) := split_path (slice url (zlen base + 1) (zlen url)) [] in ns ++ [l].
(** listinginprogress.cpp:249-261 *)
Definition lip_next_url (N : nat) (l : lip) (url : list Z) : out (lip * option (list (list Z))) :=
  let* t := lip_root l in
  if list_eqb url (lp_url l) then
    if negb (zlen (t_ch t) =? 0) then Ret (l, Some [])
    else let* (l, ok) := lip_next_node N l [] in Ret (l, if ok then Some [] else None)
  else
    let* e := root_findEntry t (lp_url l) url in
    let* (l, e) := lip_search N l url true e in
    Ret (l, match e with Some _ => Some (rest_path (lp_url l) url) | None => None end).

(** archivereader.cpp:95-111 [EntryInfo nextEntry()]: the first entry that is not in [done] *)
Fixpoint pick (m : list (list Z * tree)) (done : list (list Z)) : out (list Z * info) :=
  match m with
  | [] => UB  (* i->second at the end of the map *)
  | (k, t) :: m' => if existsb (list_eqb k) done then pick m' done else Ret (k, t_info t)
  end.
(** archivereader.cpp:95-111 nextEntry(): the entry and the changed lister *)
Definition dl_take (l : lip) (d : dl) (p : list (list Z)) : out (dl * info) :=
  let* n := lip_node l p in
  let* (k, i) := pick (in_order (t_ch n)) (dl_done d) in
  Ret (mkDl (dl_pos d + 1) (dl_list d) (dl_lip d) (Some p) (k :: dl_done d) (dl_url d), i).
(** archivereader.cpp:67, 78, 86: pos = -1 *)
Definition dl_end (d : dl) : dl := mkDl (-1) (dl_list d) (dl_lip d) (dl_node d) (dl_done d) (dl_url d).
(** not code: a listing by its number (the pointer kept at archivereader.cpp:35-61) *)
Definition at_lip (ls : list lip) (k : nat) : out lip := match nth_error ls k with Some l => Ret l | None => UB end.
(** archivereader.cpp:63-89 [bool nextEntry(EntryInfo&)] *)
Definition dl_next (N : nat) (ls : list lip) (d : dl) : out (list lip * dl * option info) :=
  match dl_lip d with
  | None => if (dl_pos d <? 0) || (zlen (dl_list d) <=? dl_pos d) then Ret (ls, dl_end d, None) else
            match zget (dl_list d) (dl_pos d) with
            | Some i => Ret (ls, mkDl (dl_pos d + 1) (dl_list d) None (dl_node d) (dl_done d) (dl_url d), Some i)
            | None => UB
            end
  | Some k =>
      if dl_pos d <? 0 then Ret (ls, dl_end d, None) else
      let* l := at_lip ls k in
      match dl_node d with
      | None =>
          let* (l, e) := lip_next_url N l (dl_url d) in
          let ls := upd ls k l in
          match e with
          | None => Ret (ls, dl_end d, None)
          | Some p => let* n := lip_node l p in
                      if zlen (t_ch n) =? 0 then Ret (ls, dl_end (mkDl (dl_pos d) (dl_list d) (dl_lip d) (Some p) (dl_done d) (dl_url d)), None)
                      else let* (d, i) := dl_take l d p in
                           Ret (ls, mkDl 1 (dl_list d) (dl_lip d) (dl_node d) (dl_done d) (dl_url d), Some i)
          end
      | Some p =>
          let* n := lip_node l p in
          if dl_pos d <? zlen (t_ch n) then let* (d, i) := dl_take l d p in Ret (ls, d, Some i)
          else let* (l, ok) := lip_next_node N l p in
               let ls := upd ls k l in
               if ok then let* (d, i) := dl_take l d p in Ret (ls, d, Some i) else Ret (ls, dl_end d, None)
      end
  end.

Section Fs.
Variable fs : list Z -> option file.
(** archivereader.cpp:294-302 open *)
Definition open (url : list Z) : option stream := match fs url with Some f => f_stream f | None => None end.

(** archivereader.cpp:212-224 cullName: the positions and the name and stream that could be opened *)
Fixpoint cull (fuel : nat) (url n : list Z) (acc : list Z) : list Z * option (list Z * stream) :=
  match open n with
  | Some s => (acc, Some (n, s))
  | None => match fuel with
            | O => (acc, None)
            | S fuel => match rfind_slash n 0 None with
                        | None => (acc, None)
                        | Some p => if p =? 0 then (acc, None) else cull fuel url (slice url 0 p) (acc ++ [p + 1])
                        end
            end
  end.
(** archivereader.cpp:212-224 *)
Definition cullName (url : list Z) : list Z * option (list Z * stream) := cull (length url) url url [].

(** the cache with its trees; archiveentrycache.cpp:31-63 on it, with a check that the tree found still exists *)
Definition cache_trees (r : reader) : list (list Z * tree) :=
  map (fun x => (fst x, match nth_error (r_lips r) (snd x) with
                        | Some l => match list_root (lp_st l) with Some t => t | None => T (mkInfo [] 0 0 0) [] end
                        | None => T (mkInfo [] 0 0 0) [] end)) (r_cache r).
(** archivereader.cpp:437: cache.findEntry(url) *)
Definition cache_find (r : reader) (url : list Z) : out (option tree) :=
  let* root := findRootEntry (length url + 1) (cache_trees r) url in
  match root with
  | None => Ret None
  | Some (u, _) => match get (r_cache r) u with
                   | None => UB
                   | Some k => let* l := at_lip (r_lips r) k in let* _ := lip_tree l in findEntry (cache_trees r) url
                   end
  end.
(** archivereader.cpp:500-520 findListingInProgress *)
Fixpoint find_prog (fuel : nat) (m : list (list Z * nat)) (n : list Z) : out (option nat) :=
  match fuel with
  | O => Hang
  | S fuel => match get m n with
              | Some k => Ret (Some k)
              | None => match rfind_slash n 0 None with None => Ret None | Some p => find_prog fuel m (slice n 0 p) end
              end
  end.

(** archivereader.cpp:303-360 localStat (the first opener that knows the url decides) *)
Definition localStat (r : reader) (url : list Z) : out (reader * option info) :=
  match fs url with
  | None => Ret (r, None)
  | Some f =>
      let e := f_info f in
      if Z.land (i_type e) 2 =? 0 then Ret (r, Some e) else
      match get (r_prog r) url with
      | Some k => let* l := at_lip (r_lips r) k in let* t := lip_root l in Ret (r, Some (t_info t))
      | None =>
          let* (r, hit) :=
            match get (r_cache r) url with
            | None => Ret (r, None)
            | Some k =>
                let* l := at_lip (r_lips r) k in
                let* t := lip_tree l in
                if i_mtime (t_info t) =? i_mtime e then Ret (r, Some (mkInfo (i_name e) (i_size e) (i_mtime e) (i_type (t_info t))))
                else (* erase(entry.filename): the key of the cache is the url; delete rse *)
                  Ret (mkReader (upd (r_lips r) k (mkLip (lp_url l) (lp_st l) (lp_depth l) (lp_open l) (lp_root l) true))
                         (r_prog r) (del (r_cache r) (i_name (t_info t))) (r_dls r), None)
            end in
          match hit with
          | Some e => Ret (r, Some e)
          | None => Ret (r, Some (match f_stream f with
                                  | Some (Arch _ _) => mkInfo (i_name e) (i_size e) (i_mtime e) 3
                                  | _ => e end))
          end
      end
  end.

(** archivereader.cpp:35-61: a DirLister over a listing that is complete *)
Definition static (v : list info) (url : list Z) : dl := mkDl 0 v None None [] url.
(** archivereader.cpp:424-433 convert *)
Definition convert (t : tree) : list info := map (fun x => t_info (snd x)) (in_order (t_ch t)).
(** archivereader.cpp:434-485 dirEntries *)
Definition dirEntries (r : reader) (url : list Z) : out (reader * dl) :=
  let* sub := cache_find r url in
  let* found := match sub with Some _ => Ret None | None => find_prog (length url + 1) (r_prog r) url end in
  let* (r, k, failed) :=
    match sub, found with
    | Some _, _ => Ret (r, None, false)
    | None, Some k => Ret (r, Some k, false)
    | None, None =>
        match cullName url with
        | (_, None) => Ret (r, None, true)
        | (_, Some (name, s)) =>
            let* (r, e) := localStat r name in
            let '(st, d) := list_new (match e with Some e => e | None => mkInfo [] (-1) 0 0 end) s in
            let k := length (r_lips r) in
            Ret (mkReader (r_lips r ++ [mkLip name st d true true false]) (set (r_prog r) name k) (r_cache r) (r_dls r), Some k, false)
        end
    end in
  if failed : bool then Ret (r, static [] url) else
  let* (r, lister) :=
    match k with
    | None => Ret (r, None)
    | Some k =>
        let* l := at_lip (r_lips r) k in
        if lp_open l then Ret (r, Some (mkDl 0 [] (Some k) None [] url))
        else (* isDone(): the tree moves to the cache *)
          Ret (mkReader (upd (r_lips r) k (mkLip (lp_url l) (lp_st l) (lp_depth l) (lp_open l) false (lp_freed l)))
                 (del (r_prog r) (lp_url l)) (set (r_cache r) (lp_url l) k) (r_dls r), None)
    end in
  match lister with
  | Some d => Ret (r, d)
  | None =>
      let* sub := match sub with Some t => Ret (Some t) | None => cache_find r url end in
      Ret (r, static (match sub with Some t => convert t | None => [] end) url)
  end.

(** archivereader.cpp:379-386: ask the lister until the name is found (the code compares with a C string: urls without
    0 bytes) *)
Fixpoint stat_loop (N M : nat) (ls : list lip) (d : dl) (name : list Z) : out (list lip * option info) :=
  match M with
  | O => Hang
  | S M => let* (ls, d, e) := dl_next N ls d in
           match e with
           | None => Ret (ls, None)
           | Some i => if list_eqb (i_name i) name then Ret (ls, Some i) else stat_loop N M ls d name
           end
  end.
(** archivereader.cpp:366-388 stat *)
Definition stat (N : nat) (r : reader) (url : list Z) : out (reader * option info) :=
  let* (r, e) := localStat r url in
  match e with
  | Some i => Ret (r, Some i)
  | None =>
      let* sub := cache_find r url in
      match sub with
      | Some t => Ret (r, Some (t_info t))
      | None =>
          match rfind_slash url 0 None with
          | None => Ret (r, None)
          | Some p =>
              let* (r, d) := dirEntries r (slice url 0 p) in
              let* (ls, e) := stat_loop N N (r_lips r) d (slice url (p + 1) (zlen url)) in
              Ret (mkReader ls (r_prog r) (r_cache r) (r_dls r), e)
          end
      end
  end.
(** archivereader.cpp:416-423 isArchive *)
Definition isArchive (r : reader) (url : list Z) : out (reader * bool) :=
  let* (r, e) := localStat r url in
  Ret (r, match e with None => false | Some i => negb (Z.land (i_type i) 3 =? 0) end).
(** archivereader.cpp:486-499 canHandle *)
Fixpoint handle_loop (fuel : nat) (r : reader) (n : list Z) : out (reader * option info) :=
  match fuel with
  | O => Hang
  | S fuel => let* (r, e) := localStat r n in
              match e with
              | Some i => Ret (r, Some i)
              | None => match rfind_slash n 0 None with
                        | None => Ret (r, None)
                        | Some p => if p =? 0 then Ret (r, None) else handle_loop fuel r (slice n 0 p)
                        end
              end
  end.
(** archivereader.cpp:486-499 *)
Definition canHandle (r : reader) (url : list Z) : out (reader * bool) :=
  let* (r, e) := handle_loop (length url + 1) r url in
  Ret (r, match e with None => false | Some i => negb (Z.land (i_type i) 2 =? 0) && negb (Z.land (i_type i) 1 =? 0) end).

(** strncmp(a, b, n) == 0, for strings that end with a 0 behind the list *)
Fixpoint strncmp_eq (a b : list Z) (n : nat) : bool :=
  match n with
  | O => true
  | S n => if hd 0 a =? hd 0 b then (if hd 0 a =? 0 then true else strncmp_eq (tl a) (tl b) n) else false
  end.
(** archivereader.cpp:257-282: the first entry whose name matches the url at [i] *)
Fixpoint find_match (url : list Z) (i : Z) (l : list entry) : option entry :=
  match l with
  | [] => None
  | e :: l' => let n := i_name (e_info e) in
      if (i_type (e_info e) =? 2) && (zlen n <? zlen url) && strncmp_eq n (skipn (Z.to_nat i) url) (length n) then Some e
      else find_match url i l'
  end.
(** archivereader.cpp:269-271: the positions before [x] are skipped *)
Fixpoint skip_below (l : list Z) (x : Z) : list Z := match l with [] => [] | q :: l' => if q <? x then skip_below l' x else l end.
(** archivereader.cpp:246-289: [parts]: the positions that are left, in increasing order *)
Fixpoint open_parts (fuel : nat) (url : list Z) (s : stream) (parts : list Z) : out (option entry) :=
  match fuel with
  | O => Hang
  | S fuel =>
      match parts, s with
      | [], _ => Ret None
      | _, Plain => Ret None
      | i :: rest, Arch e es =>
          match find_match url i (e :: es) with
          | None => Ret None   (* the next round, if any, finds no provider for the null stream *)
          | Some e => match skip_below rest (i + zlen (i_name (e_info e))) with
                      | [] => Ret (Some e)
                      | parts => open_parts fuel url (e_stream e) parts
                      end
          end
      end
  end.
(** archivereader.cpp:389-400 openStream: a file, or the current entry of the positioned provider *)
Inductive opened := Physical (s : stream) | Member (e : entry).
(** archivereader.cpp:389-400 *)
Definition openStream (url : list Z) : out (option opened) :=
  match open url with
  | Some s => Ret (Some (Physical s))
  | None => match cullName url with
            | (_, None) => Ret None
            | (parts, Some (_, s)) => let* e := open_parts (length url + 1) url s (rev parts) in
                                      Ret (match e with Some e => Some (Member e) | None => None end)
            end
  end.

(** what a program can do with the reader; DirListers are numbered in the order of the calls of dirEntries *)
Inductive rop := RDir (url : list Z) | RNext (k : nat) | RStat (url : list Z) | RIsArchive (url : list Z) | RCanHandle (url : list Z) | ROpen (url : list Z).
(** not code: the results of the functions of archivereader.h *)
Inductive rres := VLister (k : nat) | VInfo (o : option info) | VBool (b : bool) | VStream (o : option opened).
(** not code: one thing that a program does with the reader *)
Definition rstep (N : nat) (r : reader) (o : rop) : out (reader * rres) :=
  match o with
  | RDir url => let* (r, d) := dirEntries r url in
                Ret (mkReader (r_lips r) (r_prog r) (r_cache r) (r_dls r ++ [d]), VLister (length (r_dls r)))
  | RNext k => match nth_error (r_dls r) k with
               | None => UB
               | Some d => let* (ls, d, i) := dl_next N (r_lips r) d in
                           Ret (mkReader ls (r_prog r) (r_cache r) (upd (r_dls r) k d), VInfo i)
               end
  | RStat url => let* (r, i) := stat N r url in Ret (r, VInfo i)
  | RIsArchive url => let* (r, b) := isArchive r url in Ret (r, VBool b)
  | RCanHandle url => let* (r, b) := canHandle r url in Ret (r, VBool b)
  | ROpen url => let* s := openStream url in Ret (r, VStream s)
  end.
(** not code: a program, doing one thing after the other *)
Fixpoint rrun (N : nat) (r : reader) (os : list rop) : out (reader * list rres) :=
  match os with
  | [] => Ret (r, [])
  | o :: os => let* (r, v) := rstep N r o in let* (r, vs) := rrun N r os in Ret (r, v :: vs)
  end.
End Fs.
