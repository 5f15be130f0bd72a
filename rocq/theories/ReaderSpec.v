(** Specification for C42-C44: what ArchiveReader has to answer, in terms of the files and the listings of the
    archives among them (ListingSpec.v, CacheSpec.v). *)
From Verif Require Import Base StreamSpec ArchiveSpec CacheSpec M_Listing ListingSpec M_Reader.

(** the entries directly below a directory of a listing; [dir] = None: the archive itself *)
Definition path_in (dir : option (list Z)) (c : list Z) : list Z := match dir with None => c | Some d => d ++ 47 :: c end.
Definition child (l : listing) (dir : option (list Z)) (i : info) : Prop :=
  exists c, ~ In 47 c /\ lookup l (path_in dir c) = Some i /\ i_name i = c.
(** [is] are exactly these entries, each once *)
Definition complete (l : listing) (dir : option (list Z)) (is : list info) : Prop :=
  NoDup (map i_name is) /\ forall i, In i is <-> child l dir i.
(** no entry is added at a path where there is one already *)
Definition fresh_paths (l : listing) : Prop :=
  match l with L i sub => forall a e b, sub = a ++ e :: b -> lookup (L i a) (i_name (l_info e)) = None end.

(** the files: an openable file is a regular file, and nothing exists below it; its archives are nested at
    most nine levels deep (C40) and do not replace entries (C33) *)
Definition fs_ok (fs : list Z -> option file) : Prop :=
  fs [] = None /\
  forall u f s, fs u = Some f -> f_stream f = Some s ->
    i_type (f_info f) = 2 /\ (levels s <= 9)%nat /\ fresh_paths (listed_root (f_info f) s) /\ forall rest, fs (u ++ 47 :: rest) = None.
(** the type a StreamOpener gives is Unknown, Dir or File *)
Definition files_ok (fs : list Z -> option file) : Prop := fs_ok fs /\ forall u f, fs u = Some f -> 0 <= i_type (f_info f) <= 2.
(** [N] bounds the loops of the model; it only has to be large enough for the largest archive *)
Definition room (fs : list Z -> option file) (N : nat) : Prop :=
  (0 < N)%nat /\ forall u f s, fs u = Some f -> f_stream f = Some s -> (count s + 5 <= N)%nat.
(** the file that [url] names or goes through *)
Definition file_of (fs : list Z -> option file) (url u : list Z) (f : file) (s : stream) : Prop :=
  fs u = Some f /\ f_stream f = Some s /\ root_of u url.
(** what listing [url] must give: the entries of that directory of that archive, nothing if there is no archive *)
Definition dir_listing (fs : list Z -> option file) (url : list Z) (is : list info) : Prop :=
  (exists u f s, file_of fs url u f s /\ complete (listed_root (f_info f) s) (below u url) is) \/
  ((forall u f s, ~ file_of fs url u f s) /\ is = []).

(** what stat must say: about a file what its opener says, but an archive is File and Dir; about an entry of an
    archive what the listing says; false for everything else *)
Definition own_info (f : file) : info :=
  match f_stream f with Some (Arch _ _) => mkInfo (i_name (f_info f)) (i_size (f_info f)) (i_mtime (f_info f)) 3 | _ => f_info f end.
Definition stat_answer (fs : list Z -> option file) (url : list Z) (o : option info) : Prop :=
  match fs url with
  | Some f => o = Some (own_info f)
  | None => (exists u f s rest, file_of fs url u f s /\ url = u ++ 47 :: rest /\ o = lookup (listed_root (f_info f) s) rest) \/
            ((forall u f s, ~ file_of fs url u f s) /\ o = None)
  end.

(** what a program has seen of lister [k]: the entries returned, and whether nextEntry() has returned false *)
Definition returned (k : nat) (evs : list (rop * rres)) : list info :=
  flat_map (fun e => match e with (RNext j, VInfo (Some i)) => if Nat.eqb j k then [i] else [] | _ => [] end) evs.
Definition ended (k : nat) (evs : list (rop * rres)) : Prop := In (RNext k, VInfo None) evs.
(** every lister is asked once right after dirEntries; only existing listers are asked; [n]: listers so far *)
Fixpoint prompt (n : nat) (os : list rop) : Prop :=
  match os with
  | [] => True
  | RDir _ :: os' => match os' with RNext k :: os'' => k = n /\ prompt (S n) os'' | _ => False end
  | RNext k :: os' => (k < n)%nat /\ prompt n os'
  | _ :: os' => prompt n os'
  end.

(** [e] is a member that the path [f] names: a regular file of that name, or a member of an archive among
    the regular files, for the rest of the path *)
Inductive member_at : stream -> list Z -> entry -> Prop :=
| member_here e es x : In x (e :: es) -> i_type (e_info x) = 2 -> member_at (Arch e es) (i_name (e_info x)) x
| member_in e es x rest y : In x (e :: es) -> i_type (e_info x) = 2 -> member_at (e_stream x) rest y ->
    member_at (Arch e es) (i_name (e_info x) ++ 47 :: rest) y.
(** the entries of an archive and of the archives in it, level by level *)
Inductive level : stream -> list entry -> Prop :=
| level_here e es : level (Arch e es) (e :: es)
| level_in e es x l : In x (e :: es) -> level (e_stream x) l -> level (Arch e es) l.
(** the names of the regular files of one level: no 0 byte, no '/' at the end, no name begins with another one *)
Definition starts (a b : list Z) : Prop := exists r, b = a ++ r.
Definition plain_name (n : list Z) : Prop := ~ In 0 n /\ forall a, n <> a ++ [47].
Definition well_named (s : stream) : Prop := forall l, level s l ->
  (forall x, In x l -> i_type (e_info x) = 2 -> plain_name (i_name (e_info x))) /\
  (forall a x b y c, l = a ++ x :: b ++ y :: c -> i_type (e_info x) = 2 -> i_type (e_info y) = 2 ->
     ~ starts (i_name (e_info x)) (i_name (e_info y)) /\ ~ starts (i_name (e_info y)) (i_name (e_info x))).
(** a name that [f] begins with is [f] or a directory part of it, at every level that the path goes through *)
Inductive exact_path : stream -> list Z -> Prop :=
| exact_plain f : exact_path Plain f
| exact_arch e es f :
    (forall x, In x (e :: es) -> i_type (e_info x) = 2 -> plain_name (i_name (e_info x)) /\
       forall r, f = i_name (e_info x) ++ r -> r = [] \/ exists rest, r = 47 :: rest /\ exact_path (e_stream x) rest) ->
    exact_path (Arch e es) f.
