(** Specification for C33: which path leads to which entry, in terms of path strings only. *)
From Verif Require Import Base StreamSpec ArchiveSpec.

(** an archive as it was listed: its entry information and its entries in the order in which they were
    added; an entry that is itself an archive has entries of its own. [i_name] is a path. *)
Inductive listing := L (i : info) (sub : list listing).
Definition l_info (l : listing) : info := match l with L i _ => i end.

(** the part of the path [f] below the directory [n]: f = n/rest *)
Fixpoint below (n f : list Z) : option (list Z) :=
  match n, f with
  | [], c :: rest => if c =? 47 then Some rest else None
  | a :: n', b :: f' => if a =? b then below n' f' else None
  | _, [] => None
  end.
(** what follows the last slash *)
Definition basename (f : list Z) : list Z := fold_left (fun acc c => if c =? 47 then [] else acc ++ [c]) f [].
Definition renamed (i : info) (n : list Z) : info := mkInfo n (i_size i) (i_mtime i) (i_type i).

(** What is stored at path [f] of a listing.  Entries are added one after the other: an entry at [f]
    itself is found there under its last name; an entry at a directory above [f] decides what is below
    it; an entry below [f] makes [f] a directory if there was nothing. *)
Fixpoint lookup (l : listing) (f : list Z) : option info :=
  match l with
  | L _ sub =>
      fold_left (fun found e =>
        match e with L i _ =>
          if list_eq_dec Z.eq_dec (i_name i) f then Some (renamed i (basename f))
          else match below (i_name i) f with
          | Some rest => lookup e rest
          | None => match found with
                    | Some x => Some x
                    | None => match below f (i_name i) with
                              | Some _ => Some (mkInfo (basename f) 0 0 1)
                              | None => None
                              end
                    end
          end
        end) sub None
  end.

(** [r] is a root for [url]: the url itself or a directory above it *)
Definition root_of (r url : list Z) : Prop := r = url \/ exists f, url = r ++ 47 :: f.
(** what findEntry(url) must report for the cached archives [stored] *)
Definition answer (stored : list (list Z * listing)) (url : list Z) (res : option info) : Prop :=
  (exists r l, In (r, l) stored /\ root_of r url /\
     (forall r' l', In (r', l') stored -> root_of r' url -> zlen r' <= zlen r) /\
     res = match below r url with None => Some (l_info l) | Some f => lookup l f end)
  \/ ((forall r l, In (r, l) stored -> ~ root_of r url) /\ res = None).
