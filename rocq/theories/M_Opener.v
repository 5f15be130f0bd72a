(** Model of /repo/lib/filestreamopener.cpp: FileStreamOpener, and the constructor of FileInputStream it uses
    (fileinputstream.cpp:35-48). *)
From Verif Require Import Base StreamSpec M_Buffered M_File M_Ar ArchiveSpec.

(** what the operating system has at a path: the type in st_mode (1: directory, 2: regular file, 0: something else),
    st_size, st_mtime; and, if fopen succeeds, the bytes, what fseeko/ftello say about the size, and which reads fail *)
Record node := mkNode { n_type : Z; n_size : Z; n_mtime : Z; n_open : option (list Z * Z * (Z -> Z -> bool)) }.
(** paths are C strings *)
Definition filesystem := list Z -> option node.

(** string::rfind('/') *)
Fixpoint rfind (url : list Z) (i : Z) (found : option Z) : option Z :=
  match url with [] => found | c :: u => rfind u (i + 1) (if c =? 47 then Some i else found) end.
(** filestreamopener.cpp:46-69 stat; [e] are the fields of the EntryInfo; the result is the int, with the new EntryInfo *)
Definition opener_stat (fs : filesystem) (url : list Z) (e : info) : Z * info :=
  match fs (c_str url) with
  | None => (-1, e)
  | Some n =>
      let name := match rfind url 0 None with None => url | Some p => skipn (Z.to_nat (p + 1)) url end in
      (0, mkInfo name (n_size n) (n_mtime n) (n_type n))
  end.
(** filestreamopener.cpp:36-44 openStream: NULL, or a stream together with its functions *)
Definition opener_open (fs : filesystem) (url : list Z) : out (option { x : bstream fstate Z & ops (bstream fstate Z) Z }) :=
  match fs (c_str url) with
  | Some (mkNode _ _ _ (Some (bytes, seek, fault))) =>
      let* x := file_open bytes seek 1048576 in
      Ret (match bs_st x with Ok => Some (existT _ x (bs_ops (file_src bytes fault))) | _ => None end)
  | _ => Ret None      (* fopen fails: status Error, the stream is deleted *)
  end.
