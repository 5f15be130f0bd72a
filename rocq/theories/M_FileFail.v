(** Model of FileInputStream::open(path, hint) and of the constructors of the three file streams including their
    failures: /repo/lib/fileinputstream.cpp, mmapfileinputstream.cpp, skippingfileinputstream.cpp.  M_File.v has the
    streams behind a successful open. *)
From Verif Require Import Base StreamSpec M_Buffered M_File.

(** what the operating system does with a path: fopen, open and fstat fail ([None]), or there is a file with these bytes; [os_seek] is
    what fseeko/ftello tell (M_File); fread of [n] bytes at [pos] fails after [k] bytes ([os_fault pos n = Some k], ferror);
    [os_map]: mmap succeeds (it does not for directories and on some file systems) *)
Record osfile := mkOs { os_bytes : list Z; os_seek : Z; os_fault : Z -> Z -> option Z; os_map : bool }.
Definition os_failing (f : osfile) (pos n : Z) : bool := match os_fault f pos n with Some _ => true | None => false end.

(** fileinputstream.cpp:35-89; [null] is [filepath == 0] *)
Definition fi_failed : bstream fstate Z := mkBS buf0 false (mkF false 0) (-1) 0 Error.
Definition fi_new (os : option osfile) (null : bool) (buffersize : Z) : out (bstream fstate Z) :=
  if null then Ret fi_failed
  else match os with
  | None => Ret fi_failed
  | Some f => file_open (os_bytes f) (os_seek f) buffersize
  end.
(** mmapfileinputstream.cpp:33-64; a null path is added to m_error: undefined behaviour (open(0) fails with EFAULT before) *)
Definition mmap_new (os : option osfile) (null : bool) : out mmstream :=
  if null then UB
  else match os with
  | None => Ret (mkMM [] (-1) 0 Error)
  | Some f => if zlen (os_bytes f) =? 0 then Ret (mkMM [] 0 0 Ok)
              else if os_map f then Ret (mkMM (os_bytes f) (zlen (os_bytes f)) 0 Ok)
              else Ret (mkMM [] (zlen (os_bytes f)) 0 Error)
  end.
(** skippingfileinputstream.h:33-37 with [sx_open]: [file != 0] *)
Record skx := mkSkx { sx_open : bool; sx : skf }.
(** skippingfileinputstream.cpp:32-77 *)
Definition skx_new (os : option osfile) (null : bool) : skx :=
  if null then mkSkx false (mkSkf 0 0 (-1) 0 Error)
  else match os with
  | None => mkSkx false (mkSkf 0 0 (-1) 0 Error)
  | Some f => mkSkx true (skf_open (os_bytes f) (os_seek f))
  end.
(** skippingfileinputstream.cpp:87-122; as [skf_read] (M_File) with the tests for [file] and [ferror] *)
Definition skx_read (f : option osfile) (s : skx) (min max : Z) : out (skx * Z * list Z) :=
  let t := sx s in
  match (if sx_open s then f else None) with
  | None => Ret (mkSkx (sx_open s) (mkSkf (sk_bufsize t) (sk_fpos t) (sk_size t) (sk_pos t) Error), -2, [])
  | Some f =>
    let n0 := if max <=? 0 then Z.max 1024 (Z.max (sk_bufsize t) min) else Z.max min max in
    let* n :=
      if sk_bufsize t <? n0 then
        if max <=? 0 then
          let* d := chk32 (2 * sk_bufsize t) in
          let n1 := Z.max n0 d in
          Ret (if negb (sk_size t =? -1) && (sk_size t - sk_pos t <? n1)
               then wrap32 (sk_size t - sk_pos t + 1) else n1)
        else Ret n0
      else Ret n0 in
    let bufsize := if sk_bufsize t <? n0 then n else sk_bufsize t in
    if (n <? 0) || (bufsize <? n) then UB else
    let d := slice (os_bytes f) (sk_fpos t) (match os_fault f (sk_fpos t) n with Some k => k | None => n end) in
    let nr := zlen d in
    let pos := sk_fpos t + nr in
    let '(st, size) := if nr =? n then (sk_st t, sk_size t)
                       else if os_failing f (sk_fpos t) n then (Error, sk_size t)
                       else (Eof, if sk_size t =? -1 then pos else sk_size t) in
    Ret (mkSkx true (mkSkf bufsize pos size pos st), nr, d)
  end.
(** skippingfileinputstream.cpp:129-143 *)
Definition skx_reset (s : skx) (pos : Z) : out (skx * Z) :=
  let t := sx s in
  if sx_open s then let* (t, r) := skf_reset t pos in Ret (mkSkx true t, r)
  else Ret (mkSkx false (mkSkf (sk_bufsize t) (sk_fpos t) (sk_size t) (sk_pos t) Error), -2).
(** skippingfileinputstream.cpp:123-128 *)
Definition skx_skip (s : skx) (n : Z) : out (skx * Z) :=
  let* (s', r) := skx_reset s (sk_pos (sx s) + n) in
  if r =? -2 then Ret (s', -2) else Ret (s', sk_pos (sx s') - sk_pos (sx s)).
(** skippingfileinputstream.h:30-50: the virtual functions of this class as a record, no code of its own *)
Definition skx_ops (f : option osfile) : ops skx Z :=
  mkOps _ _ (skx_read f) skx_skip skx_reset (fun s => sk_pos (sx s)) (fun s => sk_size (sx s)) (fun s => sk_st (sx s)).

(** fileinputstream.h:55-65 StreamTypeHint *)
Inductive hint := Buffered | MMap | Unbuffered | Automatic.
(** what FileInputStream::open can return *)
Inductive fany := FB (x : bstream fstate Z) | FM (s : mmstream) | FS (s : skx).
(** fileinputstream.cpp:118-133, not on Windows *)
Definition open_hint (os : option osfile) (null : bool) (h : hint) (buffersize : Z) : out fany :=
  match h with
  | Buffered => let* x := fi_new os null buffersize in Ret (FB x)
  | MMap => let* s := mmap_new os null in Ret (FM s)
  | Unbuffered | Automatic => Ret (FS (skx_new os null))
  end.
(** the functions of the FileInputStream behind the pointer; without a file [file_src] does not look at its bytes *)
Definition fb_ops (os : option osfile) : ops (bstream fstate Z) Z :=
  bs_ops (file_src (match os with Some f => os_bytes f | None => [] end) (match os with Some f => os_failing f | None => fun _ _ => false end)).
(** not code: virtual calls through the pointer *)
Definition fany_ops (os : option osfile) : ops fany Z :=
  mkOps _ _
    (fun s mn mx => match s with
       | FB x => let* (x, n, d) := o_read (fb_ops os) x mn mx in Ret (FB x, n, d)
       | FM x => let* (x, n, d) := mm_read x mn mx in Ret (FM x, n, d)
       | FS x => let* (x, n, d) := skx_read os x mn mx in Ret (FS x, n, d)
       end)
    (fun s n => match s with
       | FB x => let* (x, r) := o_skip (fb_ops os) x n in Ret (FB x, r)
       | FM x => let* (x, r) := mm_skip x n in Ret (FM x, r)
       | FS x => let* (x, r) := skx_skip x n in Ret (FS x, r)
       end)
    (fun s p => match s with
       | FB x => let* (x, r) := o_reset (fb_ops os) x p in Ret (FB x, r)
       | FM x => let* (x, r) := mm_reset x p in Ret (FM x, r)
       | FS x => let* (x, r) := skx_reset x p in Ret (FS x, r)
       end)
    (fun s => match s with FB x => o_pos (fb_ops os) x | FM x => mm_pos x | FS x => sk_pos (sx x) end)
    (fun s => match s with FB x => o_size (fb_ops os) x | FM x => mm_size x | FS x => sk_size (sx x) end)
    (fun s => match s with FB x => o_status (fb_ops os) x | FM x => mm_st x | FS x => sk_st (sx x) end).
