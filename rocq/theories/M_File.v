(** Models of the file streams: /repo/lib/fileinputstream.cpp,
    mmapfileinputstream.cpp, skippingfileinputstream.cpp.  The operating system is modelled as a
    regular file with fixed bytes; [fault pos n] tells whether fread of [n] bytes
    at offset [pos] reports ferror (an oracle: any I/O error pattern). *)
From Verif Require Import Base StreamSpec M_Buffered.

Section File.
Variable bytes : list Z.
Variable fault : Z -> Z -> bool.

(** the FILE* behind FileInputStream: [f_open = false] is [file == 0] *)
Record fstate := mkF { f_open : bool; f_pos : Z }.

(** fread(start,1,space,file): the bytes read; feof is set iff fewer than requested *)
Definition fread (pos space : Z) : list Z := slice bytes pos space.

(** fileinputstream.cpp:98-117 *)
Definition file_fill (f : fstate) (space : Z) : out (fstate * Z * list Z * bool) :=
  if negb (f_open f) then Ret (f, -1, [], false)
  else
    let d := fread (f_pos f) space in
    if fault (f_pos f) space then Ret (mkF false (f_pos f), -1, d, true)
    else
      let n := wrap32 (zlen d) in
      Ret (mkF (negb (zlen d <? space)) (f_pos f + zlen d), n, d, false).
(** fileinputstream.h:30-79: FileInputStream as a BufferedStream; the virtual functions of this class as a record, no code of its own. The bound on rounds returning 0 is not in the code *)
Definition file_src : source fstate Z :=
  mkSource _ _ file_fill (fun f => if f_open f then 1%nat else 0%nat).

(** fileinputstream.cpp:49-89 for a FILE* that could be opened; [seek_size] is what
    fseeko/ftello report: -1 if not seekable, otherwise the size claimed by the file
    system (0 for non-empty /proc files) *)
Definition file_open (seek_size buffersize : Z) : out (bstream fstate Z) :=
  let m_size :=
    if seek_size =? 0 then (if zlen (fread 0 1) =? 1 then -1 else 0) else seek_size in
  if (seek_size =? 0) && (m_size =? 0)
  then Ret (mkBS buf0 false (mkF false 0) 0 0 Ok)
  else
    let* bufsize := if m_size <=? buffersize then chk32 (wrap32 m_size + 1) else Ret buffersize in
    setMinBufSize (mkBS buf0 false (mkF true 0) m_size 0 Ok) bufsize.
End File.

Section MMap.
(** mmapfileinputstream.h: [buffer], streambase.h:54-64.  Mapping is assumed to succeed; mapped
    memory equals the file bytes. *)
Record mmstream := mkMM { mm_buf : list Z; mm_size : Z; mm_pos : Z; mm_st : status }.
(** mmapfileinputstream.cpp:33-64, successful open *)
Definition mm_new (bytes : list Z) : mmstream := mkMM bytes (zlen bytes) 0 Ok.

(** mmapfileinputstream.cpp:70-82 *)
Definition mm_read (s : mmstream) (min max : Z) : out (mmstream * Z * list Z) :=
  match mm_st s with
  | Error => Ret (s, -2, [])
  | Eof => Ret (s, -1, [])
  | Ok =>
    let n := Z.max min max in
    let '(st, n) := if mm_size s - mm_pos s <=? n then (Eof, wrap32 (mm_size s - mm_pos s)) else (Ok, n) in
    if (0 <=? mm_pos s) && (0 <=? n) && (mm_pos s + n <=? zlen (mm_buf s))
    then Ret (mkMM (mm_buf s) (mm_size s) (mm_pos s + n) st, n, slice (mm_buf s) (mm_pos s) n)
    else UB
  end.
(** mmapfileinputstream.cpp:83-91 *)
Definition mm_skip (s : mmstream) (n : Z) : out (mmstream * Z) :=
  if mm_size s - mm_pos s <=? n
  then Ret (mkMM (mm_buf s) (mm_size s) (mm_pos s + (mm_size s - mm_pos s)) Eof, mm_size s - mm_pos s)
  else Ret (mkMM (mm_buf s) (mm_size s) (mm_pos s + n) (mm_st s), n).
(** mmapfileinputstream.cpp:92-106 *)
Definition mm_reset (s : mmstream) (pos : Z) : out (mmstream * Z) :=
  match mm_st s with
  | Error => Ret (s, -2)
  | _ =>
    let s' := if mm_size s <=? pos then mkMM (mm_buf s) (mm_size s) (mm_size s) Eof
              else if pos <? 0 then mkMM (mm_buf s) (mm_size s) 0 Ok
              else mkMM (mm_buf s) (mm_size s) pos Ok in
    Ret (s', mm_pos s')
  end.
(** mmapfileinputstream.h:30-47: the virtual functions of this class as a record, no code of its own *)
Definition mm_ops : ops mmstream Z := mkOps _ _ mm_read mm_skip mm_reset mm_pos mm_size mm_st.
End MMap.

Section SkippingFile.
Variable bytes : list Z.
(** skippingfileinputstream.h:33-37; the file is open ([file != 0]) and regular, so
    fseek to any position >= 0 succeeds, ftell returns the file offset and
    there are no read errors.  The buffer content is only handed out right after fread and
    therefore not kept. *)
Record skf := mkSkf { sk_bufsize : Z; sk_fpos : Z; sk_size : Z; sk_pos : Z; sk_st : status }.
(** skippingfileinputstream.cpp:44-77 *)
Definition skf_open (seek_size : Z) : skf :=
  let m_size := if seek_size =? 0 then (if zlen (slice bytes 0 1) =? 1 then -1 else 0) else seek_size in
  mkSkf 0 0 m_size 0 Ok.
(** skippingfileinputstream.cpp:87-122 *)
Definition skf_read (s : skf) (min max : Z) : out (skf * Z * list Z) :=
  let n0 := if max <=? 0 then Z.max 1024 (Z.max (sk_bufsize s) min) else Z.max min max in
  let* n :=
    if sk_bufsize s <? n0 then
      if max <=? 0 then
        let* d := chk32 (2 * sk_bufsize s) in
        let n1 := Z.max n0 d in
        Ret (if negb (sk_size s =? -1) && (sk_size s - sk_pos s <? n1)
             then wrap32 (sk_size s - sk_pos s + 1) else n1)
      else Ret n0
    else Ret n0 in
  let bufsize := if sk_bufsize s <? n0 then n else sk_bufsize s in
  if (n <? 0) || (bufsize <? n) then UB else
  let d := slice bytes (sk_fpos s) n in
  let nr := zlen d in
  let pos := sk_fpos s + nr in
  let '(st, size) := if nr =? n then (sk_st s, sk_size s)
                     else (Eof, if sk_size s =? -1 then pos else sk_size s) in
  Ret (mkSkf bufsize pos size pos st, nr, d).
(** skippingfileinputstream.cpp:129-143 *)
Definition skf_reset (s : skf) (pos : Z) : out (skf * Z) :=
  let pos := if (0 <=? sk_size s) && (sk_size s <? pos) then sk_size s else pos in
  if pos <? 0 then Ret (mkSkf (sk_bufsize s) (sk_fpos s) (sk_size s) (sk_pos s) Error, -2)
  else Ret (mkSkf (sk_bufsize s) pos (sk_size s) pos (if pos =? sk_size s then Eof else Ok), pos).
(** skippingfileinputstream.cpp:123-128 *)
Definition skf_skip (s : skf) (n : Z) : out (skf * Z) :=
  let* (s', r) := skf_reset s (sk_pos s + n) in
  if r =? -2 then Ret (s', -2) else Ret (s', sk_pos s' - sk_pos s).
(** skippingfileinputstream.h:30-50: the virtual functions of this class as a record, no code of its own *)
Definition skf_ops : ops skf Z := mkOps _ _ skf_read skf_skip skf_reset sk_pos sk_size sk_st.
End SkippingFile.

(** not code: the view of a caller who treats 0 like -1 *)
Definition zero_is_end {St A} (o : ops St A) : ops St A :=
  mkOps _ _ (fun s mn mx => let* (s', n, d) := o_read o s mn mx in Ret (s', if n =? 0 then -1 else n, d))
        (o_skip o) (o_reset o) (o_pos o) (o_size o) (o_status o).
