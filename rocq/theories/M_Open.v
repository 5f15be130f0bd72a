(** Model of subStreamProvider() of /repo/lib/listinginprogress.cpp 80-143: how ArchiveReader and its listings turn a stream
    into a list of entries: compressed streams are unwrapped first, then the header checks decide. *)
From Verif Require Import Base StreamSpec ArchiveSpec M_Sub M_Buffered M_Text M_Inflate M_Lzma M_Detect
  M_Ar M_Cpio M_Tar M_Zip M_Sdf M_Rpm M_StringTerm M_Base64 M_MailList.

(** an InputStream*: some implementation and its state; [inp]: the state of the stream with which subStreamProvider() was called,
    which this stream reads from (states of type [R]) *)
Inductive anystream (R : Type) := Any (St : Type) (o : ops St Z) (s : St) (inp : St -> R).
Arguments Any {R St}.
(** the result of subStreamProvider(): a SubStreamProvider* whose nextEntry() has just returned an entry with the info [i],
    or a null pointer, with the state the input stream has then *)
Inductive opened (R : Type) := Found (St : Type) (pv : provider St) (st : St) (i : info) (inp : St -> R) | NoArchive (r : R).
Arguments Found {R St}. Arguments NoArchive {R}.
(** one element of the map [Subs] (archivereader.cpp 148-149): checkHeader, factory, nextEntry(), and the state of
    the input stream inside the provider *)
Record sub_type := mkSubType {
  su_check : list Z -> out bool;
  su_state : Type -> Type;
  su_make : forall P, ops P Z -> P -> out (su_state P);
  su_pv : forall P, ops P Z -> provider (su_state P);
  su_input : forall P, su_state P -> P }.

(** "n = s->read(c, min, 0); s->reset(0)".  The data stays valid over the reset (streambase.h:166-186). *)
Definition peek {P} (par : ops P Z) (p : P) (min : Z) : out (P * Z * list Z) :=
  let* (p, n, c) := o_read par p min 0 in
  let* (p, _) := o_reset par p 0 in
  Ret (p, n, c).

Section Open.
Context {R Dg Db Dl : Type}.
Variables (cg : codec Dg) (cb : codec Db) (cl : lzcodec Dl).
(** as in M_Inflate and M_Lzma: 262144, bound for the loops, success of LzmaDec_Allocate *)
Variables (bufsize : Z) (gas : nat) (alloc_ok : bool).

(** listinginprogress.cpp:91-104.  A failed read leaves c uninitialised, but checkHeader looks at n first. *)
Definition try_bz2 (x : anystream R) : out (anystream R * bool) :=
  match x with Any par p inp =>
    let* (p, n, c) := peek par p 16 in
    let* is := bz2_check c in
    if is then
      let* ns := bz_new cb par bufsize p gas in
      match bs_st ns with
      | Ok => Ret (Any (bs_ops (z_src cb par true)) ns (fun ns => inp (z_par (bs_src ns))), true)
      | _ => let* (p, _) := o_reset par (z_par (bs_src ns)) 0 in Ret (Any par p inp, false)
      end
    else Ret (Any par p inp, false)
  end.
(** listinginprogress.cpp:105-117 *)
Definition try_gzip (x : anystream R) : out (anystream R * bool) :=
  match x with Any par p inp =>
    let* (p, n, c) := peek par p 2 in
    let* is := if 2 <=? n then match c with c0 :: c1 :: _ => Ret ((c0 =? 31) && (c1 =? 139)) | _ => UB end else Ret false in
    if is then
      let* ns := gz_new cg par bufsize true p gas in
      match bs_st ns with
      | Ok => Ret (Any (bs_ops (z_src cg par false)) ns (fun ns => inp (z_par (bs_src ns))), true)
      | _ => let* (p, _) := o_reset par (z_par (bs_src ns)) 0 in Ret (Any par p inp, false)
      end
    else Ret (Any par p inp, false)
  end.
(** listinginprogress.cpp:118-130 *)
Definition try_lzma (x : anystream R) : out (anystream R * bool) :=
  match x with Any par p inp =>
    let* (p, n, c) := peek par p 2 in
    let* is := lzma_check c in
    if is then
      let* ns := l_new cl par bufsize alloc_ok p gas in
      match bs_st ns with
      | Ok => Ret (Any (l_ops cl par) ns (fun ns => inp (l_par (bs_src ns))), true)
      | _ => let* (p, _) := o_reset par (l_par (bs_src ns)) 0 in Ret (Any par p inp, false)
      end
    else Ret (Any par p inp, false)
  end.
(** listinginprogress.cpp:86-131; [k] is 32 - nestingDepth *)
Fixpoint unwrap (k : nat) (x : anystream R) : out (anystream R) :=
  let* (x, b) := try_bz2 x in
  let* (x, g) := try_gzip x in
  let* (x, l) := try_lzma x in
  if b || g || l then match k with O => Ret x | S k => unwrap k x end else Ret x.

(** listinginprogress.cpp:138-156; after a provider without entries only one byte is asked for *)
Fixpoint try_subs (subs : list sub_type) {P} (par : ops P Z) (p : P) (inp : P -> R) (c : list Z) : out (opened R) :=
  match subs with
  | [] => Ret (NoArchive (inp p))
  | sb :: subs =>
      let* is := su_check sb c in
      if is then
        let* ss := su_make sb P par p in
        let* (ss, r) := pv_next (su_pv sb P par) ss in
        match r with
        | Some i => Ret (Found (su_pv sb P par) ss i (fun ss => inp (su_input sb P ss)))
        | None => let* (p, _) := o_reset par (su_input sb P ss) 0 in
                  let* (p, _, c) := peek par p 1 in
                  try_subs subs par p inp c
        end
      else try_subs subs par p inp c
  end.
(** listinginprogress.cpp:80-158 *)
Definition open_archive (subs : list sub_type) (x : anystream R) : out (opened R) :=
  let* x := unwrap 32 x in
  match x with Any par p inp =>
    let* (p, _, c) := peek par p 1024 in
    try_subs subs par p inp c
  end.

(** ** the map of ArchiveReader, archivereader.cpp 174-190.  Its order is that of the addresses of the functions. *)
Section Subs.
(** zlib without gzip header (zip), host byte order (rpm), mktime() (zip), the limit for header lines (mail), bound for the loops *)
Context {Dz : Type}.
Variable (cz : codec Dz).
Variables (big : bool) (mktime : tm -> Z) (maxl : Z) (fuel : nat).
(** substreamprovider.h:77 m_input: the input, on which the entry stream works *)
Definition cur_in {P} (c : P + sub P) : P := match c with inl p => p | inr s => su_par s end.
(** substreamprovider.h:77 m_input (used in zipinputstream.cpp:55-254) *)
Definition zip_input {P} (z : zip Dz P) : P :=
  match zi_cur z with
  | ZNone p => p
  | ZStored s => su_par s
  | ZKnown e => su_par (z_par (bs_src (su_par e)))
  | ZUnknown x => z_par (bs_src x)
  end.
(** substreamprovider.h:77 m_input (used in rpminputstream.cpp:49-160) *)
Definition rpm_input {P} (r : rpm P Dg Db Dl) : P :=
  match rp_pay r with
  | PNone p => p
  | PGz c => z_par (bs_src (cur_in (c_cur c)))
  | PBz c => z_par (bs_src (cur_in (c_cur c)))
  | PLz c => l_par (bs_src (cur_in (c_cur c)))
  end.
(** substreamprovider.h:77 m_input (used in mailinputstream.cpp:343-684) *)
Definition mail_input {P} (a : mail P) : P :=
  match M_MailList.a_cur a with
  | None => l_in (a_ml a)
  | Some (CSub s) => su_par s
  | Some (CPart s) => t_in s
  | Some (CB64 x) => t_in (q_par (bs_src x))
  end.
(** archivereader.cpp:178: MailInputStream in subs (checkHeader and factory) *)
Definition sub_mail : sub_type :=
  mkSubType mail_check mail (fun P par => mail_new par maxl fuel) (fun P par => mail_provider par maxl fuel) (fun P => mail_input).
(** archivereader.cpp:180: RpmInputStream in subs (checkHeader and factory) *)
Definition sub_rpm : sub_type :=
  mkSubType rpm_check (fun P => rpm P Dg Db Dl) (fun P par => rpm_new par big cg cb cl bufsize gas alloc_ok)
    (fun P par => rpm_provider par cg cb cl fuel) (fun P => rpm_input).
(** archivereader.cpp:182: ArInputStream in subs (checkHeader and factory) *)
Definition sub_ar : sub_type :=
  mkSubType ar_check ar (fun P par => ar_new par) (fun P par => ar_provider par fuel) (fun P a => cur_in (M_Ar.a_cur a)).
(** archivereader.cpp:184: ZipInputStream in subs (checkHeader and factory) *)
Definition sub_zip : sub_type :=
  mkSubType zip_check (zip Dz) (fun P par p => Ret (zip_new p)) (fun P par => zip_provider cz par mktime bufsize gas fuel) (fun P => zip_input).
(** archivereader.cpp:186: TarInputStream in subs (checkHeader and factory) *)
Definition sub_tar : sub_type :=
  mkSubType tar_check tar (fun P par p => Ret (tar_new p)) (fun P par => tar_provider par fuel) (fun P a => cur_in (t_cur a)).
(** archivereader.cpp:188: SdfInputStream in subs (checkHeader and factory) *)
Definition sub_sdf : sub_type :=
  mkSubType sdf_check sdf (fun P par => sdf_new) (fun P par => sdf_provider par fuel) (fun P a => cur_in (sd_cur a)).
(** archivereader.cpp:174-190: the formats of an ArchiveReader *)
Definition reader_subs : list sub_type := [sub_mail; sub_rpm; sub_ar; sub_zip; sub_tar; sub_sdf].
End Subs.
End Open.
