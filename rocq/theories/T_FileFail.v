(** C58: FileInputStream::open(path, hint) when the path cannot be opened, mapped or read. *)
From Verif Require Import Base StreamSpec P_Stream M_Buffered BufferedSpec M_File P_File P_Streams3 T_Streams M_FileFail.

(** calls whose arguments make sense for any stream: amounts and positions are not negative *)
Definition plain_call (c : call) : Prop := match c with Read mn mx => 1 <= mn | Skip n => 0 <= n | Reset p => 0 <= p end.
(** a history that goes on whatever the calls answer ([run] stops at the first error) *)
Fixpoint run_on {St A} (o : ops St A) (s : St) (l : list call) : out (St * list (obs A)) :=
  match l with
  | [] => Ret (s, [])
  | c :: l => let* (s, ob) := exec o s c in let* (s, obs) := run_on o s l in Ret (s, ob :: obs)
  end.
(** the answer of a stream that could not be opened: status Error, nothing handed out, nothing skipped,
    read and reset return -2, position and size stay what they were *)
Definition failed_answer (c : call) (ob : obs Z) : Prop :=
  ob_st ob = Error /\ ob_data ob = [] /\ ob_pos ob = 0 /\ ob_size ob = -1 /\
  match c with Skip _ => ob_ret ob = 0 \/ ob_ret ob = -2 | _ => ob_ret ob = -2 end.
Definition failed_for_good {St} (o : ops St Z) (s : St) : Prop :=
  o_status o s = Error /\
  forall l, Forall plain_call l -> exists s' obs, run_on o s l = Ret (s', obs) /\ Forall2 failed_answer l obs.

Lemma fixed_fails {St} (o : ops St Z) s : o_status o s = Error -> o_pos o s = 0 -> o_size o s = -1 ->
  (forall mn mx, o_read o s mn mx = Ret (s, -2, [])) -> (forall n, 0 <= n -> exists r, (r = 0 \/ r = -2) /\ o_skip o s n = Ret (s, r)) ->
  (forall p, 0 <= p -> o_reset o s p = Ret (s, -2)) -> failed_for_good o s.
Proof.
  intros H1 H2 H3 Hr Hs Hp. split; [exact H1|]. induction l as [|c l IH]; intros Hl.
  - exists s, []. split; [reflexivity|constructor].
  - apply Forall_cons_iff in Hl as (Hc & Hl). destruct (IH Hl) as (s' & obs & E & HF).
    assert (exists ob, exec o s c = Ret (s, ob) /\ failed_answer c ob) as (ob & E1 & Ho).
    { destruct c as [mn mx|n|p]; cbn [exec plain_call] in *.
      - rewrite Hr. cbn [bind]. eexists; split; [reflexivity|]. unfold failed_answer; cbn. auto.
      - destruct (Hs n Hc) as (r & Hr' & ->). cbn [bind]. eexists; split; [reflexivity|]. unfold failed_answer; cbn. auto.
      - rewrite (Hp p Hc). cbn [bind]. eexists; split; [reflexivity|]. unfold failed_answer; cbn. auto. }
    exists s', (ob :: obs). cbn [run_on]. rewrite E1. cbn [bind]. rewrite E. cbn [bind]. split; [reflexivity|constructor; assumption].
Qed.

(** A missing or unreadable file and the null path: for every hint but MMap the stream is in status Error
    from the start and stays so. *)
Theorem C58_missing : forall os null h bs, h <> MMap -> null = true \/ os = None ->
  exists s, open_hint os null h bs = Ret s /\ failed_for_good (fany_ops os) s.
Proof.
  intros os null h bs Hh Hn.
  assert (fi_new os null bs = Ret fi_failed /\ skx_new os null = mkSkx false (mkSkf 0 0 (-1) 0 Error)) as (E1 & E2).
  { unfold fi_new, skx_new. destruct Hn as [->| ->]; [split; reflexivity|destruct null; split; reflexivity]. }
  assert (failed_for_good (fany_ops os) (FS (mkSkx false (mkSkf 0 0 (-1) 0 Error)))) as HS.
  { apply fixed_fails; try reflexivity. intros n Hn'. exists (-2). split; [right; reflexivity|]. reflexivity. }
  destruct h; [|congruence| |]; cbn [open_hint]; rewrite ?E1, ?E2; cbn [bind]; (eexists; split; [reflexivity|]); [|exact HS|exact HS].
  apply fixed_fails; try reflexivity.
  - intros n Hn'. exists 0. split; [left; reflexivity|]. cbn [o_skip fany_ops fb_ops bs_ops]. rewrite bs_skip_nonneg by exact Hn'.
    destruct (Z.to_nat n) as [|k] eqn:Ek; cbn [bs_skip_loop].
    + assert (n = 0) as -> by lia. reflexivity.
    + destruct (Z.eqb_spec n 0); reflexivity.
  - intros p Hp. cbn [o_reset fany_ops fb_ops bs_ops]. unfold bs_reset. destruct (Z.ltb_spec p 0); [lia|]. reflexivity.
Qed.

(** With MMap the stream of a missing file is in status Error as well, and never hands out anything; every read fails or reports the end *)
Definition no_answer (c : call) (ob : obs Z) : Prop :=
  ob_st ob <> Ok /\ ob_data ob = [] /\ match c with Read _ _ => ob_ret ob = (match ob_st ob with Error => -2 | _ => -1 end) | _ => ob_ret ob <= 0 end.
Theorem C58_missing_mapped_partial : forall h bs, h = MMap ->
  exists s, open_hint None false h bs = Ret s /\ o_status (fany_ops None) s = Error /\
    (forall l, Forall plain_call l -> Forall (fun c => forall n, c <> Skip n) l -> exists s' obs, run_on (fany_ops None) s l = Ret (s', obs) /\ Forall2 failed_answer l obs) /\
    (forall l, Forall plain_call l -> exists s' obs, run_on (fany_ops None) s l = Ret (s', obs) /\ Forall2 no_answer l obs).
Proof.
  intros h bs ->. eexists. split; [reflexivity|]. split; [reflexivity|]. split.
  - induction l as [|c l IH]; intros Hl Hs; [do 2 eexists; split; [reflexivity|constructor]|].
    apply Forall_cons_iff in Hl as (Hc & Hl). apply Forall_cons_iff in Hs as (Hs & Hs'). destruct (IH Hl Hs') as (s' & obs & E & HF). cbn [bind] in E.
    destruct c as [mn mx|n|p]; [|destruct (Hs n eq_refl)|]; cbn in E |- *; rewrite E; cbn; (do 2 eexists; split; [reflexivity|]; constructor; [|exact HF]); repeat split; reflexivity.
  - cbn [bind]. intros l Hl. assert (forall s, mm_buf s = [] -> mm_size s = -1 -> (mm_st s = Error /\ mm_pos s = 0) \/ (mm_st s = Eof /\ mm_pos s = -1) ->
      exists s' obs, run_on (fany_ops None) (FM s) l = Ret (s', obs) /\ Forall2 no_answer l obs) as H; [|apply H; auto].
    induction l as [|c l IH]; intros s Hb Hz Hst; [do 2 eexists; split; [reflexivity|constructor]|].
    apply Forall_cons_iff in Hl as (Hc & Hl). specialize (IH Hl).
    destruct s as [b z p st]; cbn [mm_buf mm_size mm_st mm_pos] in Hb, Hz, Hst. subst b z.
    assert (exists t ob, exec (fany_ops None) (FM (mkMM [] (-1) p st)) c = Ret (FM t, ob) /\ no_answer c ob /\
      mm_buf t = [] /\ mm_size t = -1 /\ ((mm_st t = Error /\ mm_pos t = 0) \/ (mm_st t = Eof /\ mm_pos t = -1))) as (t & ob & E & Ho & Hb & Hz & Ht).
    { destruct c as [mn mx|n|q]; cbn [plain_call] in Hc; cbn [exec fany_ops o_read o_skip o_reset].
      - destruct Hst as [(-> & ->)|(-> & ->)]; unfold mm_read; cbn [mm_st bind]; (do 2 eexists; split; [reflexivity|]); split; try (unfold no_answer; cbn; repeat split; congruence); cbn; auto.
      - unfold mm_skip; cbn [mm_size mm_pos mm_buf mm_st]. destruct Hst as [(-> & ->)|(-> & ->)].
        + change (-1 - 0) with (-1). destruct (Z.leb_spec (-1) n); [|lia]. cbn [bind]. do 2 eexists. split; [reflexivity|]. split; [unfold no_answer; cbn; repeat split; first [congruence|lia]|]. cbn; auto.
        + change (-1 - -1) with 0. destruct (Z.leb_spec 0 n); [|lia]. cbn [bind]. do 2 eexists. split; [reflexivity|]. split; [unfold no_answer; cbn; repeat split; first [congruence|lia]|]. cbn; auto.
      - unfold mm_reset; cbn [mm_st mm_size mm_buf mm_pos]. destruct Hst as [(-> & ->)|(-> & ->)]; cbn [bind].
        + do 2 eexists. split; [reflexivity|]. split; [unfold no_answer; cbn; repeat split; [congruence|lia]|]. cbn; auto.
        + destruct (Z.leb_spec (-1) q); [|lia]. cbn [bind]. do 2 eexists. split; [reflexivity|]. split; [unfold no_answer; cbn; repeat split; [congruence|lia]|]. cbn; auto. }
    destruct (IH t Hb Hz Ht) as (s' & obs & E' & HF). exists s', (ob :: obs). cbn [run_on]. rewrite E. cbn [bind]. rewrite E'. cbn [bind]. split; [reflexivity|constructor; assumption].
Qed.
(** ... but skip() does not look at the status (mmapfileinputstream.cpp:83-91): it turns the error into the end of an
    empty file, returns -1 and moves position() to -1; *)
Theorem C58_mapped_skip_refuted : forall bs n, 0 <= n -> exists s s', open_hint None false MMap bs = Ret s /\
  run_on (fany_ops None) s [Skip n; Read 1 1] = Ret (s', [mkObs (-1) [] (-1) (-1) Eof; mkObs (-1) [] (-1) (-1) Eof]).
Proof.
  intros bs n Hn. eexists; eexists; split; [reflexivity|]. cbn [run_on exec fany_ops o_skip]. unfold mm_skip at 1. cbn [mm_size mm_pos mm_buf mm_st].
  destruct (Z.leb_spec (-1 - 0) n); [|lia]. reflexivity.
Qed.
(** A file that is there but cannot be mapped: status Error from the start, every read and reset fails and nothing is handed out,
    as long as the skips together stay before its end. *)
Definition skipped (l : list call) : Z := fold_right (fun c a => match c with Skip n => n + a | _ => a end) 0 l.
Theorem C58_map_fails_partial : forall f bs, os_map f = false -> 0 < zlen (os_bytes f) ->
  exists s, open_hint (Some f) false MMap bs = Ret s /\ o_status (fany_ops (Some f)) s = Error /\
    forall l, Forall plain_call l -> skipped l < zlen (os_bytes f) -> exists s' obs, run_on (fany_ops (Some f)) s l = Ret (s', obs) /\
      Forall2 (fun c ob => ob_st ob = Error /\ ob_data ob = [] /\ match c with Skip _ => True | _ => ob_ret ob = -2 end) l obs.
Proof.
  intros f bs Hm Hz. eexists. unfold open_hint, mmap_new. destruct (Z.eqb_spec (zlen (os_bytes f)) 0); [lia|]. rewrite Hm. split; [reflexivity|]. split; [reflexivity|].
  intros l Hl Hsk. change (skipped l) with (0 + skipped l) in Hsk. set (z := zlen (os_bytes f)) in *. clearbody z. clear n. revert Hl Hsk. generalize 0 at 1 2 as p.
  induction l as [|c l IH]; intros p Hl Hsk; [do 2 eexists; split; [reflexivity|constructor]|].
  apply Forall_cons_iff in Hl as (Hc & Hl). assert (0 <= skipped l) as Hn.
  { clear -Hl. induction Hl as [|c l Hc Hl IH]; [cbn; lia|]. destruct c; cbn [skipped fold_right plain_call] in *; fold (skipped l) in *; lia. }
  destruct c as [mn mx|n|q]; cbn [plain_call] in Hc; cbn [skipped fold_right] in Hsk; fold (skipped l) in Hsk.
  - destruct (IH p Hl ltac:(lia)) as (s' & obs & E & HF). cbn [run_on exec fany_ops o_read]. unfold mm_read. cbn [mm_st bind]. rewrite E. cbn [bind].
    do 2 eexists; split; [reflexivity|]. constructor; [|exact HF]. repeat split; reflexivity.
  - destruct (IH (p + n) Hl ltac:(lia)) as (s' & obs & E & HF). cbn [run_on exec fany_ops o_skip]. unfold mm_skip. cbn [mm_size mm_pos mm_buf mm_st].
    destruct (Z.leb_spec (z - p) n); [lia|]. cbn [bind]. rewrite E. cbn [bind]. do 2 eexists; split; [reflexivity|]. constructor; [|exact HF]. repeat split; reflexivity.
  - destruct (IH p Hl ltac:(lia)) as (s' & obs & E & HF). cbn [run_on exec fany_ops o_reset]. unfold mm_reset. cbn [mm_st bind]. rewrite E. cbn [bind].
    do 2 eexists; split; [reflexivity|]. constructor; [|exact HF]. repeat split; reflexivity.
Qed.
(** where mmap fails (directories, some file systems) a skip to the end and a reset make the stream look fine, and read() hands out a null pointer as data; *)
Theorem C58_map_fails_refuted : forall f bs, zlen (os_bytes f) = 4096 -> os_map f = false -> exists s, open_hint (Some f) false MMap bs = Ret s /\
  o_status (fany_ops (Some f)) s = Error /\ run_on (fany_ops (Some f)) s [Skip 4096; Reset 0; Read 1 1] = UB.
Proof.
  intros f bs Hz Hm. eexists. unfold open_hint, mmap_new. rewrite Hz, Hm. split; [reflexivity|]. split; reflexivity.
Qed.
(** and the null path is undefined behaviour. *)
Theorem C58_null_mapped_refuted : forall os bs, open_hint os true MMap bs = UB.
Proof. reflexivity. Qed.

(** ** a file that is there *)
Section Through.
Context {S1 : Type} (o : ops S1 Z) (o2 : ops fany Z) (inj : S1 -> fany).
Hypothesis Hread : forall s mn mx, o_read o2 (inj s) mn mx = (let* (x, n, d) := o_read o s mn mx in Ret (inj x, n, d)).
Hypothesis Hskip : forall s n, o_skip o2 (inj s) n = (let* (x, r) := o_skip o s n in Ret (inj x, r)).
Hypothesis Hreset : forall s p, o_reset o2 (inj s) p = (let* (x, r) := o_reset o s p in Ret (inj x, r)).
Hypothesis Hpos : forall s, o_pos o2 (inj s) = o_pos o s.
Hypothesis Hsize : forall s, o_size o2 (inj s) = o_size o s.
Hypothesis Hst : forall s, o_status o2 (inj s) = o_status o s.
Lemma run_through l : forall s, run o2 (inj s) l = (let* (x, obs) := run o s l in Ret (inj x, obs)).
Proof.
  induction l as [|c l IH]; intros s; [reflexivity|]. cbn [run].
  assert (exec o2 (inj s) c = (let* (x, ob) := exec o s c in Ret (inj x, ob))) as ->.
  { destruct c as [mn mx|n|p]; cbn [exec]; [rewrite Hread; destruct (o_read o s mn mx) as [[[? ?] ?]| | |]|rewrite Hskip; destruct (o_skip o s n) as [[? ?]| | |]|rewrite Hreset; destruct (o_reset o s p) as [[? ?]| | |]];
      try reflexivity; cbn [bind]; unfold observe; rewrite Hpos, Hsize, Hst; reflexivity. }
  destruct (exec o s c) as [[x ob]| | |]; try reflexivity. cbn [bind]. destruct (is_error (ob_st ob)); [reflexivity|]. rewrite IH.
  destruct (run o x l) as [[? ?]| | |]; reflexivity.
Qed.
Lemma conforms_through content fails lim s v : Conforms o content fails lim s v -> Conforms o2 content fails lim (inj s) v.
Proof.
  intros (H1 & H2 & H3). split; [exact H1|]. split; [rewrite Hpos; exact H2|]. intros l Hl. destruct (H3 l Hl) as (s' & obs & E & Ha).
  exists (inj s'), obs. rewrite run_through, E. split; [reflexivity|exact Ha].
Qed.
End Through.

(** Without read errors the skipping stream is the one of C21. *)
Lemma skx_is_skf f s mn mx : (forall p n, os_fault f p n = None) ->
  skx_read (Some f) (mkSkx true s) mn mx = (let* (x, n, d) := skf_read (os_bytes f) s mn mx in Ret (mkSkx true x, n, d)).
Proof.
  intros Hf. unfold skx_read, skf_read, os_failing. cbn [sx sx_open].
  match goal with |- context [bind ?r _] => destruct r as [n| | |] end; try reflexivity. cbn [bind]. rewrite Hf.
  destruct ((n <? 0) || _); [reflexivity|]. destruct (zlen _ =? n); reflexivity.
Qed.
Lemma skf_reset_skx s p : skx_reset (mkSkx true s) p = (let* (x, r) := skf_reset s p in Ret (mkSkx true x, r)).
Proof. reflexivity. Qed.
Lemma skf_skip_skx s n : skx_skip (mkSkx true s) n = (let* (x, r) := skf_skip s n in Ret (mkSkx true x, r)).
Proof.
  unfold skx_skip, skf_skip. rewrite skf_reset_skx. cbn [sx]. destruct (skf_reset s (sk_pos s + n)) as [[x r]| | |]; try reflexivity. cbn [bind]. destruct (r =? -2); reflexivity.
Qed.

(** A non-empty file that can be read and mapped and whose size the system tells: whatever the hint, the stream has exactly the bytes of
    the file (Unbuffered and Automatic: for readers that treat 0 like the end, C21). *)
Theorem C58_there : forall f h bs, (forall p n, os_fault f p n = None) -> os_map f = true -> 0 < zlen (os_bytes f) ->
  os_seek f = zlen (os_bytes f) -> 1 <= bs < 2 ^ 30 ->
  exists s, open_hint (Some f) false h bs = Ret s /\
    match h with
    | Buffered => Conforms (fany_ops (Some f)) (os_bytes f) False BUF_LIM s view0
    | MMap => Conforms (fany_ops (Some f)) (os_bytes f) False INT32_MAX s view0
    | Unbuffered | Automatic => Conforms (zero_is_end (fany_ops (Some f))) (os_bytes f) False BUF_LIM s view0
    end.
Proof.
  intros f h bs Hf Hm Hz Hs Hbs.
  assert (Conforms (zero_is_end (fany_ops (Some f))) (os_bytes f) False BUF_LIM (FS (mkSkx true (skf_open (os_bytes f) (os_seek f)))) view0) as HFS.
  { apply (conforms_through (zero_is_end (skf_ops (os_bytes f))) _ (fun s => FS (mkSkx true s))); try reflexivity.
    - intros s mn mx. cbn [o_read zero_is_end fany_ops skf_ops]. rewrite skx_is_skf by exact Hf. destruct (skf_read _ s mn mx) as [[[? ?] ?]| | |]; reflexivity.
    - intros s n. cbn [o_skip zero_is_end fany_ops skf_ops]. rewrite skf_skip_skx. destruct (skf_skip s n) as [[? ?]| | |]; reflexivity.
    - intros s n. cbn [o_reset zero_is_end fany_ops skf_ops]. rewrite skf_reset_skx. destruct (skf_reset s n) as [[? ?]| | |]; reflexivity.
    - rewrite Hs. apply C21_skipping_file_partial. }
  destruct h; cbn [open_hint].
  - destruct (C21_file (os_bytes f) (os_failing f) (os_seek f) bs ltac:(auto) Hbs) as (x & E & HC & _). unfold fi_new. rewrite E. cbn [bind]. exists (FB x). split; [reflexivity|].
    apply (conforms_through (fb_ops (Some f)) _ FB); try reflexivity.
    destruct HC as (C1 & C2 & C3). split; [exact C1|]. split; [exact C2|]. intros l Hl. destruct (C3 l Hl) as (s' & obs & Er & Ha). exists s', obs. split; [exact Er|].
    eapply accepts_fails; [|exact Ha]. intros (p & n & H). unfold os_failing in H. rewrite Hf in H. discriminate.
  - unfold mmap_new. destruct (Z.eqb_spec (zlen (os_bytes f)) 0); [lia|]. rewrite Hm. cbn [bind]. eexists; split; [reflexivity|].
    apply (conforms_through mm_ops _ FM); try reflexivity. apply C21_mmap_partial. exact Hz.
  - eexists; split; [reflexivity|]. exact HFS.
  - eexists; split; [reflexivity|]. exact HFS.
Qed.

(** ** errors while reading *)
(** FileInputStream: the first failing fread puts the stream into status Error, with -2 as answer, and nothing of that fread is handed out
    (the contract of C21_file, whose [fails] are exactly the failing freads). *)
Theorem C58_read_errors : forall f bs, os_seek f = zlen (os_bytes f) \/ os_seek f = 0 \/ os_seek f = -1 -> 1 <= bs < 2 ^ 30 ->
  exists s, open_hint (Some f) false Buffered bs = Ret s /\
    Conforms (fany_ops (Some f)) (os_bytes f) (exists p n, os_fault f p n <> None) BUF_LIM s view0.
Proof.
  intros f bs Hs Hbs. destruct (C21_file (os_bytes f) (os_failing f) (os_seek f) bs Hs Hbs) as (x & E & HC & _).
  cbn [open_hint]. unfold fi_new. rewrite E. cbn [bind]. exists (FB x). split; [reflexivity|].
  apply (conforms_through (fb_ops (Some f)) _ FB); try reflexivity.
  destruct HC as (C1 & C2 & C3). split; [exact C1|]. split; [exact C2|]. intros l Hl. destruct (C3 l Hl) as (s' & obs & Er & Ha). exists s', obs. split; [exact Er|].
  eapply accepts_fails; [|exact Ha]. intros (p & n & H). exists p, n. unfold os_failing in H. destruct (os_fault f p n); congruence.
Qed.
(** SkippingFileInputStream: what a read hands out are the bytes of the file at the position before it, and the position moves by as much, also if fread fails ... *)
Theorem C58_skipping_read_errors_partial : forall f s mn mx s' n d,
  sx_open s = true -> 0 <= sk_fpos (sx s) -> (forall p n k, os_fault f p n = Some k -> 0 <= k < n) ->
  o_read (skx_ops (Some f)) s mn mx = Ret (s', n, d) ->
  d = slice (os_bytes f) (sk_fpos (sx s)) n /\ n = zlen d /\ o_pos (skx_ops (Some f)) s' = sk_fpos (sx s) + n /\ sk_fpos (sx s') = sk_fpos (sx s) + n /\
  (forall k, (forall m, os_fault f (sk_fpos (sx s)) m = Some k) -> o_status (skx_ops (Some f)) s' = Error).
Proof.
  intros f [op t] mn mx s' n d Hop Hp Hk E. cbn [sx_open sx o_read o_pos o_status skx_ops] in *. subst op.
  unfold skx_read in E. cbn [sx_open sx] in E.
  match type of E with bind ?r _ = _ => destruct r as [m| | |] end; cbn [bind] in E; try discriminate.
  destruct ((m <? 0) || _) eqn:Em; [discriminate|]. apply orb_false_iff in Em as (Em & _). apply Z.ltb_ge in Em.
  set (w := match os_fault f (sk_fpos t) m with Some k => k | None => m end) in *.
  assert (0 <= w) as Hw by (unfold w; destruct (os_fault f (sk_fpos t) m) as [k|] eqn:Ek; [specialize (Hk _ _ _ Ek); lia|lia]).
  assert (slice (os_bytes f) (sk_fpos t) w = slice (os_bytes f) (sk_fpos t) (zlen (slice (os_bytes f) (sk_fpos t) w))) as Hs.
  { unfold slice. unfold zlen. rewrite Nat2Z.id. rewrite firstn_length. rewrite <- (firstn_all2 (n := length (skipn (Z.to_nat (sk_fpos t)) (os_bytes f))) (skipn (Z.to_nat (sk_fpos t)) (os_bytes f))) at 1 by lia.
    rewrite firstn_firstn. reflexivity. }
  assert (forall st size, Ret (mkSkx true (mkSkf (if sk_bufsize t <? (if mx <=? 0 then Z.max 1024 (Z.max (sk_bufsize t) mn) else Z.max mn mx) then m else sk_bufsize t)
      (sk_fpos t + zlen (slice (os_bytes f) (sk_fpos t) w)) size (sk_fpos t + zlen (slice (os_bytes f) (sk_fpos t) w)) st),
      zlen (slice (os_bytes f) (sk_fpos t) w), slice (os_bytes f) (sk_fpos t) w) = Ret (s', n, d) ->
    (forall k, (forall m, os_fault f (sk_fpos t) m = Some k) -> st = Error) ->
    d = slice (os_bytes f) (sk_fpos t) n /\ n = zlen d /\ sk_pos (sx s') = sk_fpos t + n /\ sk_fpos (sx s') = sk_fpos t + n /\
    (forall k, (forall m, os_fault f (sk_fpos t) m = Some k) -> sk_st (sx s') = Error)) as Hfin.
  { intros st size H Hst. injection H as <- <- <-. cbn [sx sk_pos sk_fpos sk_st]. split; [exact Hs|]. split; [reflexivity|]. split; [reflexivity|]. split; [reflexivity|exact Hst]. }
  destruct (Z.eqb_spec (zlen (slice (os_bytes f) (sk_fpos t) w)) m) as [Hz|Hz].
  - eapply Hfin; [exact E|]. intros k Hf. exfalso. assert (w = k) as Ew by (unfold w; rewrite Hf; reflexivity). specialize (Hk _ _ _ (Hf m)).
    assert (zlen (slice (os_bytes f) (sk_fpos t) w) <= w) as Hle by (unfold slice, zlen; rewrite firstn_length; lia). lia.
  - destruct (os_failing f (sk_fpos t) m) eqn:Ef.
    + eapply Hfin; [exact E|]. reflexivity.
    + eapply Hfin; [exact E|]. intros k Hf. unfold os_failing in Ef. rewrite Hf in Ef. discriminate.
Qed.
(** ... but the answer is the number of bytes that came (0 here) and not -2, and the following reads do not look at the status:
    they hand out data again, with status Error *)
Theorem C58_skipping_error_refuted : forall f, os_bytes f = [1;2;3;4] -> os_seek f = 4 ->
  os_fault f 0 2 = Some 0 -> os_fault f 0 4 = None ->
  exists s s', open_hint (Some f) false Automatic 4096 = Ret s /\
    run_on (fany_ops (Some f)) s [Read 2 2; Read 4 4] = Ret (s', [mkObs 0 [] 0 4 Error; mkObs 4 [1;2;3;4] 4 4 Error]).
Proof.
  intros f Hb Hs H1 H2. eexists; eexists. split; [reflexivity|].
  cbn [run_on exec fany_ops o_read skx_new]. unfold skf_open. rewrite Hb, Hs. change (4 =? 0) with false. cbn iota.
  unfold skx_read at 1. cbn [sx_open sx sk_bufsize sk_fpos sk_size sk_pos sk_st]. rewrite Hb. change (2 <=? 0) with false. cbn iota. change (Z.max 2 2) with 2. change (0 <? 2) with true. cbn iota. cbn [bind].
  rewrite H1. unfold os_failing at 1. rewrite H1. change (zlen (slice [1;2;3;4] 0 0)) with 0. cbn -[skx_read].
  unfold skx_read. cbn [sx_open sx sk_bufsize sk_fpos sk_size sk_pos sk_st]. rewrite Hb. change (4 <=? 0) with false. cbn iota. change (Z.max 4 4) with 4. change (2 <? 4) with true. cbn iota. cbn [bind].
  change (0 + 0) with 0. rewrite H2. reflexivity.
Qed.

(** ** the hypotheses are met *)
Example C58_case : let f := mkOs [1;2;3] 3 (fun _ _ => None) true in
  exists s s', open_hint (Some f) false MMap 4096 = Ret s /\ run (fany_ops (Some f)) s [Read 2 2; Read 2 2; Read 1 1] =
    Ret (s', [mkObs 2 [1;2] 2 3 Ok; mkObs 1 [3] 3 3 Eof; mkObs (-1) [] 3 3 Eof]).
Proof. intros f. do 2 eexists. split; [reflexivity|]. vm_compute. reflexivity. Qed.
Example C58_missing_case : exists s s', open_hint None false Automatic 4096 = Ret s /\ run_on (fany_ops None) s [Read 1 0; Skip 5; Reset 0; Read 3 9] =
    Ret (s', [mkObs (-2) [] 0 (-1) Error; mkObs (-2) [] 0 (-1) Error; mkObs (-2) [] 0 (-1) Error; mkObs (-2) [] 0 (-1) Error]).
Proof. do 2 eexists. split; [reflexivity|]. vm_compute. reflexivity. Qed.
(** a read error in the middle of a file *)
Example C58_error_case : let f := mkOs [1;2;3;4] 4 (fun p n => if 2 <=? p then Some 0 else None) true in
  exists s s' obs, open_hint (Some f) false Buffered 2 = Ret s /\ run_on (fany_ops (Some f)) s [Read 2 2; Read 1 1; Read 1 1] = Ret (s', obs) /\
    map ob_ret obs = [2; -2; -2] /\ map ob_st obs = [Ok; Error; Error] /\ (exists p n, os_fault f p n <> None).
Proof. intros f. do 3 eexists. split; [reflexivity|]. split; [vm_compute; reflexivity|]. split; [reflexivity|]. split; [reflexivity|]. exists 2, 1. discriminate. Qed.
(** a file that cannot be mapped *)
Example C58_map_fails_case : let f := mkOs [1;2;3;4] 4 (fun _ _ => None) false in exists s s',
  open_hint (Some f) false MMap 0 = Ret s /\ skipped [Read 1 1; Skip 3; Reset 0] < 4 /\
  run_on (fany_ops (Some f)) s [Read 1 1; Skip 3; Reset 0] = Ret (s', [mkObs (-2) [] 0 4 Error; mkObs 3 [] 3 4 Error; mkObs (-2) [] 3 4 Error]).
Proof. intros f. do 2 eexists. split; [reflexivity|]. split; [reflexivity|]. vm_compute. reflexivity. Qed.
