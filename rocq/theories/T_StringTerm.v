(** C12: StringTerminatedSubStream. *)
From Verif Require Import Base StreamSpec P_Stream M_StringStream M_Sub M_Kmp KmpSpec P_Kmp SegSpec M_StringTerm P_StringTerm.

(** specification: [c] is what comes before the first [q] in [rest] (everything if there is none) *)
Definition before_first (q rest c : list Z) (found : bool) : Prop :=
  if found then (exists after, rest = c ++ q ++ after) /\ forall d, 0 <= d < zlen c -> ~ occurs_at q rest d
  else c = rest /\ forall d, ~ occurs_at q rest d.

Lemma run_seg_no_reset {St A} e (o : ops St A) l : Forall no_reset l -> forall s v, run_seg e o s v l = run o s l.
Proof.
  induction 1 as [|c l Hc Hl IH]; intros s v; [reflexivity|]. cbn [run_seg run].
  assert (into_segment e v c = c) as -> by (destruct c; [reflexivity|reflexivity|destruct Hc]).
  destruct (exec o s c) as [[s' ob]| | |]; cbn [bind]; try reflexivity. destruct (is_error (ob_st ob)); [reflexivity|]. rewrite IH. reflexivity.
Qed.
Lemma accepts_seg_no_reset {A} e (content : list A) fails l : Forall no_reset l -> forall v obs, accepts_seg e content fails v l obs <-> accepts content fails v l obs.
Proof.
  induction 1 as [|c l Hc Hl IH]; intros v obs; [destruct obs; reflexivity|]. destruct obs as [|ob obs]; [reflexivity|]. cbn [accepts_seg accepts].
  assert (into_segment e v c = c) as -> by (destruct c; [reflexivity|reflexivity|destruct Hc]).
  destruct (is_error (ob_st ob)); [reflexivity|]. rewrite IH. reflexivity.
Qed.

(** not the code's: what the theorems below have in common *)
Lemma st_new_ok : forall (P : Type) (par : ops P Z) full lim p v q c found,
  Conforms par full False lim p v -> bytes full -> zlen full <= INT32_MAX ->
  q <> [] -> bytes q -> zlen q <= 2 ^ 29 - 258 -> short_or_unique_tail q -> 1 + zlen q <= lim ->
  before_first q (slice full (v_pos v) (zlen full - v_pos v)) c found -> (found = true -> c <> []) ->
  exists s, st_new par p q = Ret s /\
    forall l, Forall (seg_call lim (zlen q)) l -> exists s' obs, run_seg (negb found) (st_ops par) s view0 l = Ret (s', obs) /\
      accepts_seg (negb found) c False view0 l obs /\ (Forall no_reset l -> behind par q (v_pos v) (zlen c) found s') /\
      (found = true -> (t_st s' = Eof <-> t_pos s' = zlen c) /\ (t_st s' = Eof -> t_size s' = zlen c) /\ t_st s' <> Error).
Proof.
  intros P par full lim p v q c found HC Hfb Hfl Hq Hqb Hql Htail Hlim Hb Hne.
  assert (HC' := HC). destruct HC' as (Hv & Hp & _). unfold view_ok in Hv.
  destruct (setQuery_ok kmp_null q (or_introl eq_refl) Hq Hqb Hql) as (key & Ek & Hkey & Eq).
  unfold st_new. rewrite Ek; cbn [bind]. rewrite Hp. eexists; split; [reflexivity|].
  set (off := v_pos v) in *. set (rest := slice full off (zlen full - off)) in *.
  assert (zlen rest = zlen full - off) as Hr by (apply zlen_slice; lia).
  assert (zlen c <= zlen rest /\ slice rest 0 (zlen c) = c) as (Hcl & Hcs).
  { destruct found; destruct Hb as (Hb & _).
    - destruct Hb as (after & ->). rewrite !zlen_app. pose proof (zlen_nonneg q). pose proof (zlen_nonneg after). split; [lia|]. rewrite slice_app_l by lia. apply slice_all.
    - subst c. split; [lia|]. apply slice_all. }
  assert (0 < zlen q) as Htl by (destruct q; [congruence|rewrite zlen_cons; pose proof (zlen_nonneg q); lia]).
  pose proof (zlen_nonneg c).
  assert (slice full off (zlen c) = c) as Hcc by (rewrite <- Hcs at 2; unfold rest; rewrite slice_slice, Z.add_0_r by lia; reflexivity).
  assert (forall d, off <= d -> occ full q d -> occurs_at q rest (d - off)) as Hocc.
  { intros d Hd (O1 & O2 & O3). unfold occurs_at. rewrite Hr. split; [lia|]. split; [lia|]. unfold rest. rewrite slice_slice by lia. replace (off + (d - off)) with d by lia. exact O3. }
  assert (forall d, off <= d < off + zlen c -> ~ occ full q d) as Hfirst.
  { intros d Hd Ho. apply Hocc in Ho; [|lia]. destruct found; destruct Hb as (_ & Hb); apply Hb in Ho; [exact Ho|lia|exact Ho]. }
  assert (if found then occ full q (off + zlen c) /\ 0 < zlen c else off + zlen c = zlen full) as Hfd.
  { destruct found; destruct Hb as (Hb & _).
    - destruct Hb as (after & Ea). split.
      + assert (zlen rest = zlen c + zlen q + zlen after) as El by (rewrite Ea, !zlen_app; lia). pose proof (zlen_nonneg after). unfold occ. split; [lia|]. split; [lia|].
        assert (slice rest (zlen c) (zlen q) = q) as Es.
        { rewrite Ea. rewrite slice_app_r by lia. rewrite Z.sub_diag, slice_app_l by lia. apply slice_all. }
        unfold rest in Es. rewrite slice_slice in Es by lia. exact Es.
      + destruct c; [exfalso; apply (Hne eq_refl); reflexivity|rewrite zlen_cons; pose proof (zlen_nonneg c); lia].
    - subst c. lia. }
  assert (tinv full (Conforms par full False lim) key off (zlen c) found (mkSts p key off 0 0 (-1) Ok) view0) as HI.
  { unfold tinv, cont. rewrite Hcc. unfold view_ok, view0. cbn [v_pos v_lo v_hi t_key t_off t_pos t_size t_far t_in t_st].
    split; [lia|]. split; [reflexivity|]. split; [reflexivity|]. split; [reflexivity|]. split; [left; reflexivity|]. split; [lia|].
    split; [destruct found; [lia|exact I]|]. split; [lia|]. split.
    - exists v. split; [exact HC|]. split; [lia|]. split; [lia|]. intros; unfold off; lia.
    - left. split; [reflexivity|]. destruct found; [lia|exact I]. }
  assert (forall l, Forall (seg_call lim (zlen q)) l -> exists s' obs, run_seg (negb found) (st_ops par) (mkSts p key off 0 0 (-1) Ok) view0 l = Ret (s', obs) /\
     accepts_seg (negb found) c False view0 l obs /\ (Forall no_reset l -> behind par q off (zlen c) found s') /\
     (found = true -> (t_st s' = Eof <-> t_pos s' = zlen c) /\ (t_st s' = Eof -> t_size s' = zlen c) /\ t_st s' <> Error)) as HM.
  { intros l Hl. pose proof (conforms_sim par full False lim) as HS.
    destruct (st_run_ok par full lim _ HS q key Hkey Eq Htail Hfb Hfl off (zlen c) found ltac:(lia) ltac:(lia) ltac:(lia) Hfirst Hfd Htl Hlim ltac:(unfold INT32_MAX; lia) l _ _ HI Hl)
      as (s' & obs & E & A1 & (v' & I') & B).
    exists s', obs. split; [exact E|]. unfold cont in A1. rewrite Hcc in A1. split; [exact A1|]. split.
    - intros HN. apply B; [exact HN|]. unfold behind. cbn. discriminate.
    - intros ->. destruct I' as (_ & _ & _ & Ip & _ & _ & _ & _ & _ & [(Is & Il)|(Is & Il & Iz)]); rewrite Is.
      + split; [split; [discriminate|intros; lia]|]. split; [discriminate|discriminate].
      + split; [split; [intros _; lia|reflexivity]|]. split; [intros _; apply Iz; reflexivity|discriminate]. }
  exact HM.
Qed.

(** Over a conforming parent at any position, with a searchable terminator (C11) that is not the
    first thing at that position: the stream has the content that precedes the first terminator,
    for every history of reads, skips and resets into the current segment; and as long as nothing
    was rewound, reaching the end leaves the parent directly behind the terminator. *)
Theorem C12_before_terminator_partial : forall (P : Type) (par : ops P Z) full lim p v q c found,
  Conforms par full False lim p v -> bytes full -> zlen full <= INT32_MAX ->
  q <> [] -> bytes q -> zlen q <= 2 ^ 29 - 258 -> short_or_unique_tail q -> 1 + zlen q <= lim ->
  before_first q (slice full (v_pos v) (zlen full - v_pos v)) c found -> (found = true -> c <> []) ->
  exists s, st_new par p q = Ret s /\
    ConformsSeg (negb found) (st_ops par) c False (seg_call lim (zlen q)) s view0 /\
    forall l, Forall (seg_call lim (zlen q)) l -> Forall no_reset l ->
      exists s' obs, run (st_ops par) s l = Ret (s', obs) /\ accepts c False view0 l obs /\
        (found = true -> t_st s' = Eof -> o_pos par (t_in s') = v_pos v + zlen c + zlen q).
Proof.
  intros P par full lim p v q c found H1 H2 H3 H4 H5 H6 H7 H8 H9 H10.
  destruct (st_new_ok P par full lim p v q c found H1 H2 H3 H4 H5 H6 H7 H8 H9 H10) as (s & E & HM). exists s. split; [exact E|]. split.
  - intros l Hl. destruct (HM l Hl) as (s' & obs & E1 & A1 & _). eauto.
  - intros l Hl Hnr. destruct (HM l Hl) as (s' & obs & E1 & A1 & B & _). rewrite run_seg_no_reset in E1 by exact Hnr. rewrite accepts_seg_no_reset in A1 by exact Hnr.
    exists s', obs. split; [exact E1|]. split; [exact A1|]. intros Ef Es. exact (B Hnr Es Ef).
Qed.
(** and when there is a terminator, after every such history (also with resets into the current segment) the
    status is Eof exactly at the end of the content, and the size is known there (C56) *)
Theorem C12_end_known_partial : forall (P : Type) (par : ops P Z) full lim p v q c,
  Conforms par full False lim p v -> bytes full -> zlen full <= INT32_MAX ->
  q <> [] -> bytes q -> zlen q <= 2 ^ 29 - 258 -> short_or_unique_tail q -> 1 + zlen q <= lim ->
  before_first q (slice full (v_pos v) (zlen full - v_pos v)) c true -> c <> [] ->
  exists s, st_new par p q = Ret s /\
    forall l, Forall (seg_call lim (zlen q)) l ->
      exists s' obs, run_seg false (st_ops par) s view0 l = Ret (s', obs) /\
        (t_st s' = Eof <-> t_pos s' = zlen c) /\ (t_st s' = Eof -> t_size s' = zlen c) /\ t_st s' <> Error.
Proof.
  intros P par full lim p v q c H1 H2 H3 H4 H5 H6 H7 H8 H9 H10.
  destruct (st_new_ok P par full lim p v q c true H1 H2 H3 H4 H5 H6 H7 H8 H9 (fun _ => H10)) as (s & E & HM). exists s. split; [exact E|].
  intros l Hl. destruct (HM l Hl) as (s' & obs & E1 & _ & _ & K). exists s', obs. split; [exact E1|exact (K eq_refl)].
Qed.
(** terminator "$$" straddling reads; one '$' of the content before it *)
Example C12_case : before_first [36;36] [1;2;36;3;36;36;9;36;36] [1;2;36;3] true /\ short_or_unique_tail [36;36] /\
  exists s s', st_new ss_ops (mkSS [0;1;2;36;3;36;36;9;36;36] 10 1 Ok) [36;36] = Ret s /\
    run (st_ops ss_ops) s [Read 1 1; Read 2 2; Skip 1; Read 1 1] = Ret (s', [mkObs 1 [1] 1 (-1) Ok; mkObs 2 [2;36] 3 (-1) Ok; mkObs 1 [] 4 4 Eof; mkObs (-1) [] 4 4 Eof]) /\
    o_pos ss_ops (t_in s') = 7.
Proof.
  split; [|split].
  - split; [exists [9;36;36]; reflexivity|]. intros d Hd (H1 & H2 & H3). change (zlen [1;2;36;3]) with 4 in Hd.
    assert (d = 0 \/ d = 1 \/ d = 2 \/ d = 3) as [E|[E|[E|E]]] by lia; subst d; vm_compute in H3; inversion H3.
  - left. change (zlen [36;36]) with 2. lia.
  - do 2 eexists. split; [vm_compute; reflexivity|]. split; [vm_compute; reflexivity|]. vm_compute. reflexivity.
Qed.
(** terminator at the very start: the first read returns 0 items instead of -1 *)
Theorem C12_empty_content_refuted : exists s s', st_new ss_ops (mkSS [36;36;7] 3 0 Ok) [36;36] = Ret s /\
  run (st_ops ss_ops) s [Read 1 0] = Ret (s', [mkObs 0 [] 0 0 Eof]).
Proof. do 2 eexists. split; [vm_compute; reflexivity|]. vm_compute; reflexivity. Qed.
(** a rewind from the end followed by a reset back to the end: status() is Ok there, and the next read returns 0 *)
Theorem C12_reset_to_end_refuted : exists s s', st_new ss_ops (mkSS [1;2;36;36;7] 5 0 Ok) [36;36] = Ret s /\
  run (st_ops ss_ops) s [Read 1 0; Reset 1; Reset 2; Read 1 0] =
    Ret (s', [mkObs 2 [1;2] 2 2 Eof; mkObs 1 [] 1 2 Ok; mkObs 2 [] 2 2 Ok; mkObs 0 [] 2 2 Eof]).
Proof. do 2 eexists. split; [vm_compute; reflexivity|]. vm_compute; reflexivity. Qed.
(** a negative max (documented as "no limit") near the end of the parent: a negative count other than -1 and -2 is returned *)
Theorem C12_negative_max_refuted : exists s s', st_new ss_ops (mkSS [1;2] 2 0 Ok) [36;36] = Ret s /\
  run (st_ops ss_ops) s [Read 1 (-5)] = Ret (s', [mkObs (-5) [] 0 (-1) Ok]).
Proof. do 2 eexists. split; [vm_compute; reflexivity|]. vm_compute; reflexivity. Qed.
(** no terminator: at Eof size() can still be unknown *)
Theorem C12_size_at_eof_refuted : exists s s', st_new ss_ops (mkSS [1;2;3] 3 0 Ok) [36;36] = Ret s /\
  run (st_ops ss_ops) s [Read 1 1; Read 1 1; Read 1 1; Read 1 1] =
    Ret (s', [mkObs 1 [1] 1 (-1) Ok; mkObs 1 [2] 2 (-1) Ok; mkObs 1 [3] 3 (-1) Ok; mkObs (-1) [] 3 (-1) Eof]).
Proof. do 2 eexists. split; [vm_compute; reflexivity|]. vm_compute; reflexivity. Qed.
(** beyond 2 GiB the distance to the parent's position does not fit an int32: the terminator right there is not looked
    for but handed out as content ... *)
Theorem C12_far_refuted : forall front q rest, bytes q -> 1 <= zlen q <= 1000 -> 2147483648 < zlen front <= 4294966000 ->
  let full := front ++ q ++ rest in
  exists s s', st_new ss_ops (mkSS full (zlen full) (zlen front) Ok) q = Ret s /\
    run (st_ops ss_ops) s [Read 1 (zlen q)] = Ret (s', [mkObs (zlen q) q (zlen q) (-1) Ok]).
Proof.
  intros front q rest Hb Hq Hf full. destruct (setQuery_ok kmp_null q) as (k & E & Hk & _); [auto|intros ->; change (zlen (@nil Z)) with 0 in Hq; lia|exact Hb|lia|].
  assert (exists p, ss_read (mkSS full (zlen full) (zlen front) Ok) 1 (zlen q) = Ret (p, zlen q, q)) as (p & Er).
  { unfold ss_read. cbn [ss_data ss_size ss_pos]. assert (zlen full = zlen front + (zlen q + zlen rest)) as Zf by (unfold full; rewrite !zlen_app; reflexivity). pose proof (zlen_nonneg rest).
    destruct (Z.eqb_spec (zlen full - zlen front) 0); [lia|]. cbv zeta.
    replace ((zlen full - zlen front <? zlen q) || (zlen q <? 1)) with false by (symmetry; rewrite orb_false_iff; split; apply Z.ltb_ge; lia).
    replace ((0 <=? zlen front) && (0 <=? zlen q) && (zlen front + zlen q <=? zlen full)) with true by (symmetry; rewrite !andb_true_iff, !Z.leb_le; lia).
    eexists. f_equal. f_equal. unfold full. rewrite slice_app_r by lia. rewrite Z.sub_diag. rewrite slice_app_l by lia. apply slice_all. }
  assert (wrap32 (0 - zlen front) = 4294967296 - zlen front) as Ew.
  { unfold wrap32. replace (0 - zlen front) with ((4294967296 - zlen front) + (-1) * 4294967296) by lia. rewrite Z_mod_plus_full, Z.mod_small by lia. destruct (Z.ltb_spec (4294967296 - zlen front) 2147483648); lia. }
  unfold st_new. rewrite E. cbn [bind]. clearbody full. do 2 eexists. split; [reflexivity|]. cbn [run exec st_ops o_read]. unfold st_read. cbn [t_st t_in ss_ops o_pos ss_pos t_far o_read t_pos t_size t_key t_off]. rewrite Ew.
  replace (1 <=? 4294967296 - zlen front) with true by (symmetry; apply Z.leb_le; lia).
  replace ((zlen q <=? 0) || (4294967296 - zlen front <? zlen q)) with false by (symmetry; rewrite orb_false_iff; split; [apply Z.leb_gt|apply Z.ltb_ge]; lia).
  rewrite Er. cbn [bind]. destruct (Z.ltb_spec (zlen q) (-1)); [lia|]. destruct (Z.ltb_spec 0 (zlen q)); [|lia]. cbn [bind].
  destruct (Z.eqb_spec (0 + zlen q) (-1)); [lia|]. cbn [bind observe is_error o_status o_pos o_size t_st t_pos t_size st_ops ob_st]. reflexivity.
Qed.
(** ... and at the end of the parent read() returns -1 while status() stays Ok, so that a loop
    "while (status() == Ok) read(...)" (mailinputstream.cpp:655-657) never ends *)
Theorem C12_far_end_refuted : forall full q, bytes q -> 1 <= zlen q <= 1000 -> 2147483648 < zlen full <= 4294966000 ->
  exists s, st_new ss_ops (mkSS full (zlen full) (zlen full) Eof) q = Ret s /\
    forall n, exists obs, run (st_ops ss_ops) s (repeat (Read 1 0) n) = Ret (s, obs) /\ obs = repeat (mkObs (-1) [] 0 (-1) Ok) n.
Proof.
  intros full q Hb Hq Hf. destruct (setQuery_ok kmp_null q) as (k & E & Hk & _); [auto|intros ->; change (zlen (@nil Z)) with 0 in Hq; lia|exact Hb|lia|].
  assert (wrap32 (0 - zlen full) = 4294967296 - zlen full) as Ew.
  { unfold wrap32. replace (0 - zlen full) with ((4294967296 - zlen full) + (-1) * 4294967296) by lia. rewrite Z_mod_plus_full, Z.mod_small by lia. destruct (Z.ltb_spec (4294967296 - zlen full) 2147483648); lia. }
  unfold st_new. rewrite E. cbn [bind]. eexists. split; [reflexivity|]. cbn [ss_ops o_pos ss_pos].
  set (s := mkSts _ _ _ _ _ _ _). assert (st_read ss_ops s 1 0 = Ret (s, -1, [])) as Er.
  { unfold st_read, s. cbn [t_st t_in ss_ops o_pos ss_pos t_far o_read t_pos t_size t_key t_off]. rewrite Ew.
    replace (1 <=? 4294967296 - zlen full) with true by (symmetry; apply Z.leb_le; lia). cbn [Z.leb Z.compare orb].
    unfold ss_read. cbn [ss_data ss_size ss_pos]. rewrite Z.sub_diag. cbn [Z.eqb bind]. change (-1 <? -1) with false. change (0 <? -1) with false. reflexivity. }
  induction n as [|n IH]; [eexists; split; reflexivity|].
  destruct IH as (obs & IH & ->). eexists. split; [|reflexivity]. cbn [repeat run exec]. change (o_read (st_ops ss_ops) s 1 0) with (st_read ss_ops s 1 0). rewrite Er. cbn [bind].
  change (observe (st_ops ss_ops) s (-1) []) with (mkObs (-1) (@nil Z) 0 (-1) Ok). cbn [ob_st is_error]. rewrite IH. reflexivity.
Qed.
