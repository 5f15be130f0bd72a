(** Proofs for C53: entries of the archive formats; parts of mails that are not encoded; what is no archive. *)
From Coq Require Import Bool Permutation.
From Verif Require Import Base StreamSpec P_Stream SegSpec ArchiveSpec KmpSpec M_Sub M_Buffered BufferedSpec P_BufInv M_Text TextSpec M_Inflate InflateSpec M_Lzma LzmaSpec M_Detect DetectSpec P_Detect
  M_Ar M_Cpio M_Tar M_Zip M_Sdf M_Rpm M_StringTerm M_Base64 M_MailList MailPartsSpec T_MailList M_Listing M_Open OpenSpec P_Open T_Open M_ListReal P_ListReal1.

Ltac runs_tac := match goal with
  | H : bind (run ?o ?s (?h ++ [?c])) _ = Ret _ |- _ => apply bind_ret in H as ((s1 & o1) & E1 & H); destruct (run_snoc _ _ _ _ _ _ E1) as (s2 & obs2 & t & -> & ->); injection H as <- <-; cbn [bind]; do 3 eexists; split; reflexivity
  | H : bind (run_seg ?g ?o ?s ?v (?h ++ [?c])) _ = Ret _ |- _ => apply bind_ret in H as ((s1 & o1) & E1 & H); destruct (run_seg_snoc _ _ _ _ _ _ _ _ E1) as (s2 & obs2 & t & -> & ->); injection H as <- <-; cbn [bind]; do 3 eexists; split; reflexivity
  | H : Ret _ = Ret _ |- _ => injection H as <- <-; eexists _, [], []; split; reflexivity
  end.
Lemma cpio_runs {P} (par : ops P Z) fuel : runs (cpio_provider par fuel).
Proof. intros a h c st3 obs3 E. cbn [cpio_provider pv_entry] in *. unfold cpio_entry in *. destruct (c_cur a); runs_tac. Qed.
Lemma sub_runs {Dz Dg Db Dl P} (cz : codec Dz) (cg : codec Dg) (cb : codec Db) (cl : lzcodec Dl) bufsize gas fuel big mktime k (par : ops P Z) :
  runs (su_pv (sub_of cz cg cb cl bufsize gas fuel big mktime k) P par).
Proof.
  destruct k; cbn [sub_of sub_mail sub_rpm sub_ar sub_zip sub_tar sub_sdf su_pv]; intros a h c st3 obs3 E;
    cbn [mail_provider rpm_provider ar_provider zip_provider tar_provider sdf_provider pv_entry] in *.
  - unfold mail_entry in *. destruct (M_MailList.a_cur a) as [[s|s|x]|]; runs_tac.
  - unfold rpm_entry in *. destruct (rp_pay a) as [p|x|x|x]; [runs_tac|..];
      apply bind_ret in E as ((c1 & o1) & E1 & E); injection E as <- <-;
      [destruct (cpio_runs (gz_ops par cg) fuel x h c c1 o1 E1) as (s2 & obs2 & t & E2 & ->)|destruct (cpio_runs (bz_ops par cb) fuel x h c c1 o1 E1) as (s2 & obs2 & t & E2 & ->)|destruct (cpio_runs (lz_ops par cl) fuel x h c c1 o1 E1) as (s2 & obs2 & t & E2 & ->)];
      cbn [cpio_provider pv_entry] in E2; rewrite E2; cbn [bind]; do 3 eexists; split; reflexivity.
  - unfold ar_entry in *. destruct (M_Ar.a_cur a); runs_tac.
  - unfold zip_entry in *. destruct (zi_cur a); runs_tac.
  - unfold tar_entry in *. destruct (t_cur a); runs_tac.
  - unfold sdf_entry in *. destruct (sd_cur a); runs_tac.
Qed.

(** ** What is neither compressed nor an archive: only the beginning is looked at, four times *)
Definition peeked (content : list Z) (m n : Z) (c : list Z) : Prop := 0 < n <= zlen content /\ c = slice content 0 n /\ (m <= n \/ n = zlen content).
Section Plain.
Context {R P Dz Dg Db Dl : Type}.
Variables (cz : codec Dz) (cg : codec Dg) (cb : codec Db) (cl : lzcodec Dl) (bufsize : Z) (gas fuel : nat) (big : bool) (mktime : tm -> Z).
Variables (par : ops P Z) (inp : P -> R) (content : list Z) (G : P -> Prop).
Hypothesis (HG : forall p m, G p -> 1 <= m <= 1024 -> exists p' n c, peek par p m = Ret (p', n, c) /\ G p' /\ peeked content m n c).
Hypotheses (Hpl : plain content) (HB : bytes content) (Hno : no_archive content).
Lemma plain_bz2 p : G p -> exists p', try_bz2 cb bufsize gas (Any par p inp) = Ret (Any par p' inp, false) /\ G p'.
Proof.
  intros Hp. destruct (HG p 16 Hp ltac:(lia)) as (p' & n & c & E & Hp' & _ & -> & _). unfold try_bz2. rewrite E; cbn [bind].
  destruct (bz2_check_ok (slice content 0 n)) as (b & Eb & Hb). rewrite Eb; cbn [bind]. destruct b; [|eauto].
  exfalso. apply (proj1 Hpl). eapply prefix_bz2. apply Hb. reflexivity.
Qed.
Lemma plain_gzip p : G p -> exists p', try_gzip cg bufsize gas (Any par p inp) = Ret (Any par p' inp, false) /\ G p'.
Proof.
  intros Hp. destruct (HG p 2 Hp ltac:(lia)) as (p' & n & c & E & Hp' & Hn & -> & _). unfold try_gzip. rewrite E; cbn [bind].
  destruct (Z.leb_spec 2 n); cbn [bind]; [|eauto].
  assert (exists c0 c1 t, content = c0 :: c1 :: t) as (c0 & c1 & t & Ec). { destruct content as [|c0 [|c1 t]]; [change (zlen (@nil Z)) with 0 in Hn; lia|change (zlen [c0]) with 1 in Hn; lia|eauto]. }
  assert (exists t', slice content 0 n = c0 :: c1 :: t') as (t' & ->). { apply (slice_front gas content [c0; c1] t n); [exact Ec|change (zlen [c0; c1]) with 2; lia]. }
  cbn [bind]. destruct (Z.eqb_spec c0 31), (Z.eqb_spec c1 139); cbn [andb]; [|eauto..]. subst c0 c1. exfalso. apply (proj1 (proj2 Hpl)). exists t. exact Ec.
Qed.
Lemma plain_lzma p : G p -> exists p', try_lzma cl bufsize gas true (Any par p inp) = Ret (Any par p' inp, false) /\ G p'.
Proof.
  intros Hp. destruct (HG p 2 Hp ltac:(lia)) as (p' & n & c & E & Hp' & _ & -> & _). unfold try_lzma. rewrite E; cbn [bind].
  destruct (lzma_check_ok (slice content 0 n) (bytes_slice _ _ _ HB)) as (b & Eb & Hb). rewrite Eb; cbn [bind]. destruct b; [|eauto].
  exfalso. apply (proj2 (proj2 Hpl)). eapply prefix_lzma. apply Hb. reflexivity.
Qed.
Lemma open_plain subs p : Permutation subs (reader_subs cg cb cl bufsize gas true cz big mktime maxline fuel) -> G p ->
  exists p', open_archive cg cb cl bufsize gas true subs (Any par p inp) = Ret (NoArchive (inp p')) /\ G p'.
Proof.
  intros Hperm Hp. unfold open_archive, unwrap.
  destruct (plain_bz2 p Hp) as (p1 & -> & H1). cbn [bind]. destruct (plain_gzip p1 H1) as (p2 & -> & H2). cbn [bind]. destruct (plain_lzma p2 H2) as (p3 & -> & H3). cbn [bind orb].
  destruct (HG p3 1024 H3 ltac:(lia)) as (p4 & n & c & E & H4 & Hn & -> & Hn2). rewrite E; cbn [bind]. exists p4. split; [|exact H4].
  apply try_subs_none. apply Forall_forall. intros sb Hin. apply (Permutation_in _ Hperm) in Hin. apply in_sub in Hin. destruct Hin as (k & ->).
  assert (header content (slice content 0 n)) as Hh by (exists n; auto).
  destruct (sub_check cz cg cb cl bufsize gas fuel big mktime k _ (header_bytes _ _ HB Hh)) as (b & -> & Hbb). f_equal. destruct b; [exfalso; eapply Hno; [exact Hh|apply Hbb; reflexivity]|reflexivity].
Qed.
End Plain.

(** ** The stream of an entry at its beginning *)
Section FullPeek.
Context {St : Type}.
Variables (pv : provider St) (st0 : St) (i : info) (data : list Z) (lim : Z).
Hypothesis (Hruns : runs pv).
Hypothesis (Hacc : forall h, Forall (call_ok data lim) h -> exists st2 obs, pv_entry pv st0 h = Ret (st2, obs) /\ accepts data False view0 h obs).
Definition at_start (h : hist (zlen data) lim) : Prop := exists v, alive pv st0 i data (proj1_sig h) v /\ v_pos v = 0.
Lemma peek_full (h : hist (zlen data) lim) m : data <> [] -> 1024 <= lim -> at_start h -> 1 <= m <= 1024 ->
  exists h' n c, peek (entry_ops pv st0 i (zlen data) lim) h m = Ret (h', n, c) /\ at_start h' /\ peeked data m n c.
Proof.
  intros Hne HL (v & HA & Hv) Hm. unfold peek.
  destruct (alive_step pv st0 i data lim Hruns Hacc _ (Read m 0) v (hist_ok _ _ h) HA) as (st3 & obs & ob & E & Hl & [(Gd & HA1)|(_ & [] & _)]); [cbn; unfold INT32_MAX, INT32_MIN; lia|].
  destruct (hist_add_some lim _ h (Read m 0)) as (h1 & Eh & Ph); [apply call_okb_ok; cbn; unfold INT32_MAX, INT32_MIN; lia|].
  assert (entry_call pv st0 h (Read m 0) = Ret (h1, ob_ret ob, ob_data ob)) as Ec. { unfold entry_call. rewrite Eh, Ph, E. cbn [bind]. rewrite (nth_snoc _ _ _ Hl). reflexivity. }
  cbn [entry_ops o_read o_reset]. rewrite Ec; cbn [bind]. rewrite <- Ph in HA1.
  assert (0 < zlen data) as Hd by (destruct data; [congruence|rewrite zlen_cons; pose proof (zlen_nonneg l); lia]).
  assert (peeked data m (ob_ret ob) (ob_data ob)) as Hpk.
  { destruct Gd as (_ & _ & _ & _ & [(G1 & G2 & G3 & _ & G4)|(_ & _ & G2 & _)]); rewrite Hv in *; [|lia]. split; [lia|]. split; [exact G2|]. lia. }
  set (v1 := next_view v (Read m 0) ob) in *.
  assert (v1 = mkView (ob_ret ob) 0 (ob_ret ob)) as Hv1. { unfold v1. cbn [next_view]. destruct Hpk as (Hpk & _). destruct (Z.ltb_spec 0 (ob_ret ob)); [|lia]. rewrite Hv. reflexivity. }
  destruct (alive_step pv st0 i data lim Hruns Hacc _ (Reset 0) v1 (hist_ok _ _ h1) HA1) as (st4 & obs4 & ob4 & E4 & Hl4 & [(Gd4 & HA4)|(_ & [])]); [cbn; lia|].
  destruct (hist_add_some lim _ h1 (Reset 0)) as (h2 & Eh2 & Ph2); [apply call_okb_ok; cbn; lia|].
  assert (entry_call pv st0 h1 (Reset 0) = Ret (h2, ob_ret ob4, ob_data ob4)) as Ec4. { unfold entry_call. rewrite Eh2, Ph2, E4. cbn [bind]. rewrite (nth_snoc _ _ _ Hl4). reflexivity. }
  rewrite Ec4; cbn [bind]. eexists _, _, _. split; [reflexivity|]. split; [|exact Hpk]. exists (next_view v1 (Reset 0) ob4). split; [rewrite Ph2; exact HA4|].
  rewrite Hv1. cbn [next_view v_lo v_hi]. destruct Hpk as (Hpk & _). destruct (Z.leb_spec 0 0), (Z.leb_spec 0 (ob_ret ob)); try lia. reflexivity.
Qed.
End FullPeek.

(** ** Parts of mails that are not encoded *)
Fixpoint views_seg (v : view) (l : list call) (obs : list (obs Z)) : view :=
  match l, obs with c :: l, ob :: obs => views_seg (next_view v (into_segment false v c) ob) l obs | _, _ => v end.
Lemma accepts_seg_snoc data h c : forall v obs2 t, accepts_seg false data False v (h ++ [c]) (obs2 ++ t) -> accepts_seg false data False v h obs2 -> no_err obs2 ->
  exists ob, t = [ob] /\ length obs2 = length h /\ let v2 := views_seg v h obs2 in (good_obs data False v2 (into_segment false v2 c) ob \/ bad_obs data False v2 (into_segment false v2 c) ob).
Proof.
  induction h as [|c0 h IH]; intros v obs2 t H1 H2 HE; destruct obs2 as [|o obs2]; cbn [app accepts_seg] in *; cbv zeta in *; try tauto.
  - destruct t as [|ob t]; [tauto|]. destruct (is_error (ob_st ob)) eqn:Er.
    + destruct H1 as (H1 & ->). exists ob. split; [reflexivity|]. split; [reflexivity|]. right. exact H1.
    + destruct H1 as (H1 & H3). destruct t; [|tauto]. exists ob. split; [reflexivity|]. split; [reflexivity|]. left. exact H1.
  - inversion HE as [|? ? HE1 HE2]; subst. rewrite (is_error_false _ HE1) in *. destruct H1 as (_ & H1). destruct H2 as (_ & H2).
    destruct (IH _ obs2 t H1 H2 HE2) as (ob & -> & Hl & H). exists ob. split; [reflexivity|]. cbn [length views_seg]. split; [lia|exact H].
Qed.
Lemma views_seg_snoc h c ob : forall v obs, length obs = length h -> views_seg v (h ++ [c]) (obs ++ [ob]) = next_view (views_seg v h obs) (into_segment false (views_seg v h obs) c) ob.
Proof. induction h as [|c0 h IH]; intros v [|o obs] Hl; try discriminate Hl; cbn [app views_seg]; [reflexivity|]. apply IH. cbn [length] in Hl. lia. Qed.
Section SegPeek.
Context {St : Type}.
Variables (pv : provider St) (st0 : St) (i : info) (data : list Z) (lim tl : Z).
Hypothesis (Hruns : runs pv).
Hypothesis (Hacc : forall h, Forall (seg_call lim tl) h -> exists st2 obs, pv_entry pv st0 h = Ret (st2, obs) /\ accepts_seg false data False view0 h obs).
Hypotheses (Htl : 0 <= tl) (Hlim : 1024 + tl <= lim) (Hint : lim <= INT32_MAX).
Definition alive_seg (h : list call) (v : view) : Prop :=
  Forall (seg_call lim tl) h /\ exists st2 obs, pv_entry pv st0 h = Ret (st2, obs) /\ accepts_seg false data False view0 h obs /\ no_err obs /\ length obs = length h /\ v = views_seg view0 h obs.
Lemma alive_seg_step h c v : alive_seg h v -> seg_call lim tl c ->
  exists st3 obs ob, pv_entry pv st0 (h ++ [c]) = Ret (st3, obs ++ [ob]) /\ length obs = length h /\
    (good_obs data False v (into_segment false v c) ob /\ alive_seg (h ++ [c]) (next_view v (into_segment false v c) ob) \/ bad_obs data False v (into_segment false v c) ob).
Proof.
  intros (Hh & st2 & obs & E & HA & HE & HL & ->) Hc. assert (Forall (seg_call lim tl) (h ++ [c])) as Hh' by (apply Forall_app; split; [exact Hh|constructor; [exact Hc|constructor]]).
  destruct (Hacc (h ++ [c]) Hh') as (st3 & obs3 & E3 & HA3).
  destruct (Hruns _ _ _ _ _ E3) as (st2' & obs2 & t & E2 & ->). rewrite E in E2. injection E2 as <- <-.
  destruct (accepts_seg_snoc data h c view0 obs t HA3 HA HE) as (ob & -> & _ & H). cbv zeta in H. exists st3, obs, ob. split; [exact E3|]. split; [exact HL|].
  destruct H as [H|H]; [left|right; exact H]. split; [exact H|]. split; [exact Hh'|]. exists st3, (obs ++ [ob]). split; [exact E3|]. split; [exact HA3|]. split.
  - apply Forall_app. split; [exact HE|]. constructor; [|constructor]. apply H.
  - split; [rewrite !app_length; cbn [length]; lia|]. symmetry. apply views_seg_snoc. exact HL.
Qed.
Lemma alive_seg0 : alive_seg [] view0.
Proof.
  destruct (Hacc []) as (st2 & obs & E & HA); [constructor|]. destruct obs as [|ob obs]; [|destruct HA]. split; [constructor|]. exists st2, []. split; [exact E|]. split; [exact HA|]. split; [constructor|]. auto.
Qed.
Definition at_start_seg len (h : hist len lim) : Prop := exists v, alive_seg (proj1_sig h) v /\ v_pos v = 0 /\ v_lo v = 0 /\ 0 <= v_hi v.
Lemma peek_seg (h : hist (zlen data) lim) m : data <> [] -> at_start_seg _ h -> 1 <= m <= 1024 ->
  exists h' n c, peek (entry_ops pv st0 i (zlen data) lim) h m = Ret (h', n, c) /\ at_start_seg _ h' /\ peeked data m n c.
Proof.
  intros Hne (v & HA & Hv & _) Hm. unfold peek.
  destruct (alive_seg_step _ (Read m 0) v HA) as (st3 & obs & ob & E & Hl & [(Gd & HA1)|(_ & [] & _)]); [cbn [seg_call]; lia|].
  destruct (hist_add_some lim _ h (Read m 0)) as (h1 & Eh & Ph); [apply call_okb_ok; cbn; unfold INT32_MAX, INT32_MIN in *; lia|].
  assert (entry_call pv st0 h (Read m 0) = Ret (h1, ob_ret ob, ob_data ob)) as Ec. { unfold entry_call. rewrite Eh, Ph, E. cbn [bind]. rewrite (nth_snoc _ _ _ Hl). reflexivity. }
  cbn [entry_ops o_read o_reset]. rewrite Ec; cbn [bind]. rewrite <- Ph in HA1. cbn [into_segment] in *.
  assert (0 < zlen data) as Hd by (destruct data; [congruence|rewrite zlen_cons; pose proof (zlen_nonneg l); lia]).
  assert (peeked data m (ob_ret ob) (ob_data ob)) as Hpk.
  { destruct Gd as (_ & _ & _ & _ & [(G1 & G2 & G3 & _ & G4)|(_ & _ & G2 & _)]); rewrite Hv in *; [|lia]. split; [lia|]. split; [exact G2|]. lia. }
  set (v1 := next_view v (Read m 0) ob) in *.
  assert (v1 = mkView (ob_ret ob) 0 (ob_ret ob)) as Hv1. { unfold v1. cbn [next_view]. destruct Hpk as (Hpk & _). destruct (Z.ltb_spec 0 (ob_ret ob)); [|lia]. rewrite Hv. reflexivity. }
  destruct (alive_seg_step _ (Reset 0) v1 HA1) as (st4 & obs4 & ob4 & E4 & Hl4 & [(Gd4 & HA4)|(_ & [])]); [cbn; exact Logic.I|].
  destruct (hist_add_some lim _ h1 (Reset 0)) as (h2 & Eh2 & Ph2); [apply call_okb_ok; cbn; lia|].
  assert (entry_call pv st0 h1 (Reset 0) = Ret (h2, ob_ret ob4, ob_data ob4)) as Ec4. { unfold entry_call. rewrite Eh2, Ph2, E4. cbn [bind]. rewrite (nth_snoc _ _ _ Hl4). reflexivity. }
  rewrite Ec4; cbn [bind]. eexists _, _, _. split; [reflexivity|]. split; [|exact Hpk]. eexists. split; [rewrite Ph2; exact HA4|].
  destruct Hpk as (Hpk & _). rewrite Hv1. assert (into_segment false (mkView (ob_ret ob) 0 (ob_ret ob)) (Reset 0) = Reset 0) as ->.
  { cbn [into_segment v_lo]. f_equal. unfold last_target. cbn [v_pos v_hi]. rewrite Z.eqb_refl. cbn [orb]. lia. }
  cbn [next_view v_lo v_hi]. destruct (Z.leb_spec 0 0), (Z.leb_spec 0 (ob_ret ob)); try lia. cbn [andb v_pos v_lo v_hi]. lia.
Qed.
Lemma read_all_seg n : forall h v, alive_seg h v -> v_pos v <= zlen data ->
  exists v', alive_seg (h ++ repeat (Read 1 0) n) v' /\ v_pos v <= v_pos v' <= zlen data /\ (zlen data - v_pos v <= Z.of_nat n -> v_pos v' = zlen data) /\
    (n <> O -> exists st2 obs ob, pv_entry pv st0 (h ++ repeat (Read 1 0) n) = Ret (st2, obs ++ [ob]) /\ ob_st ob <> Error /\ ob_pos ob = v_pos v').
Proof.
  assert (seg_call lim tl (Read 1 0)) as Hc by (cbn [seg_call]; unfold INT32_MAX in *; lia).
  induction n as [|n IH]; intros h v HA HV.
  - exists v. cbn [repeat]. rewrite app_nil_r. split; [exact HA|]. split; [lia|]. split; [lia|congruence].
  - destruct (alive_seg_step h (Read 1 0) v HA Hc) as (st3 & obs & ob & E & Hl & [(G & HA')|(_ & [] & _)]). cbn [into_segment] in *.
    assert (v_pos v <= v_pos (next_view v (Read 1 0) ob) <= zlen data /\ (v_pos v < zlen data -> v_pos v < v_pos (next_view v (Read 1 0) ob))) as (Hn1 & Hn2).
    { destruct G as (_ & _ & _ & _ & [(G1 & _ & G2 & _)|(G1 & _ & G2 & _)]); cbn [next_view] in *; destruct (Z.ltb_spec 0 (ob_ret ob)); cbn [v_pos] in *; lia. }
    destruct (IH (h ++ [Read 1 0]) _ HA' (proj2 Hn1)) as (v' & HA2 & Hp & Hd & Ho).
    rewrite <- app_assoc in HA2. exists v'. split; [exact HA2|]. split; [lia|]. split; [intros; apply Hd; lia|]. intros _.
    destruct n as [|n]; [|rewrite <- app_assoc in Ho; apply Ho; discriminate].
    cbn [repeat app] in *. exists st3, obs, ob. split; [exact E|]. split; [apply G|]. assert (v' = next_view v (Read 1 0) ob) as ->; [|apply G].
    destruct HA2 as (_ & s2 & o2 & E2 & _ & _ & _ & ->). destruct HA' as (_ & s3 & o3 & E3 & _ & _ & _ & ->). cbn [app] in E2. congruence.
Qed.
Lemma entry_len_seg fuel : fuel <> O -> (length data <= fuel)%nat -> entry_len pv st0 i fuel = zlen data.
Proof.
  intros Hf0 Hf. pose proof (zlen_nonneg data). destruct (read_all_seg fuel [] view0 alive_seg0 ltac:(cbn; lia)) as (v' & HA & _ & Hd & Ho). cbn [app] in *. destruct (Ho Hf0) as (st2 & obs & ob & E & He & Hp).
  unfold entry_len, last_obs. rewrite E, last_snoc. cbn [fst]. rewrite not_error by exact He. rewrite Hp. apply Hd. cbn [v_pos view0]. unfold zlen. lia.
Qed.
Lemma drain_seg fuel : forall h v, alive_seg h v -> v_pos v <= zlen data -> zlen data - v_pos v < Z.of_nat fuel ->
  exists h' size, drain_entry pv st0 i fuel h = Ret (h', size) /\ Forall (seg_call lim tl) h' /\ (size = -1 \/ size = zlen data).
Proof.
  assert (seg_call lim tl (Read 1 0)) as Hc by (cbn [seg_call]; unfold INT32_MAX in *; lia).
  induction fuel as [|fuel IH]; intros h v HA HV Hf; [lia|].
  destruct (alive_seg_step h (Read 1 0) v HA Hc) as (st3 & obs & ob & E & Hl & [(G & HA')|(_ & [] & _)]).
  cbn [drain_entry]. rewrite E. cbn [bind into_segment] in *. rewrite (nth_snoc _ _ _ Hl). destruct (Z.ltb_spec 0 (ob_ret ob)) as [Hr|Hr].
  - destruct G as (_ & _ & _ & _ & [(G1 & _ & G2 & _)|(G1 & _ & G2 & _)]); [|lia]. cbn [next_view] in *. destruct (Z.ltb_spec 0 (ob_ret ob)); [|lia]. apply (IH _ _ HA'); cbn [v_pos]; lia.
  - eexists _, _. split; [reflexivity|]. split; [apply HA'|]. destruct G as (_ & _ & _ & [[]|G] & _). exact G.
Qed.
End SegPeek.
