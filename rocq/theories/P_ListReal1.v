(** Proofs for C53: the stream of an entry. *)
From Coq Require Import Bool.
From Verif Require Import Base StreamSpec P_Stream SegSpec ArchiveSpec M_Listing M_Open OpenSpec M_ListReal.

Lemma call_okb_ok (data : list Z) lim c : call_okb (zlen data) lim c = true <-> call_ok data lim c.
Proof.
  destruct c as [mn mx|n|p]; cbn [call_okb call_ok]; rewrite ?andb_true_iff, ?orb_true_iff, ?andb_true_iff, ?Z.leb_le; tauto.
Qed.
Lemma hist_ok (data : list Z) lim (h : hist (zlen data) lim) : Forall (call_ok data lim) (proj1_sig h).
Proof. destruct h as [h Hh]. cbn [proj1_sig]. rewrite forallb_forall in Hh. apply Forall_forall. intros c Hc. apply call_okb_ok. auto. Qed.

(** a history of calls on an entry is executed call by call *)
Definition runs {St} (pv : provider St) : Prop := forall st h c st3 obs3, pv_entry pv st (h ++ [c]) = Ret (st3, obs3) ->
  exists st2 obs2 t, pv_entry pv st h = Ret (st2, obs2) /\ obs3 = obs2 ++ t.

Lemma run_snoc {St} (o : ops St Z) h c : forall s s3 obs3, run o s (h ++ [c]) = Ret (s3, obs3) -> exists s2 obs2 t, run o s h = Ret (s2, obs2) /\ obs3 = obs2 ++ t.
Proof.
  induction h as [|c0 h IH]; intros s s3 obs3 E; [exists s, [], obs3; auto|]. cbn [app run] in *.
  destruct (exec o s c0) as [[s1 ob]| | |]; cbn [bind] in *; try discriminate. destruct (is_error (ob_st ob)); [injection E as <- <-; exists s1, [ob], []; auto|].
  destruct (run o s1 (h ++ [c])) as [[s4 obs4]| | |] eqn:E1; cbn [bind] in *; try discriminate. injection E as <- <-.
  destruct (IH s1 s4 obs4 E1) as (s2 & obs2 & t & -> & ->). cbn [bind]. exists s2, (ob :: obs2), t. auto.
Qed.
Lemma run_seg_snoc {St} edge (o : ops St Z) h c : forall s v s3 obs3, run_seg edge o s v (h ++ [c]) = Ret (s3, obs3) -> exists s2 obs2 t, run_seg edge o s v h = Ret (s2, obs2) /\ obs3 = obs2 ++ t.
Proof.
  induction h as [|c0 h IH]; intros s v s3 obs3 E; [exists s, [], obs3; auto|]. cbn [app run_seg] in *. cbv zeta in *.
  destruct (exec o s (into_segment edge v c0)) as [[s1 ob]| | |]; cbn [bind] in *; try discriminate. destruct (is_error (ob_st ob)); [injection E as <- <-; exists s1, [ob], []; auto|].
  destruct (run_seg edge o s1 _ (h ++ [c])) as [[s4 obs4]| | |] eqn:E1; cbn [bind] in *; try discriminate. injection E as <- <-.
  destruct (IH s1 _ s4 obs4 E1) as (s2 & obs2 & t & -> & ->). cbn [bind]. exists s2, (ob :: obs2), t. auto.
Qed.

(** ** accepted histories, call by call *)
Fixpoint views (v : view) (l : list call) (obs : list (obs Z)) : view :=
  match l, obs with c :: l, ob :: obs => views (next_view v c ob) l obs | _, _ => v end.
Definition no_err (obs : list (obs Z)) : Prop := Forall (fun ob => ob_st ob <> Error) obs.
Lemma accepts_snoc data h c : forall v obs2 t, accepts data False v (h ++ [c]) (obs2 ++ t) -> accepts data False v h obs2 -> no_err obs2 ->
  exists ob, t = [ob] /\ length obs2 = length h /\ (good_obs data False (views v h obs2) c ob \/ bad_obs data False (views v h obs2) c ob).
Proof.
  induction h as [|c0 h IH]; intros v obs2 t H1 H2 HE; destruct obs2 as [|o obs2]; cbn [app accepts] in *; try tauto.
  - destruct t as [|ob t]; [tauto|]. destruct (is_error (ob_st ob)) eqn:Er.
    + destruct H1 as (H1 & ->). exists ob. split; [reflexivity|]. split; [reflexivity|]. right. exact H1.
    + destruct H1 as (H1 & H3). destruct t; [|tauto]. exists ob. split; [reflexivity|]. split; [reflexivity|]. left. exact H1.
  - inversion HE as [|? ? HE1 HE2]; subst. rewrite (is_error_false _ HE1) in *. destruct H1 as (_ & H1). destruct H2 as (_ & H2).
    destruct (IH _ obs2 t H1 H2 HE2) as (ob & -> & Hl & H). exists ob. split; [reflexivity|]. cbn [length views]. split; [lia|exact H].
Qed.
Lemma accepts_length data h : forall v obs, accepts data False v h obs -> no_err obs -> length obs = length h.
Proof.
  induction h as [|c h IH]; intros v [|ob obs] H HE; cbn [accepts] in H; try reflexivity; try tauto. inversion HE as [|? ? HE1 HE2]; subst. rewrite (is_error_false _ HE1) in H.
  cbn [length]. f_equal. eapply IH; [apply H|exact HE2].
Qed.
Lemma views_snoc h c ob : forall v obs, length obs = length h -> views v (h ++ [c]) (obs ++ [ob]) = next_view (views v h obs) c ob.
Proof. induction h as [|c0 h IH]; intros v [|o obs] Hl; try discriminate Hl; cbn [app views]; [reflexivity|]. apply IH. cbn [length] in Hl. lia. Qed.
Lemma views_ok data lim h : forall v obs, view_ok data v -> Forall (call_ok data lim) h -> accepts data False v h obs -> no_err obs -> view_ok data (views v h obs).
Proof.
  induction h as [|c h IH]; intros v [|ob obs] Hv Hh H HE; cbn [accepts] in H; try exact Hv; try tauto. inversion HE as [|? ? HE1 HE2]; inversion Hh as [|? ? Hh1 Hh2]; subst. rewrite (is_error_false _ HE1) in H.
  cbn [views]. apply IH; [|exact Hh2|apply H|exact HE2]. eapply good_view_ok; [exact Hv|exact Hh1|apply H].
Qed.
Lemma last_snoc {A} (l : list A) x : rev (l ++ [x]) = x :: rev l.
Proof. rewrite rev_app_distr. reflexivity. Qed.
Lemma nth_snoc {A} (l : list A) x n : length l = n -> nth_error (l ++ [x]) n = Some x.
Proof. intros <-. rewrite nth_error_app2 by lia. rewrite Nat.sub_diag. reflexivity. Qed.

Lemma no_err_dec obs : no_err obs \/ ~ no_err obs.
Proof.
  induction obs as [|ob obs [IH|IH]]; [left; constructor| |right; intros H; apply IH; inversion H; assumption].
  destruct (is_error (ob_st ob)) eqn:E; [right; intros H; inversion H as [|? ? H1 _]; subst; apply H1, is_error_true; exact E|left; constructor; [intros X; rewrite X in E; discriminate|exact IH]].
Qed.
Lemma accepts_err data h c : forall v obs2 t, accepts data False v (h ++ [c]) (obs2 ++ t) -> accepts data False v h obs2 -> ~ no_err obs2 -> t = [] /\ (length obs2 <= length h)%nat.
Proof.
  induction h as [|c0 h IH]; intros v obs2 t H1 H2 HE; destruct obs2 as [|o obs2]; cbn [app accepts] in *; try tauto; [exfalso; apply HE; constructor|].
  destruct (is_error (ob_st o)) eqn:Er.
  - destruct H1 as (_ & H1). destruct H2 as (_ & ->). destruct t; [|discriminate H1]. cbn [length]. split; [reflexivity|lia].
  - destruct (IH _ obs2 t (proj2 H1) (proj2 H2)) as (-> & Hl).
    + intros H. apply HE. constructor; [intros X; rewrite X in Er; discriminate|exact H].
    + cbn [length]. split; [reflexivity|lia].
Qed.
Lemma not_error {A} (st : status) (x : list A) (f : A -> Z) z p : st <> Error -> match st, x with Error, o :: _ => f o | Error, [] => z | _, _ => p end = p.
Proof. destruct st; congruence. Qed.
(** the position after the last call *)
Lemma views_pos data h : forall v obs p0, accepts data False v h obs -> no_err obs -> v_pos v = p0 -> match rev obs with ob :: _ => ob_pos ob | [] => p0 end = v_pos (views v h obs).
Proof.
  induction h as [|c h IH]; intros v [|ob obs] p0 H HE Hp; cbn [accepts] in H; try tauto; [cbn; congruence|]. inversion HE as [|? ? HE1 HE2]; subst. rewrite (is_error_false _ HE1) in H.
  destruct H as (G & H). cbn [views]. assert (ob_pos ob = v_pos (next_view v c ob)) as Hob by apply G.
  specialize (IH (next_view v c ob) obs (ob_pos ob) H HE2 (eq_sym Hob)). cbn [rev]. destruct (rev obs) as [|o l] eqn:El; cbn [app]; exact IH.
Qed.
Section Full.
Context {St : Type}.
Variables (pv : provider St) (st0 : St) (i : info) (data : list Z) (lim : Z).
Hypothesis (Hruns : runs pv).
Hypothesis (Hacc : forall h, Forall (call_ok data lim) h -> exists st2 obs, pv_entry pv st0 h = Ret (st2, obs) /\ accepts data False view0 h obs).
(** the calls [h] ended without Error *)
Definition alive (h : list call) (v : view) : Prop :=
  exists st2 obs, pv_entry pv st0 h = Ret (st2, obs) /\ accepts data False view0 h obs /\ no_err obs /\ length obs = length h /\ v = views view0 h obs /\
    fst (fst (last_obs pv st0 i h)) = v_pos v.
Lemma alive_step h c v : Forall (call_ok data lim) h -> alive h v -> call_ok data lim c ->
  exists st3 obs ob, pv_entry pv st0 (h ++ [c]) = Ret (st3, obs ++ [ob]) /\ length obs = length h /\
    (good_obs data False v c ob /\ alive (h ++ [c]) (next_view v c ob) \/ bad_obs data False v c ob).
Proof.
  intros Hh (st2 & obs & E & HA & HE & HL & -> & _) Hc.
  destruct (Hacc (h ++ [c])) as (st3 & obs3 & E3 & HA3). { apply Forall_app. split; [exact Hh|constructor; [exact Hc|constructor]]. }
  destruct (Hruns _ _ _ _ _ E3) as (st2' & obs2 & t & E2 & ->). rewrite E in E2. injection E2 as <- <-.
  destruct (accepts_snoc data h c view0 obs t HA3 HA HE) as (ob & -> & _ & H). exists st3, obs, ob. split; [exact E3|]. split; [exact HL|].
  destruct H as [H|H]; [left|right; exact H]. split; [exact H|]. exists st3, (obs ++ [ob]). split; [exact E3|]. split; [exact HA3|]. split.
  - apply Forall_app. split; [exact HE|]. constructor; [|constructor]. apply H.
  - split; [rewrite !app_length; cbn [length]; lia|]. split; [symmetry; apply views_snoc; exact HL|].
    unfold last_obs. rewrite E3, last_snoc. cbn [fst]. rewrite not_error by apply H. apply H.
Qed.
Lemma alive0 : alive [] view0.
Proof.
  destruct (Hacc []) as (st2 & obs & E & HA); [constructor|]. destruct obs as [|ob obs]; [|destruct HA]. exists st2, []. split; [exact E|]. split; [exact HA|]. split; [constructor|].
  split; [reflexivity|]. split; [reflexivity|]. unfold last_obs. rewrite E. reflexivity.
Qed.
Lemma alive_view h v : Forall (call_ok data lim) h -> alive h v -> view_ok data v.
Proof.
  intros Hh (st2 & obs & E & HA & HE & HL & -> & _). eapply views_ok; [|exact Hh|exact HA|exact HE]. unfold view_ok, view0. cbn. pose proof (zlen_nonneg data). lia.
Qed.
Lemma hist_add_some len (h : hist len lim) c : call_okb len lim c = true -> exists h', hist_add h c = Some h' /\ proj1_sig h' = proj1_sig h ++ [c].
Proof. intros H. unfold hist_add. destruct (bool_dec (call_okb len lim c) true) as [e|n]; [|congruence]. eexists. split; reflexivity. Qed.
Lemma entry_conforms : Conforms (entry_ops pv st0 i (zlen data) lim) data False lim hist0 view0.
Proof.
  apply (sim_conforms _ _ _ _ (fun h v => alive (proj1_sig h) v)); [|exact alive0]. split.
  - intros h v H. eapply alive_view; [apply hist_ok|exact H].
  - intros h v (st2 & obs & E & HA & HE & HL & -> & HP). exact HP.
  - intros h v c HR Hc. destruct (alive_step (proj1_sig h) c v (hist_ok _ _ h) HR Hc) as (st3 & obs & ob & E & HL & H).
    destruct (hist_add_some _ h c) as (h' & Eh & Ph); [apply call_okb_ok; exact Hc|].
    assert (entry_call pv st0 h c = Ret (h', ob_ret ob, ob_data ob)) as Ec. { unfold entry_call. rewrite Eh, Ph, E. cbn [bind]. rewrite (nth_snoc _ _ _ HL). reflexivity. }
    set (pp := match ob_st ob, rev obs with Error, o :: _ => ob_pos o | Error, [] => 0 | _, _ => ob_pos ob end).
    assert (forall n d, observe (entry_ops pv st0 i (zlen data) lim) h' n d = mkObs n d pp (ob_size ob) (ob_st ob)) as Ho.
    { intros n d. unfold observe. cbn [entry_ops o_pos o_size o_status]. unfold last_obs. rewrite Ph, E, last_snoc. reflexivity. }
    assert (good_obs data False v c ob -> pp = ob_pos ob) as Hpp by (intros G; apply not_error; apply G).
    assert (forall d', good_obs data False v c ob -> (match c with Read _ _ => d' = ob_data ob | _ => True end) ->
      good_obs data False v c (mkObs (ob_ret ob) d' (ob_pos ob) (ob_size ob) (ob_st ob)) /\ next_view v c (mkObs (ob_ret ob) d' (ob_pos ob) (ob_size ob) (ob_st ob)) = next_view v c ob) as Hgo.
    { intros d' G Hd. destruct c; [subst d'|..]; (split; [exact G|reflexivity]). }
    exists h', (mkObs (ob_ret ob) (match c with Read _ _ => ob_data ob | _ => [] end) pp (ob_size ob) (ob_st ob)). split.
    + destruct c; cbn [exec entry_ops o_read o_skip o_reset]; rewrite Ec; cbn [bind]; rewrite Ho; reflexivity.
    + destruct H as [(G & HA)|G]; [left; rewrite (Hpp G)|right].
      * destruct (Hgo (match c with Read _ _ => ob_data ob | _ => [] end) G) as (G1 & G2); [destruct c; auto|]. split; [exact G1|]. rewrite G2, Ph. exact HA.
      * destruct c; exact G.
Qed.
(** reading everything tells the length *)
Lemma read_all n : forall h v, Forall (call_ok data lim) h -> alive h v -> 1 <= lim ->
  exists v', alive (h ++ repeat (Read 1 0) n) v' /\ Forall (call_ok data lim) (h ++ repeat (Read 1 0) n) /\ v_pos v <= v_pos v' /\ (zlen data - v_pos v <= Z.of_nat n -> v_pos v' = zlen data).
Proof.
  assert (call_ok data lim (Read 1 0) <-> 1 <= lim) as Hc by (cbn; unfold INT32_MAX, INT32_MIN; lia).
  induction n as [|n IH]; intros h v Hh HA HL.
  - exists v. cbn [repeat]. rewrite app_nil_r. split; [exact HA|]. split; [exact Hh|]. pose proof (alive_view _ _ Hh HA) as HV. unfold view_ok in HV. split; lia.
  - destruct (alive_step h (Read 1 0) v Hh HA) as (st3 & obs & ob & E & Hl & [(G & HA')|(_ & [] & _)]); [apply Hc; exact HL|].
    destruct (IH (h ++ [Read 1 0]) _ ltac:(apply Forall_app; split; [exact Hh|constructor; [apply Hc; exact HL|constructor]]) HA' HL) as (v' & HA2 & Hh2 & Hp & Hd).
    rewrite <- app_assoc in HA2, Hh2. exists v'. split; [exact HA2|]. split; [exact Hh2|].
    destruct G as (_ & _ & _ & _ & [(G1 & _ & G2 & _)|(G1 & _ & G2 & _)]); cbn [next_view] in *.
    + destruct (Z.ltb_spec 0 (ob_ret ob)); cbn [v_pos] in *; [|lia]. split; [lia|]. intros. apply Hd. lia.
    + rewrite G1 in *. cbn [v_pos Z.ltb Z.compare] in *. split; [lia|]. intros. apply Hd. lia.
Qed.
Lemma entry_len_ok fuel : 1 <= lim -> (length data <= fuel)%nat -> entry_len pv st0 i fuel = zlen data.
Proof.
  intros HL Hf. destruct (read_all fuel [] view0 ltac:(constructor) alive0 HL) as (v' & HA & Hh & _ & Hd). cbn [app] in HA.
  unfold entry_len. destruct HA as (st2 & obs & E & _ & _ & _ & _ & HP). rewrite HP. apply Hd. cbn [v_pos view0]. unfold zlen. lia.
Qed.
(** reading the rest *)
Lemma drain_ok fuel : forall h v, Forall (call_ok data lim) h -> alive h v -> 1 <= lim -> zlen data - v_pos v < Z.of_nat fuel ->
  exists h' size, drain_entry pv st0 i fuel h = Ret (h', size) /\ Forall (call_ok data lim) h' /\ (size = -1 \/ size = zlen data).
Proof.
  assert (call_ok data lim (Read 1 0) <-> 1 <= lim) as Hc by (cbn; unfold INT32_MAX, INT32_MIN; lia).
  induction fuel as [|fuel IH]; intros h v Hh HA HL Hf.
  { pose proof (alive_view _ _ Hh HA) as HV. unfold view_ok in HV. lia. }
  assert (Forall (call_ok data lim) (h ++ [Read 1 0])) as Hh' by (apply Forall_app; split; [exact Hh|constructor; [apply Hc; exact HL|constructor]]).
  destruct (alive_step h (Read 1 0) v Hh HA) as (st3 & obs & ob & E & Hl & [(G & HA')|(_ & [] & _)]); [apply Hc; exact HL|].
  cbn [drain_entry]. rewrite E. cbn [bind]. rewrite (nth_snoc _ _ _ Hl). destruct (Z.ltb_spec 0 (ob_ret ob)) as [Hr|Hr].
  - apply (IH _ _ Hh' HA' HL). destruct G as (_ & _ & _ & _ & [(G1 & _ & G2 & _)|(G1 & _ & G2 & _)]); [|lia]. cbn [next_view]. destruct (Z.ltb_spec 0 (ob_ret ob)); cbn [v_pos] in *; lia.
  - eexists _, _. split; [reflexivity|]. split; [exact Hh'|]. destruct G as (_ & _ & _ & [[]|G] & _). exact G.
Qed.
(** the same after any history *)
Lemma drain_any fuel h : Forall (call_ok data lim) h -> 1 <= lim -> zlen data < Z.of_nat fuel ->
  exists h' size, drain_entry pv st0 i fuel h = Ret (h', size) /\ Forall (call_ok data lim) h'.
Proof.
  intros Hh HL Hf. destruct (Hacc h Hh) as (st2 & obs & E & HA). destruct (no_err_dec obs) as [HE|HE].
  - assert (exists v, alive h v) as (v & Hv).
    { exists (views view0 h obs), st2, obs. split; [exact E|]. split; [exact HA|]. split; [exact HE|]. split; [eapply accepts_length; eassumption|]. split; [reflexivity|].
      unfold last_obs. rewrite E. rewrite <- (views_pos data h view0 obs 0 HA HE eq_refl). destruct (rev obs) as [|o l] eqn:Er; [reflexivity|]. cbn [fst]. apply not_error. unfold no_err in HE. rewrite Forall_forall in HE. apply HE, in_rev. rewrite Er. left; reflexivity. }
    destruct (drain_ok fuel h v Hh Hv HL) as (h' & size & H1 & H2 & _); [|eauto]. pose proof (alive_view _ _ Hh Hv) as HV. unfold view_ok in HV. lia.
  - destruct fuel as [|fuel]; [pose proof (zlen_nonneg data); lia|]. cbn [drain_entry].
    destruct (Hacc (h ++ [Read 1 0])) as (st3 & obs3 & E3 & HA3). { apply Forall_app. split; [exact Hh|]. constructor; [|constructor]. cbn; unfold INT32_MAX, INT32_MIN; lia. }
    destruct (Hruns _ _ _ _ _ E3) as (st2' & obs2 & t & E2 & ->). rewrite E in E2. injection E2 as <- <-.
    destruct (accepts_err data h _ _ _ _ HA3 HA HE) as (-> & Hl). rewrite E3. cbn [bind].
    rewrite (proj2 (nth_error_None _ _)) by (rewrite app_nil_r; exact Hl). eauto.
Qed.
End Full.
