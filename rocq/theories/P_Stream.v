(** Proof technique for the stream contract: simulation relations. *)
From Verif Require Import Base StreamSpec.

Section Sim.
Context {St A : Type}.
Variables (o : ops St A) (content : list A) (fails : Prop) (lim : Z).

(** one call from state [s] with view [v] behaves, and [R] holds afterwards *)
Definition step_sim (R : St -> view -> Prop) (s : St) (v : view) (c : call) : Prop :=
  exists s' ob, exec o s c = Ret (s', ob) /\
    ((good_obs content fails v c ob /\ R s' (next_view v c ob)) \/ bad_obs content fails v c ob).

Record sim (R : St -> view -> Prop) : Prop := {
  sim_view : forall s v, R s v -> view_ok content v;
  sim_pos : forall s v, R s v -> o_pos o s = v_pos v;
  sim_step : forall s v c, R s v -> call_ok content lim c -> step_sim R s v c }.

Lemma is_error_true st : is_error st = true -> st = Error.
Proof. destruct st; cbn; congruence. Qed.
Lemma is_error_false st : st <> Error -> is_error st = false.
Proof. destruct st; cbn; congruence. Qed.

Lemma sim_conforms R s v : sim R -> R s v -> Conforms o content fails lim s v.
Proof.
  intros HS HR. split; [eapply sim_view; eassumption|]. split; [eapply sim_pos; eassumption|].
  intros l; revert s v HR; induction l as [|c l IH]; intros s v HR Hl.
  - exists s, []; split; [reflexivity|exact I].
  - inversion Hl as [|? ? Hc Hl']; subst.
    destruct (sim_step R HS s v c HR Hc) as (s1 & ob & E & [[G HR1]|B]); cbn [run]; rewrite E; cbn [bind].
    + rewrite (is_error_false (ob_st ob)) by (destruct G as [G _]; exact G).
      destruct (IH s1 _ HR1 Hl') as (s2 & obs & E2 & Hacc).
      rewrite E2; cbn [bind]. exists s2, (ob :: obs). split; [reflexivity|].
      cbn [accepts]. rewrite (is_error_false (ob_st ob)) by (destruct G as [G _]; exact G).
      split; assumption.
    + destruct B as [B1 B2]. rewrite B1; cbn [is_error]. exists s1, [ob]; split; [reflexivity|].
      cbn [accepts]. rewrite B1; cbn [is_error]. split; [split; assumption|reflexivity].
Qed.

Lemma good_view_ok v c ob : view_ok content v -> call_ok content lim c ->
  good_obs content fails v c ob -> view_ok content (next_view v c ob).
Proof.
  unfold view_ok; intros Hv Hc (G1 & G2 & G3 & G4 & G5).
  destruct c as [mn mx|n|p]; cbn [next_view call_ok] in *.
  - destruct G5 as [(H1 & H2 & H3 & _)|(H1 & _)].
    + destruct (Z.ltb_spec 0 (ob_ret ob)); cbn; lia.
    + rewrite H1; cbn. lia.
  - destruct G5 as [(H1 & H2 & _)|(H1 & _)]; cbn; lia.
  - destruct G5 as (H1 & H2). destruct (Z.leb_spec (v_lo v) p), (Z.leb_spec p (v_hi v)); cbn in *; lia.
Qed.

(** conversely conformance itself is a simulation relation, so that "every
    stream that satisfies the contract" can be used through [sim] *)
Lemma conforms_sim : sim (Conforms o content fails lim).
Proof.
  split.
  - intros s v [H _]; exact H.
  - intros s v [_ [H _]]; exact H.
  - intros s v c (Hv & Hp & H) Hc.
    destruct (H [c] (Forall_cons _ Hc (Forall_nil _))) as (s1 & obs & E & Hacc).
    cbn [run] in E. destruct (exec o s c) as [[s' ob]| | |] eqn:Ex; cbn [bind] in E; try discriminate.
    exists s', ob. split; [exact Ex|].
    destruct (is_error (ob_st ob)) eqn:Er.
    + injection E as E1 E2; subst. cbn [accepts] in Hacc. rewrite Er in Hacc. right; tauto.
    + left. cbn [bind] in E. injection E as E1 E2; subst obs s1.
      cbn [accepts] in Hacc. rewrite Er in Hacc. destruct Hacc as [G _]. split; [exact G|].
      split; [eapply good_view_ok; eassumption|]. split.
      * destruct G as (_ & _ & G3 & _). rewrite <- G3.
        destruct c; cbn [exec] in Ex.
        -- destruct (o_read o s min max) as [[[? ?] ?]| | |]; cbn [bind] in Ex; try discriminate. injection Ex as <- <-. reflexivity.
        -- destruct (o_skip o s n) as [[? ?]| | |]; cbn [bind] in Ex; try discriminate. injection Ex as <- <-. reflexivity.
        -- destruct (o_reset o s p) as [[? ?]| | |]; cbn [bind] in Ex; try discriminate. injection Ex as <- <-. reflexivity.
      * intros l Hl. destruct (H (c :: l) (Forall_cons _ Hc Hl)) as (s2 & obs2 & E2 & Hacc2).
        cbn [run] in E2. rewrite Ex in E2; cbn [bind] in E2. rewrite Er in E2.
        destruct (run o s' l) as [[s3 obs3]| | |]; cbn [bind] in E2; try discriminate.
        injection E2 as <- <-. exists s3, obs3. split; [reflexivity|].
        cbn [accepts] in Hacc2. rewrite Er in Hacc2. tauto.
Qed.

Lemma conforms_step s v c : Conforms o content fails lim s v -> call_ok content lim c ->
  step_sim (Conforms o content fails lim) s v c.
Proof. intros H Hc. exact (sim_step _ conforms_sim s v c H Hc). Qed.

(** specialised step lemmas *)
Lemma sim_read R s v mn mx : sim R -> R s v -> call_ok content lim (Read mn mx) ->
  exists s' n d, o_read o s mn mx = Ret (s', n, d) /\
    ((good_obs content fails v (Read mn mx) (observe o s' n d) /\ R s' (next_view v (Read mn mx) (observe o s' n d)))
     \/ (o_status o s' = Error /\ fails /\ n = -2)).
Proof.
  intros HS HR Hc. destruct (sim_step R HS s v _ HR Hc) as (s' & ob & E & H). cbn [exec] in E.
  destruct (o_read o s mn mx) as [[[s1 n] d]| | |]; cbn [bind] in E; try discriminate.
  injection E as <- <-. exists s1, n, d; split; [reflexivity|].
  destruct H as [H|[H1 [H2 H3]]]; [left; exact H|right]. cbn in *. tauto.
Qed.
Lemma sim_skip R s v n : sim R -> R s v -> 0 <= n <= INT32_MAX ->
  exists s' k, o_skip o s n = Ret (s', k) /\
    ((good_obs content fails v (Skip n) (observe o s' k []) /\ R s' (next_view v (Skip n) (observe o s' k [])))
     \/ (o_status o s' = Error /\ (fails \/ (0 < n /\ v_pos v = zlen content)))).
Proof.
  intros HS HR Hc. destruct (sim_step R HS s v (Skip n) HR Hc) as (s' & ob & E & H). cbn [exec] in E.
  destruct (o_skip o s n) as [[s1 k]| | |]; cbn [bind] in E; try discriminate.
  injection E as <- <-. exists s1, k; split; [reflexivity|].
  destruct H as [H|[H1 H2]]; [left; exact H|right]. cbn in *. tauto.
Qed.
Lemma sim_reset R s v p : sim R -> R s v -> 0 <= p <= zlen content ->
  exists s' r, o_reset o s p = Ret (s', r) /\
    ((good_obs content fails v (Reset p) (observe o s' r []) /\ R s' (next_view v (Reset p) (observe o s' r [])))
     \/ (o_status o s' = Error /\ fails)).
Proof.
  intros HS HR Hc. destruct (sim_step R HS s v (Reset p) HR Hc) as (s' & ob & E & H). cbn [exec] in E.
  destruct (o_reset o s p) as [[s1 k]| | |]; cbn [bind] in E; try discriminate.
  injection E as <- <-. exists s1, k; split; [reflexivity|].
  destruct H as [H|[H1 H2]]; [left; exact H|right]. cbn in *. tauto.
Qed.

Lemma exec_status s c s' ob : exec o s c = Ret (s', ob) -> ob_st ob = o_status o s' /\ ob_pos ob = o_pos o s' /\ ob_size ob = o_size o s'.
Proof.
  destruct c as [mn mx|k|p]; cbn [exec].
  - destruct (o_read o s mn mx) as [[[? ?] ?]| | |]; cbn [bind]; try discriminate. intros E; injection E as <- <-. repeat split.
  - destruct (o_skip o s k) as [[? ?]| | |]; cbn [bind]; try discriminate. intros E; injection E as <- <-. repeat split.
  - destruct (o_reset o s p) as [[? ?]| | |]; cbn [bind]; try discriminate. intros E; injection E as <- <-. repeat split.
Qed.
(** whatever state a history of documented calls leads to without error is again related *)
Lemma sim_run R s v l s' obs : sim R -> R s v -> Forall (call_ok content lim) l ->
  run o s l = Ret (s', obs) -> o_status o s' <> Error -> exists v', R s' v'.
Proof.
  intros HS HR Hl. revert s v obs HR; induction Hl as [|c l Hc Hl IH]; intros s v obs HR E Hst.
  - cbn in E. injection E as <- <-. exists v; exact HR.
  - cbn [run] in E. destruct (sim_step R HS s v c HR Hc) as (s1 & ob & Ex & Hres). rewrite Ex in E; cbn [bind] in E.
    destruct (exec_status _ _ _ _ Ex) as (Es & _).
    destruct Hres as [[G HR1]|[B _]].
    + destruct G as (G1 & _). rewrite (is_error_false _ G1) in E.
      destruct (run o s1 l) as [[s2 obs2]| | |] eqn:E2; cbn [bind] in E; try discriminate.
      injection E as <- <-. eapply IH; eassumption.
    + rewrite B in E; cbn [is_error] in E. injection E as <- <-. congruence.
Qed.

(** a view with a smaller valid segment promises less *)
Definition shr (R : St -> view -> Prop) (s : St) (v : view) : Prop :=
  view_ok content v /\ exists v0, R s v0 /\ v_pos v0 = v_pos v /\ v_lo v0 <= v_lo v /\ v_hi v <= v_hi v0.
Lemma shr_intro R s v : sim R -> R s v -> shr R s v.
Proof. intros HS H. split; [eapply sim_view; eassumption|]. exists v; repeat split; try assumption; lia. Qed.
Lemma shr_point R s v : shr R s v -> shr R s (mkView (v_pos v) (v_pos v) (v_pos v)).
Proof. intros (Hv & v0 & H & H1 & H2 & H3). unfold view_ok in Hv. split; [unfold view_ok; cbn; lia|].
  exists v0; cbn; repeat split; try assumption; lia. Qed.
Lemma sim_shr R : sim R -> sim (shr R).
Proof.
  intros HS. split.
  - intros s v H; apply H.
  - intros s v (_ & v0 & H & <- & _). eapply sim_pos; eassumption.
  - intros s v c (Hv & v0 & H & E & L1 & L2) Hc.
    assert (Hv0 := sim_view R HS _ _ H).
    destruct (sim_step R HS s v0 c H Hc) as (s' & ob & Ex & [[G HR]|B]); exists s', ob; (split; [exact Ex|]).
    + left. unfold good_obs in *. unfold view_ok in *. destruct c as [mn mx|n|p]; cbn [next_view] in *; rewrite E in *.
      * split; [exact G|]. apply shr_intro; assumption.
      * split; [exact G|]. apply shr_intro; assumption.
      * destruct G as (G1 & G2 & G3 & G4 & G5 & G6). cbn [call_ok] in Hc. unfold shr, view_ok.
        destruct (Z.leb_spec (v_lo v0) p), (Z.leb_spec p (v_hi v0)), (Z.leb_spec (v_lo v) p), (Z.leb_spec p (v_hi v));
          cbn [andb v_pos v_lo v_hi] in *; try lia;
          (split; [repeat split; try assumption; try lia; intros HH; specialize (G2 HH); lia|split; [lia|]]);
          eexists; (split; [exact HR|]); cbn [v_pos v_lo v_hi]; lia.
    + right. unfold bad_obs in *. rewrite E in *. exact B.
Qed.

(** ** Draining: C10 *)
Definition is_read (c : call) : Prop := match c with Read _ _ => True | _ => False end.
Definition datas (l : list (obs A)) : list A := concat (map ob_data l).

Lemma accepts_reads_prefix l obs v : view_ok content v -> ~ fails ->
  Forall (call_ok content lim) l -> Forall is_read l ->
  accepts content fails v l obs ->
  exists n, 0 <= n /\ v_pos v + n <= zlen content /\
    datas obs = slice content (v_pos v) n /\
    (n >= Z.of_nat (length l) \/ v_pos v + n = zlen content).
Proof.
  intros Hv Hnf. revert v obs Hv; induction l as [|c l IH]; intros v obs Hv Hl Hr Hacc.
  - destruct obs; [|contradiction]. exists 0. unfold view_ok in Hv. repeat split; cbn; try lia.
  - destruct obs as [|ob obs]; [contradiction|]. cbn [accepts] in Hacc.
    inversion Hl; inversion Hr; subst.
    destruct c as [mn mx| |]; try contradiction.
    destruct (is_error (ob_st ob)) eqn:Er.
    { destruct Hacc as [[_ [HF _]] _]. contradiction. }
    destruct Hacc as [G Hacc].
    destruct (IH _ _ (good_view_ok _ _ _ Hv H1 G) H2 H6 Hacc) as (n & Hn0 & Hn1 & Hn2 & Hn3).
    unfold view_ok in Hv.
    destruct G as (G1 & G2 & G3 & G4 & [(R1 & R2 & R3 & R4 & R5)|(R1 & R2 & R3 & R4)]).
    + cbn [next_view] in *. destruct (Z.ltb_spec 0 (ob_ret ob)); [|lia]. cbn [v_pos] in *.
      exists (ob_ret ob + n). split; [lia|]. split; [lia|]. split.
      * unfold datas in *. cbn [map concat]. rewrite Hn2, R2. apply slice_app; lia.
      * cbn [length]. lia.
    + cbn [next_view] in *. rewrite R1 in *. cbn [Z.ltb Z.compare v_pos] in *.
      exists n. split; [lia|]. split; [lia|]. split.
      * unfold datas in *. cbn [map concat]. rewrite Hn2, R2. reflexivity.
      * lia.
Qed.

Theorem drain_all s l : Conforms o content fails lim s view0 -> ~ fails ->
  Forall (call_ok content lim) l -> Forall is_read l -> zlen content <= Z.of_nat (length l) ->
  exists s' obs, run o s l = Ret (s', obs) /\ datas obs = content.
Proof.
  intros (Hv & Hp & H) Hnf Hl Hr Hlen. destruct (H l Hl) as (s' & obs & E & Hacc).
  exists s', obs. split; [exact E|].
  destruct (accepts_reads_prefix l obs view0 Hv Hnf Hl Hr Hacc) as (n & H0 & H1 & H2 & H3).
  cbn [view0 v_pos] in *. rewrite H2. replace n with (zlen content) by lia. apply slice_all.
Qed.

End Sim.

(** the permission to fail only matters up to equivalence *)
Lemma accepts_fails {A} (content : list A) (f g : Prop) : (f -> g) -> forall l v obs, accepts content f v l obs -> accepts content g v l obs.
Proof.
  intros H. induction l as [|c l IH]; intros v [|ob obs]; cbn [accepts]; try tauto.
  destruct (is_error (ob_st ob)).
  - intros (Hb & E). split; [|exact E]. destruct Hb as (H1 & H2). split; [exact H1|]. destruct c; tauto.
  - intros (Hg & Ha). split; [|apply IH; exact Ha]. destruct Hg as (H1 & H2 & H3 & H4 & H5). split; [exact H1|]. split; [exact H2|]. split; [exact H3|]. split; [tauto|exact H5].
Qed.
Lemma conforms_fails {St A} (o : ops St A) content (f g : Prop) lim s v : (f -> g) -> Conforms o content f lim s v -> Conforms o content g lim s v.
Proof.
  intros H (H1 & H2 & H3). split; [exact H1|]. split; [exact H2|]. intros l Hl. destruct (H3 l Hl) as (s' & obs & E & Ha).
  exists s', obs. split; [exact E|]. eapply accepts_fails; eassumption.
Qed.
