(** As P_Archive.v, but over any simulation relation of the input: used where entries are
    stacked (a substream of a decompressing stream of a substream). *)
From Verif Require Import Base StreamSpec P_Stream M_Sub P_Sub P_Sub2 ArchiveSpec P_Archive.

(** conformance, remembering that Eof means the end *)
Definition CE {St A} (o : ops St A) (content : list A) (fails : Prop) (lim : Z) (s : St) (v : view) : Prop :=
  Conforms o content fails lim s v /\ (o_status o s = Eof -> v_pos v = zlen content).
Lemma CE_sim {St A} (o : ops St A) content fails lim : sim o content fails lim (CE o content fails lim).
Proof.
  split.
  - intros s v (H & _). apply H.
  - intros s v (H & _). apply H.
  - intros s v c (H & _) Hc. destruct (sim_step _ _ _ _ _ (conforms_sim o content fails lim) s v c H Hc) as (s' & ob & E & [(G & HR)|B]); exists s', ob; (split; [exact E|]); [left|right; exact B].
    split; [exact G|]. split; [exact HR|]. apply exec_status in E as (E & _). rewrite <- E. apply G.
Qed.

Section Entry.
Context {P : Type}.
Variables (par : ops P Z) (full : list Z) (lim : Z) (R : P -> view -> Prop).
Hypothesis HS : sim par full False lim R.
Variables (off n : Z).
Hypothesis Hoff : 0 <= off.
Hypothesis Hn : 0 <= n <= INT32_MAX.
Hypothesis Hfit : off + n <= zlen full.

Lemma gentry_sim : sim (sub_ops par) (slice full off n) False lim (sub_R full R off n).
Proof.
  destruct (entry_content full off n) as (E & _); [lia..|]. rewrite <- E. eapply sim_mono; [|reflexivity|apply sub_sim; [exact HS|lia..]]. unfold sub_fails. lia.
Qed.
Lemma gentry_step s v c : sub_R full R off n s v -> call_ok (slice full off n) lim c ->
  exists s' ob, exec (sub_ops par) s c = Ret (s', ob) /\ good_obs (slice full off n) False v c ob /\ sub_R full R off n s' (next_view v c ob).
Proof.
  intros HR Hc. destruct (sim_step _ _ _ _ _ gentry_sim s v c HR Hc) as (s' & ob & E & [[G HR']|B]); [exists s', ob; auto|].
  exfalso. destruct (entry_content full off n) as (E1 & E2); [lia..|]. assert (Es := run_step_sub _ _ _ _ _ E). destruct B as (B1 & B2). rewrite B1 in Es.
  destruct c as [mn mx|k|q]; [destruct B2 as ([] & _)| |destruct B2]. destruct B2 as [[]|(B2 & B3)].
  destruct HR as (_ & _ & W3 & _ & _ & W6 & _). specialize (W6 ltac:(lia)). rewrite E2 in B3.
  cbn [exec sub_ops o_skip] in E. unfold sub_skip in E. rewrite W6, W3, B3, Z.eqb_refl in E. cbn [bind] in E. injection E as <- <-. discriminate.
Qed.
Lemma gentry_run l : forall s v, sub_R full R off n s v -> Forall (call_ok (slice full off n) lim) l ->
  exists s' obs v', run (sub_ops par) s l = Ret (s', obs) /\ accepts (slice full off n) False v l obs /\ sub_R full R off n s' v'.
Proof.
  induction l as [|c l IH]; intros s v HR Hl; cbn [run].
  - exists s, [], v. split; [reflexivity|]. split; [exact I|exact HR].
  - assert (call_ok (slice full off n) lim c) as Hc by (inversion Hl; assumption). assert (Forall (call_ok (slice full off n) lim) l) as Hl' by (inversion Hl; assumption).
    destruct (gentry_step s v c HR Hc) as (s1 & ob & E & G & HR1). rewrite E; cbn [bind].
    assert (ob_st ob <> Error) as Hne by apply G. rewrite (is_error_false _ Hne).
    destruct (IH s1 _ HR1 Hl') as (s2 & obs & v2 & E2 & A2 & HR2). rewrite E2; cbn [bind]. exists s2, (ob :: obs), v2. split; [reflexivity|].
    cbn [accepts]. rewrite (is_error_false _ Hne). auto.
Qed.
Lemma gentry_parent s v : sub_R full R off n s v -> (exists vp, R (su_par s) vp /\ v_pos vp = off + v_pos v) /\ su_size s = n /\ su_pos s = v_pos v /\ 0 <= v_pos v <= n.
Proof.
  intros (W1 & W2 & W3 & W4 & W5 & W6 & W7 & vp & W8 & W9 & W10 & W11). destruct (entry_content full off n) as (E1 & E2); [lia..|]. unfold view_ok in W1. rewrite E1, E2 in W1.
  split; [exists vp; split; [exact W8|exact W9]|split; [apply W6; lia|split; [exact W3|lia]]].
Qed.
(** skip(size) with size >= what is left: to the end of the entry *)
Lemma gentry_finish s v m : sub_R full R off n s v -> n <= m <= INT32_MAX ->
  exists s' k, sub_skip par s m = Ret (s', k) /\ sub_R full R off n s' (mkView n n n) /\ su_st s' = Eof.
Proof.
  intros HR Hm. destruct (entry_content full off n) as (E1 & E2); [lia..|]. destruct (gentry_parent s v HR) as (_ & Hsz & Hps & Hvp).
  destruct (gentry_step s v (Skip m) HR) as (s' & ob & E & G & HR'); [cbn [call_ok]; lia|]. cbn [exec sub_ops o_skip] in E.
  destruct (sub_skip par s m) as [[s1 k]| | |] eqn:Es; cbn [bind] in E; try discriminate. injection E as <- <-. exists s1, k. split; [reflexivity|].
  destruct G as (G1 & G2 & G3 & G4 & G5). cbn [observe ob_ret next_view v_pos] in *. rewrite E2 in *.
  assert (v_pos v + Z.max 0 k = n) as Hk by lia.
  rewrite Hk in HR'. split; [exact HR'|].
  unfold sub_skip in Es. rewrite Hsz, Hps in Es. destruct (Z.eqb_spec n (v_pos v)); [injection Es as <- <-; reflexivity|].
  destruct (Z.eqb_spec m 0); [lia|].
  match type of Es with context [o_skip par (su_par s) ?x] => destruct (o_skip par (su_par s) x) as [[p2 k2]| | |]; cbn [bind] in Es; try discriminate end.
  destruct (is_error (o_status par p2)) eqn:Ee.
  - injection Es as <- <-. destruct HR' as (_ & _ & _ & W4 & _). cbn in W4. congruence.
  - destruct (Z.eqb_spec (v_pos v + k2) n) as [Eq|Nq]; [injection Es as <- <-; reflexivity|].
    destruct (Z.leb_spec k2 0); injection Es as <- <-.
    + destruct HR' as (_ & _ & _ & W4 & _). cbn in W4. congruence.
    + destruct HR' as (_ & _ & W3 & _). cbn in W3. lia.
Qed.
Lemma gentry_new p v : R p v -> v_pos v = off -> exists s, sub_new par p n = Ret s /\ sub_R full R off n s view0.
Proof.
  intros HR Hp. unfold sub_new. destruct (Z.ltb_spec n (-1)); [lia|]. assert (o_pos par p = off) as -> by (rewrite <- Hp; eapply sim_pos; eassumption).
  eexists; split; [reflexivity|]. eapply sub_init_R; try eassumption; try exact HS; lia.
Qed.
End Entry.

Section Exact.
Context {P : Type}.
Variables (par : ops P Z) (full : list Z) (lim : Z) (R : P -> view -> Prop).
Hypothesis HS : sim par full False lim R.
Lemma gread_exact p v k : R p v -> 1 <= k <= lim -> k <= INT32_MAX -> v_pos v + k <= zlen full ->
  exists p', o_read par p k k = Ret (p', k, slice full (v_pos v) k) /\ R p' (mkView (v_pos v + k) (v_pos v) (v_pos v + k)).
Proof.
  intros HC Hk Hk2 Hf. destruct (sim_read _ _ _ _ _ p v k k HS HC) as (p' & n & d & E & Hres); [cbn; lia|].
  destruct Hres as [[G HR]|(_ & [] & _)]. exists p'.
  destruct G as (G1 & G2 & G3 & G4 & [(R1 & R2 & R3 & R4 & R5)|(R1 & R2 & R3 & R4)]); cbn [observe ob_ret ob_data ob_st next_view] in *; [|lia].
  assert (n = k) as -> by lia. destruct (Z.ltb_spec 0 k); [|lia]. subst d. auto.
Qed.
Lemma gskip_before p v k : R p v -> 0 <= k <= INT32_MAX -> v_pos v + k < zlen full ->
  exists p', o_skip par p k = Ret (p', k) /\ R p' (mkView (v_pos v + k) (v_pos v + k) (v_pos v + k)).
Proof.
  intros HC Hk Hf. assert (HV := sim_view _ _ _ _ _ HS _ _ HC). unfold view_ok in HV. destruct (sim_skip _ _ _ _ _ p v k HS HC Hk) as (p' & r & E & [[G HR]|(_ & [[]|(B1 & B2)])]); [|lia].
  destruct G as (G1 & G2 & G3 & G4 & G5). cbn [observe ob_ret next_view] in *. assert (r = k) as -> by lia. exists p'. split; [exact E|].
  rewrite Z.max_r in HR by lia. exact HR.
Qed.
End Exact.
