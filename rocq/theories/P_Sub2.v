(** Consequences for substreams: parent position (C06), nesting (C07), truncation (C08). *)
From Verif Require Import Base StreamSpec P_Stream M_Sub P_Sub M_StringStream P_StringStream.

Lemma good_obs_mono {A} (content : list A) (f f' : Prop) v c ob : (f -> f') -> good_obs content f v c ob -> good_obs content f' v c ob.
Proof. intros H (G1 & G2 & G3 & G4 & G5). repeat split; try assumption. tauto. Qed.
Lemma bad_obs_mono {A} (content : list A) (f f' : Prop) v c ob : (f -> f') -> bad_obs content f v c ob -> bad_obs content f' v c ob.
Proof. intros H (G1 & G2). split; [exact G1|]. destruct c; tauto. Qed.
Lemma sim_mono {St A} (o : ops St A) content (f f' : Prop) lim lim' R : (f -> f') -> lim' <= lim -> sim o content f lim R -> sim o content f' lim' R.
Proof.
  intros H Hl HS. split; [eapply sim_view; exact HS|eapply sim_pos; exact HS|].
  intros s v c HR Hc. destruct (sim_step _ _ _ _ _ HS s v c HR) as (s' & ob & E & Hres).
  { destruct c; cbn [call_ok] in *; lia. }
  exists s', ob; split; [exact E|]. destruct Hres as [[G HR']|B].
  - left; split; [eapply good_obs_mono; eassumption|exact HR'].
  - right; eapply bad_obs_mono; eassumption.
Qed.
Lemma conforms_mono {St A} (o : ops St A) content (f f' : Prop) lim lim' s v : (f -> f') -> lim' <= lim -> Conforms o content f lim s v -> Conforms o content f' lim' s v.
Proof. intros H Hl HC. eapply sim_conforms; [eapply sim_mono; [exact H|exact Hl|apply conforms_sim]|exact HC]. Qed.

(** C06 *)
Definition sub_hyp {A} (content : list A) (off n : Z) : Prop :=
  (n = -1 /\ 0 < zlen content - off <= INT32_MAX) \/ 0 <= n <= INT32_MAX.

Section C06.
Context {P A : Type}.
Variables (par : ops P A) (content : list A) (fails : Prop) (lim : Z).

Lemma sub_conforms p v n : Conforms par content fails lim p v -> sub_hyp content (v_pos v) n ->
  exists s, sub_new par p n = Ret s /\
    Conforms (sub_ops par) (slice content (v_pos v) (if n =? -1 then zlen content - v_pos v else n))
      (fails \/ zlen content - v_pos v < n) lim s view0.
Proof.
  intros HC Hn. assert (HC' := HC). destruct HC' as (Hv & Hp & _). unfold view_ok in Hv.
  unfold sub_new. destruct (Z.ltb_spec n (-1)); [destruct Hn; lia|]. rewrite Hp.
  eexists; split; [reflexivity|].
  pose proof (conforms_sim par content fails lim) as HS.
  assert (n = -1 \/ 0 <= n) as Hn' by (destruct Hn; lia). assert (n <= INT32_MAX) as Hm1 by (destruct Hn; unfold INT32_MAX in *; lia). assert (n = -1 -> zlen content - v_pos v <= INT32_MAX) as Hm2 by (destruct Hn; lia).
  assert (n = -1 -> 0 < zlen content - v_pos v) as Hn1 by (destruct Hn; lia).
  eapply sim_conforms; [apply (sub_sim par content fails lim _ HS (v_pos v) n); try assumption; lia|].
  eapply sub_init_R; try eassumption; try lia.
Qed.

(** the parent, while the substream is in use *)
Lemma sub_parent p v n s0 l s obs : Conforms par content fails lim p v -> sub_hyp content (v_pos v) n ->
  sub_new par p n = Ret s0 ->
  Forall (call_ok (slice content (v_pos v) (if n =? -1 then zlen content - v_pos v else n)) lim) l ->
  run (sub_ops par) s0 l = Ret (s, obs) -> su_st s <> Error ->
  o_pos par (su_par s) = v_pos v + su_pos s /\ 0 <= su_pos s /\ (n <> -1 -> su_pos s <= n) /\
  exists vp, Conforms par content fails lim (su_par s) vp.
Proof.
  intros HC Hn Enew Hl Hrun Hst. assert (HC' := HC). destruct HC' as (Hv & Hp & _). unfold view_ok in Hv.
  unfold sub_new in Enew. destruct (Z.ltb_spec n (-1)); [discriminate|]. rewrite Hp in Enew. injection Enew as <-.
  pose proof (conforms_sim par content fails lim) as HS.
  assert (n = -1 \/ 0 <= n) as Hn' by (destruct Hn; lia). assert (n <= INT32_MAX) as Hm1 by (destruct Hn; unfold INT32_MAX in *; lia). assert (n = -1 -> zlen content - v_pos v <= INT32_MAX) as Hm2 by (destruct Hn; lia).
  assert (n = -1 -> 0 < zlen content - v_pos v) as Hn1 by (destruct Hn; lia).
  assert (0 <= v_pos v <= zlen content) as Ho by lia.
  destruct (sim_run _ _ _ _ (sub_R content (Conforms par content fails lim) (v_pos v) n) _ view0 l s obs
    (sub_sim par content fails lim _ HS (v_pos v) n Ho Hn' Hn1 Hm1 Hm2)
    (sub_init_R par content fails lim _ HS (v_pos v) n Hn' p v HC eq_refl) Hl Hrun Hst)
    as (v' & (W1 & W2 & W3 & W4 & W5 & W6 & W7 & vp & W8 & W9 & _)).
  unfold view_ok in W1. destruct W8 as (X1 & X2 & X3).
  pose proof (sub_len content (v_pos v) n Ho Hn') as SL.
  repeat split; try lia.
  - intros Hx. destruct (Z.eqb_spec n (-1)); lia.
  - exists vp; split; [exact X1|]. split; assumption.
Qed.
End C06.

(** any size, on a parent that follows the documentation also for 0 < max < min *)
Lemma sub_any {P A} (par : ops P A) content fails lim (R : P -> view -> Prop) p v n : sim par content fails lim R -> R p v -> 0 <= n -> ret32 par lim R -> no_limit par R ->
  exists s, sub_new par p n = Ret s /\ Conforms (sub_ops par) (slice content (v_pos v) n) (fails \/ zlen content - v_pos v < n) lim s view0.
Proof.
  intros HS HR Hn H32 HN. pose proof (sim_view _ _ _ _ _ HS _ _ HR) as Hv. pose proof (sim_pos _ _ _ _ _ HS _ _ HR) as Hp. unfold view_ok in Hv.
  unfold sub_new. destruct (Z.ltb_spec n (-1)); [lia|]. rewrite Hp. eexists; split; [reflexivity|].
  assert (sub_content content (v_pos v) n = slice content (v_pos v) n) as EC by (unfold sub_content; destruct (Z.eqb_spec n (-1)); [lia|reflexivity]).
  rewrite <- EC. eapply sim_conforms; [apply (sub_sim_any par content fails lim R HS (v_pos v) n); try assumption; lia|]. eapply sub_init_R; try eassumption; try lia.
Qed.

(** C07: nesting.  [(n,k) :: l]: make a substream of size [n] at the current
    position, skip [k] items in it, continue inside. *)
Fixpoint nestT (l : list (Z * Z)) (P : Type) : Type :=
  match l with [] => P | _ :: l' => nestT l' (sub P) end.
Fixpoint nestO {A} (l : list (Z * Z)) : forall P, ops P A -> ops (nestT l P) A :=
  match l return forall P, ops P A -> ops (nestT l P) A with
  | [] => fun P o => o
  | _ :: l' => fun P o => nestO l' (sub P) (sub_ops o)
  end.
Fixpoint nestS {A} (l : list (Z * Z)) : forall P, ops P A -> P -> out (nestT l P) :=
  match l return forall P, ops P A -> P -> out (nestT l P) with
  | [] => fun P o s => Ret s
  | (n, k) :: l' => fun P o s =>
      let* su := sub_new o s n in
      let* (su', _) := sub_skip o su k in
      nestS l' (sub P) (sub_ops o) su'
  end.
(** specification: plain slices of slices *)
Fixpoint nestC {A} (l : list (Z * Z)) (content : list A) (q : Z) : list A * Z :=
  match l with
  | [] => (content, q)
  | (n, k) :: l' => nestC l' (slice content q n) k
  end.
Fixpoint nest_ok (l : list (Z * Z)) (len q : Z) : Prop :=
  match l with
  | [] => True
  | (n, k) :: l' => 0 <= n <= INT32_MAX /\ q + n <= len /\ 0 <= k <= n /\ nest_ok l' n k
  end.

Lemma nest_conforms {A} (l : list (Z * Z)) : forall P (o : ops P A) (content : list A) lim s v,
  Conforms o content False lim s v -> nest_ok l (zlen content) (v_pos v) ->
  exists s', nestS l P o s = Ret s' /\
    exists v', v_pos v' = snd (nestC l content (v_pos v)) /\
      Conforms (nestO l P o) (fst (nestC l content (v_pos v))) False lim s' v'.
Proof.
  induction l as [|[n k] l IH]; intros P o content lim s v HC Hok.
  - exists s; split; [reflexivity|]. exists v; split; [reflexivity|exact HC].
  - cbn [nest_ok] in Hok. destruct Hok as (H1 & H2 & H3 & H4).
    destruct (sub_conforms o content False lim s v n HC ltac:(right; lia)) as (su & E & Hsu).
    cbn [nestS nestC]. rewrite E; cbn [bind].
    replace (if n =? -1 then zlen content - v_pos v else n) with n in Hsu by (destruct (Z.eqb_spec n (-1)); lia).
    assert (Conforms (sub_ops o) (slice content (v_pos v) n) False lim su view0) as Hsu'
      by (eapply conforms_mono; [|reflexivity|exact Hsu]; lia).
    assert (HC' := HC). destruct HC' as (Hv & _). unfold view_ok in Hv.
    assert (zlen (slice content (v_pos v) n) = n) as SL by (apply zlen_slice; lia).
    destruct (sim_skip _ _ _ _ _ su view0 k (conforms_sim _ _ _ _) Hsu') as (su' & r & E2 & Hres); [lia|].
    cbn [sub_ops o_skip] in E2. rewrite E2; cbn [bind].
    destruct Hres as [[G HR]|[_ [[]|[Q1 Q2]]]].
    2:{ cbn in Q2. rewrite SL in Q2. lia. }
    assert (v_pos (next_view view0 (Skip k) (observe (sub_ops o) su' r [])) = k) as Hpk.
    { destruct G as (_ & _ & _ & _ & G). cbn in *. rewrite SL in G. lia. }
    destruct (IH _ _ _ _ _ _ HR) as (s' & E3 & v' & V1 & V2).
    { rewrite Hpk, SL. exact H4. }
    exists s'; split; [exact E3|]. exists v'. rewrite Hpk in *. split; assumption.
Qed.

(** the innermost content is one slice of the outermost content *)
Lemma nestC_flat {A} (l : list (Z * Z)) : forall (content : list A) q, 0 <= q -> l <> [] -> nest_ok l (zlen content) q ->
  exists o, q <= o /\ fst (nestC l content q) = slice content o (zlen (fst (nestC l content q))) /\
    o + zlen (fst (nestC l content q)) <= q + fst (hd (0,0) l).
Proof.
  induction l as [|[n k] l IH]; intros content q Hq Hne Hok; [congruence|].
  cbn [nest_ok] in Hok. destruct Hok as (H1 & H2 & H3 & H4). cbn [nestC].
  assert (zlen (slice content q n) = n) as SL by (apply zlen_slice; lia).
  destruct l as [|[n' k'] l].
  - exists q. cbn [nestC fst hd]. rewrite SL. split; [lia|]. split; [reflexivity|lia].
  - destruct (IH (slice content q n) k) as (o & O1 & O2 & O3); try lia; try congruence.
    cbn [hd fst] in O3. cbn [nest_ok] in H4.
    exists (q + o). split; [lia|]. cbn [hd fst] in *. split; [|lia].
    rewrite O2 at 1. apply slice_slice; lia.
Qed.

(** C08 *)
Section C08.
Context {P A : Type}.
Variables (par : ops P A) (content : list A) (lim : Z).

Lemma sub_read_neg1 s mn mx s' d : 1 <= mn -> su_size s <> -1 -> 0 <= su_size s - su_pos s <= INT32_MAX ->
  sub_read par s mn mx = Ret (s', -1, d) -> su_pos s = su_size s.
Proof.
  intros Hm Hs Hr. unfold sub_read. destruct (Z.eqb_spec (su_size s) (-1)); [congruence|].
  destruct (Z.eqb_spec (su_size s - su_pos s) 0); [intros; lia|]. cbv zeta.
  match goal with |- context [sub_read_body par s ?m ?x] => set (mx' := x); set (mn' := m) end.
  assert (1 <= mn') as Hmn' by (unfold mn'; destruct (Z.ltb_spec (su_size s - su_pos s) mn); rewrite ?wrap32_id by (unfold INT32_MIN; lia); lia).
  clearbody mx'. clearbody mn'. unfold sub_read_body. destruct (o_read par (su_par s) mn' mx') as [[[p k] dd]| | |]; cbn [bind]; try discriminate.
  match goal with |- context [if negb ?c then _ else _] => destruct (negb c); [discriminate|] end. destruct (Z.ltb_spec k (-1)); [intros E; injection E as _ E _; lia|].
  destruct (Z.eqb_spec (su_size s) (-1)); [congruence|].
  destruct (Z.ltb_spec k mn'); [discriminate|]. intros E; injection E as _ E _; lia.
Qed.

(** [n] more than what the parent still has *)
Lemma sub_truncated p v n s0 l s obs mn mx : Conforms par content False lim p v ->
  0 <= n <= INT32_MAX -> zlen content - v_pos v < n ->
  sub_new par p n = Ret s0 ->
  Forall (call_ok (slice content (v_pos v) n) lim) l ->
  run (sub_ops par) s0 l = Ret (s, obs) -> su_st s <> Error ->
  call_ok (slice content (v_pos v) n) lim (Read mn mx) ->
  exists s' k d, sub_read par s mn mx = Ret (s', k, d) /\ k <> -1 /\
    (su_pos s = zlen content - v_pos v -> k = -2 /\ su_st s' = Error) /\
    (0 < k -> d = slice content (v_pos v + su_pos s) k).
Proof.
  intros HC Hn Htr Enew Hl Hrun Hst Hc. assert (HC' := HC). destruct HC' as (Hv & Hp & _). unfold view_ok in Hv.
  unfold sub_new in Enew. destruct (Z.ltb_spec n (-1)); [discriminate|]. rewrite Hp in Enew. injection Enew as <-.
  pose proof (conforms_sim par content False lim) as HS.
  assert (n = -1 \/ 0 <= n) as Hn' by lia. assert (n <= INT32_MAX) as Hm1 by lia. assert (n = -1 -> zlen content - v_pos v <= INT32_MAX) as Hm2 by lia.
  assert (n = -1 -> 0 < zlen content - v_pos v) as Hn1 by lia.
  assert (0 <= v_pos v <= zlen content) as Ho by lia.
  pose proof (sub_sim par content False lim _ HS (v_pos v) n Ho Hn' Hn1 Hm1 Hm2) as HSS.
  assert (sub_content content (v_pos v) n = slice content (v_pos v) n) as EC.
  { unfold sub_content. destruct (Z.eqb_spec n (-1)); [lia|reflexivity]. }
  pose proof (sub_len content (v_pos v) n Ho Hn') as SL.
  destruct (Z.eqb_spec n (-1)); [lia|]. rewrite Z.min_r in SL by lia.
  rewrite <- EC in *.
  destruct (sim_run _ _ _ _ _ _ view0 l s obs HSS
    (sub_init_R par content False lim _ HS (v_pos v) n Hn' p v HC eq_refl) Hl Hrun Hst) as (v' & HR').
  destruct (sim_read _ _ _ _ _ s v' mn mx HSS HR' Hc) as (s' & k & d & E & Hres).
  assert (HR'' := HR'). destruct HR'' as (W1 & W2 & W3 & W4 & W5 & W6 & W7 & vp & W8 & W9 & _).
  unfold view_ok in W1. specialize (W6 ltac:(lia)).
  cbn [sub_ops o_read] in E. exists s', k, d. split; [exact E|].
  assert (k <> -1) as Hk1.
  { intros ->. cbn [call_ok] in Hc. apply sub_read_neg1 in E; lia. }
  split; [exact Hk1|].
  destruct Hres as [[G _]|(Q1 & _ & Q2)].
  - destruct G as (_ & _ & _ & _ & [(R1 & R2 & R3 & _)|(R1 & _)]); cbn [observe ob_ret ob_data] in *; [|congruence].
    split; [lia|]. intros _. rewrite R2, <- sub_slice by (try assumption; lia). rewrite W3. reflexivity.
  - cbn [sub_ops o_status] in Q1. subst k. split; [intros _; split; [reflexivity|exact Q1]|lia].
Qed.
End C08.
