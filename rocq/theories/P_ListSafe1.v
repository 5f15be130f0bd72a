(** The stream of an entry of arbitrary bytes can itself be opened (C55). *)
From Coq Require Import Bool.
From Verif Require Import Base StreamSpec P_Stream ArchiveSpec M_Open M_ListReal P_Tame P_EntrySafe P_OpenSafe.

(** ** histories *)
Definition fine (obs : list (obs Z)) : Prop := Forall (fun o => ob_st o <> Error) obs.
Lemma run_snoc_fine {X} (e : ops X Z) h c : forall s x obs, run e s h = Ret (x, obs) -> fine obs -> length obs = length h /\ run e s (h ++ [c]) = let* (x', ob) := exec e x c in Ret (x', obs ++ [ob]).
Proof.
  induction h as [|c0 h IH]; intros s x obs E HE; cbn [run app] in *.
  - assert (s = x /\ obs = []) as (-> & ->) by (split; congruence). split; [reflexivity|]. cbn [app]. destruct (exec e x c) as [(x' & ob)| | |]; cbn [bind]; try reflexivity. destruct (is_error (ob_st ob)); reflexivity.
  - destruct (exec e s c0) as [(s1 & ob)| | |]; cbn [bind] in *; try discriminate. destruct (is_error (ob_st ob)) eqn:Ee.
    + assert (obs = [ob]) as -> by congruence. inversion HE as [|? ? H1 _]; subst. destruct (ob_st ob); try discriminate. congruence.
    + destruct (run e s1 h) as [(s2 & obs2)| | |] eqn:E2; cbn [bind] in *; try discriminate. assert (s2 = x /\ obs = ob :: obs2) as (-> & ->) by (split; congruence).
      inversion HE as [|? ? _ H2]; subst. destruct (IH s1 x obs2 E2 H2) as (L & ->). split; [cbn [length]; lia|]. destruct (exec e x c) as [(x' & o')| | |]; reflexivity.
Qed.
Lemma run_snoc_err {X} (e : ops X Z) h c : forall s x obs, run e s h = Ret (x, obs) -> ~ fine obs -> (length obs <= length h)%nat /\ run e s (h ++ [c]) = Ret (x, obs).
Proof.
  induction h as [|c0 h IH]; intros s x obs E HE; cbn [run app] in *.
  - assert (obs = []) as -> by congruence. exfalso. apply HE. constructor.
  - destruct (exec e s c0) as [(s1 & ob)| | |]; cbn [bind] in *; try discriminate. destruct (is_error (ob_st ob)) eqn:Ee.
    + assert (obs = [ob]) as -> by congruence. split; [cbn [length]; lia|congruence].
    + destruct (run e s1 h) as [(s2 & obs2)| | |] eqn:E2; cbn [bind] in *; try discriminate. assert (s2 = x /\ obs = ob :: obs2) as (-> & ->) by (split; congruence).
      destruct (IH s1 x obs2 E2) as (L & ->); [|split; [cbn [length]; lia|reflexivity]]. intros H. apply HE. constructor; [destruct (ob_st ob); try discriminate; congruence|exact H].
Qed.
Lemma run_prefix {X} (e : ops X Z) h c : forall s y, run e s (h ++ [c]) = Ret y -> exists z, run e s h = Ret z.
Proof.
  induction h as [|c0 h IH]; intros s y E; cbn [run app] in *; [eauto|].
  destruct (exec e s c0) as [(s1 & ob)| | |]; cbn [bind] in *; try discriminate. destruct (is_error (ob_st ob)); [eauto|].
  destruct (run e s1 (h ++ [c])) as [y1| | |] eqn:E2; cbn [bind] in *; try discriminate. destruct (IH s1 y1 E2) as ((z1 & z2) & ->). cbn [bind]. eauto.
Qed.

Section Entry.
Context {St X : Type}.
Variables (pv : provider St) (st0 : St) (i : info) (lim b bq : Z) (e : ops X Z) (x0 : X) (J : X -> Prop) (wrap : X -> St).
Hypothesis Hpv : forall h, pv_entry pv st0 h = let* (x, obs) := run e x0 h in Ret (wrap x, obs).
Hypothesis HJ0 : J x0.
Hypothesis Hp0 : o_pos e x0 = 0.
Hypothesis Hs0 : o_status e x0 = Ok.
Hypothesis HE : EntryOK e True lim bq b J.
Hypothesis Hbq : 0 <= bq.
Hypothesis Hlim : 1 <= lim <= INT32_MAX.
Definition okc (c : call) : Prop := any_call lim c /\ match c with Reset q => q <= bq | _ => True end.
(** after the calls [h] the stream is at [p] with status [st] *)
Definition at_h (h : list call) (p : Z) (st : status) : Prop :=
  exists x obs, run e x0 h = Ret (x, obs) /\ fst (fst (last_obs pv st0 i h)) = p /\ snd (last_obs pv st0 i h) = st /\ 0 <= p <= b /\ p <= bq /\
    (st <> Error -> fine obs /\ J x /\ o_status e x = st /\ o_pos e x = p) /\ (st = Error -> ~ fine obs).
Lemma b_nonneg : 0 <= b.
Proof. pose proof (en_pos _ _ _ _ _ _ HE x0 HJ0 ltac:(congruence)). lia. Qed.
Lemma at0 : at_h [] 0 Ok.
Proof.
  exists x0, []. split; [reflexivity|]. unfold last_obs. rewrite Hpv. cbn. pose proof b_nonneg. split; [reflexivity|]. split; [reflexivity|]. split; [lia|]. split; [exact Hbq|].
  split; [|discriminate]. intros _. split; [constructor|]. auto.
Qed.
Lemma last_run h x obs o : run e x0 h = Ret (x, obs ++ [o]) -> last_obs pv st0 i h = (match ob_st o, rev obs with Error, o' :: _ => ob_pos o' | Error, [] => 0 | _, _ => ob_pos o end, ob_size o, ob_st o).
Proof. intros E. unfold last_obs. rewrite Hpv, E. cbn [bind]. rewrite rev_app_distr. reflexivity. Qed.
Lemma last_pos h x obs : run e x0 h = Ret (x, obs) -> fine obs -> fst (fst (last_obs pv st0 i h)) = match rev obs with o :: _ => ob_pos o | [] => 0 end.
Proof.
  intros E HF. unfold last_obs. rewrite Hpv, E. cbn [bind]. destruct (rev obs) as [|o l] eqn:Er; [reflexivity|]. cbn [fst].
  assert (ob_st o <> Error). { unfold fine in HF. rewrite Forall_forall in HF. apply HF, in_rev. rewrite Er. left; reflexivity. } destruct (ob_st o); congruence.
Qed.
Lemma at_step h p st c : at_h h p st -> okc c ->
  safe True (run e x0 (h ++ [c])) (fun '(x', obs') =>
    match nth_error obs' (length h) with
    | Some ob => st <> Error /\ step_ok p st c ob /\ (ob_st ob = Error -> at_h (h ++ [c]) p Error) /\ (ob_st ob <> Error -> at_h (h ++ [c]) (ob_pos ob) (ob_st ob))
    | None => st = Error /\ at_h (h ++ [c]) p Error
    end).
Proof.
  intros (x & obs & E & P1 & P2 & P3 & P4 & P5 & P6) (Hc & Hq). assert (st = Error \/ st <> Error) as [Hst|Hst] by (destruct st; auto; right; discriminate).
  - destruct (run_snoc_err e h c _ _ _ E (P6 Hst)) as (L & E'). rewrite E'. cbn [safe]. rewrite (proj2 (nth_error_None _ _) L). split; [exact Hst|].
    exists x, obs. split; [exact E'|]. assert (last_obs pv st0 i (h ++ [c]) = last_obs pv st0 i h) as -> by (unfold last_obs; rewrite !Hpv, E, E'; reflexivity).
    split; [exact P1|]. split; [congruence|]. split; [exact P3|]. split; [exact P4|]. split; [congruence|]. auto.
  - destruct (P5 Hst) as (F & HJ & S1 & S2). destruct (run_snoc_fine e h c _ _ _ E F) as (L & E'). pose proof (en_step _ _ _ _ _ _ HE x c HJ ltac:(congruence) Hc Hq) as T.
    pose proof (last_pos _ _ _ E F) as LP. rewrite P1 in LP.
    destruct (exec e x c) as [(x' & ob)| | |] eqn:Ec; cbn [bind safe] in *; try (rewrite E'; exact T). rewrite E'. cbn [safe]. destruct T as (J' & O1 & O2 & Hstep).
    rewrite nth_error_app2 by lia. rewrite L, Nat.sub_diag. cbn [nth_error]. split; [exact Hst|]. rewrite S1, S2 in Hstep. split; [exact Hstep|].
    split; intros Ho.
    + exists x', (obs ++ [ob]). split; [exact E'|]. rewrite (last_run _ _ _ _ E'). cbn [fst snd]. rewrite Ho. split; [congruence|]. split; [reflexivity|]. split; [exact P3|]. split; [exact P4|].
      split; [congruence|]. intros _ Hf. apply Forall_app in Hf as (_ & Hf). inversion Hf; congruence.
    + exists x', (obs ++ [ob]). split; [exact E'|]. rewrite (last_run _ _ _ _ E'). cbn [fst snd]. pose proof (en_pos _ _ _ _ _ _ HE x' J' ltac:(congruence)) as (Q1 & Q2). rewrite <- O1 in *.
      split; [destruct (ob_st ob); congruence|]. split; [reflexivity|]. split; [exact Q1|]. split; [exact Q2|]. split; [|congruence]. intros _. split; [apply Forall_app; split; [exact F|constructor; [exact Ho|constructor]]|]. split; [exact J'|]. split; congruence.
Qed.
Lemma at_any h : Forall okc h -> safe True (run e x0 h) (fun _ => exists p st, at_h h p st).
Proof.
  induction h as [|c h IH] using rev_ind; intros Hh. { cbn [run safe]. exists 0, Ok. exact at0. }
  apply Forall_app in Hh as (Hh & Hc). inversion Hc as [|? ? Hc1 _]; subst. specialize (IH Hh).
  destruct (run e x0 h) as [(x & obs)| | |] eqn:E; cbn [safe] in IH.
  - destruct IH as (p & st & H). eapply safe_impl; [apply (at_step h p st c H Hc1)|tauto|]. intros (x' & obs'). destruct (nth_error obs' (length h)) as [ob|].
    + intros (_ & _ & A1 & A2). assert (ob_st ob = Error \/ ob_st ob <> Error) as [Hst|Hst] by (destruct (ob_st ob); auto; right; discriminate); eauto.
    + intros (_ & A). eauto.
  - assert (forall s, run e s h = UB -> run e s (h ++ [c]) = UB) as A; [|rewrite (A _ E); exact I]. clear. induction h as [|c0 h IH]; intros s E; cbn [run app] in *; [discriminate|].
    destruct (exec e s c0) as [(s1 & ob)| | |]; cbn [bind] in *; try discriminate; [|reflexivity]. destruct (is_error (ob_st ob)); [discriminate|].
    destruct (run e s1 h) as [(z1 & z2)| | |] eqn:E2; cbn [bind] in *; try discriminate. rewrite (IH s1 E2). reflexivity.
  - assert (forall s, run e s h = Abort -> run e s (h ++ [c]) = Abort) as A; [|rewrite (A _ E); exact I]. clear. induction h as [|c0 h IH]; intros s E; cbn [run app] in *; [discriminate|].
    destruct (exec e s c0) as [(s1 & ob)| | |]; cbn [bind] in *; try discriminate; [|reflexivity]. destruct (is_error (ob_st ob)); [discriminate|].
    destruct (run e s1 h) as [(z1 & z2)| | |] eqn:E2; cbn [bind] in *; try discriminate. rewrite (IH s1 E2). reflexivity.
  - contradiction.
Qed.
Lemma entry_len_le fuel : 0 <= entry_len pv st0 i fuel <= bq.
Proof.
  assert (Forall okc (repeat (Read 1 0) fuel)) as Hh. { apply Forall_forall. intros c Hc. apply repeat_spec in Hc as ->. split; [|exact Logic.I]. cbn. unfold INT32_MAX, INT32_MIN in *. lia. }
  pose proof (at_any _ Hh) as T. unfold entry_len. remember (repeat (Read 1 0) fuel) as h. destruct (run e x0 h) as [(x & obs)| | |] eqn:E; cbn [safe] in T.
  - destruct T as (p & st & _ & _ & _ & P1 & _ & P3 & P4 & _). rewrite P1. lia.
  - unfold last_obs. rewrite Hpv, E. cbn. lia.
  - unfold last_obs. rewrite Hpv, E. cbn. lia.
  - contradiction.
Qed.
(** *** as a stream to open *)
Section Open.
Variable len : Z.
Hypothesis Hlen : len <= bq.
Lemma call_okb_okc c : call_okb len lim c = true -> okc c.
Proof.
  unfold okc. destruct c as [mn mx|n|q]; cbn [call_okb any_call]; rewrite ?andb_true_iff, ?orb_true_iff, ?andb_true_iff, ?Z.leb_le.
  - intros (((H1 & H2) & H3) & H4). split; [|exact Logic.I]. unfold INT32_MIN, INT32_MAX in *. lia.
  - intros H. split; [lia|exact Logic.I].
  - lia.
Qed.
Definition hI (h : hist len lim) : Prop := exists p st, at_h (proj1_sig h) p st.
Lemma hist_add_okc (h h' : hist len lim) c : hist_add h c = Some h' -> proj1_sig h' = proj1_sig h ++ [c] /\ okc c.
Proof. unfold hist_add. destruct (bool_dec (call_okb len lim c) true) as [q|q]; [|discriminate]. intros E. injection E as <-. split; [reflexivity|apply call_okb_okc; exact q]. Qed.
Notation eo := (entry_ops pv st0 i len lim).
Lemma entry_call_safe (h : hist len lim) p st c : at_h (proj1_sig h) p st ->
  safe True (entry_call pv st0 h c) (fun '(h', n, d) => (st = Error /\ n = -2 /\ d = [] /\ at_h (proj1_sig h') p Error) \/
    exists ob, n = ob_ret ob /\ d = ob_data ob /\ st <> Error /\ step_ok p st c ob /\ (ob_st ob = Error /\ at_h (proj1_sig h') p Error \/ ob_st ob <> Error /\ at_h (proj1_sig h') (ob_pos ob) (ob_st ob))).
Proof.
  intros H. unfold entry_call. destruct (hist_add h c) as [h'|] eqn:Eh; [|exact Logic.I]. destruct (hist_add_okc _ _ _ Eh) as (E' & Hc). rewrite Hpv, E'.
  pose proof (at_step _ _ _ c H Hc) as T. destruct (run e x0 (proj1_sig h ++ [c])) as [(x' & obs')| | |]; cbn [bind safe] in *; try exact T.
  destruct (nth_error obs' (length (proj1_sig h))) as [ob|]; cbn [safe].
  - right. exists ob. destruct T as (T1 & T2 & T3 & T4). split; [reflexivity|]. split; [reflexivity|]. split; [exact T1|]. split; [exact T2|]. rewrite E'.
    assert (ob_st ob = Error \/ ob_st ob <> Error) as [Hst|Hst] by (destruct (ob_st ob); auto; right; discriminate); auto.
  - left. rewrite E'. destruct T as (T1 & T2). auto.
Qed.
Lemma at_obs (h : hist len lim) p st : at_h (proj1_sig h) p st -> o_pos eo h = p /\ o_status eo h = st /\ 0 <= p <= b.
Proof. intros (x & obs & E & P1 & P2 & P3 & _). cbn [entry_ops o_pos o_status]. auto. Qed.
Lemma entry_tame (neg : Prop) : ~ neg -> Tame eo None lim True neg hI.
Proof.
  intros Hneg. split.
  - intros h (p & st & H). destruct (at_obs _ _ _ H) as (-> & _ & A). split; [lia|exact Logic.I].
  - intros h mn mx (p & st & H) H1 H2 H3. destruct (at_obs _ _ _ H) as (-> & A1 & A2). cbn [o_read entry_ops]. eapply safe_impl; [apply (entry_call_safe h p st (Read mn mx) H)|tauto|].
    intros ((h' & n) & d) [(S1 & -> & -> & H')|(ob & -> & -> & S1 & S2 & H')].
    + destruct (at_obs _ _ _ H') as (-> & -> & _). change (zlen (@nil Z)) with 0. split; [exists p, Error; exact H'|]. split; [unfold INT32_MAX; lia|]. split; [lia|]. split; [constructor|]. split; [exact Logic.I|]. split; [lia|]. split; [lia|]. split; [lia|]. intros _ _ _. discriminate.
    + cbn [step_ok] in S2. destruct S2 as (B1 & B2 & B3 & B4 & B5 & B6 & B7 & B8).
      destruct H' as [(He & H')|(He & H')]; destruct (at_obs _ _ _ H') as (-> & -> & _); (split; [eexists _, _; exact H'|]); (split; [exact B1|]); (split; [exact B2|]); (split; [exact B3|]); (split; [exact Logic.I|]).
      * specialize (B4 He). split; [lia|]. split; [lia|]. split; [intros L; apply B6; lia|]. intros _ _ _. discriminate.
      * specialize (B5 He). split; [lia|]. split; [lia|]. split; [intros L; apply B6; lia|]. intros _ L1 L2. apply B7; assumption.
  - intros h n (p & st & H) Hn. destruct (at_obs _ _ _ H) as (-> & A1 & A2). cbn [o_skip entry_ops]. eapply safe_bind; [apply (entry_call_safe h p st (Skip n) H)|].
    intros ((h' & k) & d) [(S1 & -> & -> & H')|(ob & -> & -> & S1 & S2 & H')]; cbn [safe].
    + destruct (at_obs _ _ _ H') as (-> & -> & _). split; [exists p, Error; exact H'|]. split; [lia|]. split; [congruence|]. split; [lia|]. intros Q; contradiction.
    + cbn [step_ok] in S2. destruct S2 as (B1 & B2 & B3).
      destruct H' as [(He & H')|(He & H')]; destruct (at_obs _ _ _ H') as (-> & -> & _); (split; [eexists _, _; exact H'|]).
      * split; [lia|]. split; [congruence|]. split; [intros _; exact B1|]. intros Q; contradiction.
      * specialize (B2 He). split; [lia|]. split; [intros _; exact B2|]. split; [intros _; exact B1|]. intros Q; contradiction.
  - intros h q (p & st & H) Hq. destruct (at_obs _ _ _ H) as (-> & A1 & A2). cbn [o_reset entry_ops]. eapply safe_bind; [apply (entry_call_safe h p st (Reset q) H)|].
    intros ((h' & k) & d) [(S1 & -> & -> & H')|(ob & -> & -> & S1 & S2 & H')]; cbn [safe].
    + destruct (at_obs _ _ _ H') as (-> & _ & _). split; [exists p, Error; exact H'|]. left. lia.
    + cbn [step_ok] in S2. destruct S2 as (B1 & B2).
      destruct H' as [(He & H')|(He & H')]; destruct (at_obs _ _ _ H') as (-> & _ & _); (split; [eexists _, _; exact H'|]).
      * left. specialize (B1 He). lia.
      * apply (B2 He).
Qed.
Lemma entry_firm : Firm eo hI.
Proof.
  split.
  - intros h mn mx h' n d (p & st & H) H1 H2 E Hn. cbn [o_read entry_ops] in E. pose proof (entry_call_safe h p st (Read mn mx) H) as T. rewrite E in T. cbn [safe] in T.
    destruct (at_obs _ _ _ H) as (-> & A1 & A2). destruct T as [(S1 & -> & -> & H')|(ob & -> & -> & S1 & S2 & H')]; [destruct (at_obs _ _ _ H') as (-> & -> & _); auto|].
    destruct H' as [(He & H')|(He & H')]; destruct (at_obs _ _ _ H') as (-> & -> & _); [auto|]. right. cbn [step_ok] in S2. destruct S2 as (_ & _ & _ & _ & B5 & _). specialize (B5 He). lia.
  - intros h q h' r (p & st & H) Hq E. cbn [o_reset entry_ops] in E. pose proof (entry_call_safe h p st (Reset q) H) as T. destruct (entry_call pv st0 h (Reset q)) as [((h1 & r1) & d)| | |]; cbn [bind] in E; try discriminate.
    assert (h1 = h' /\ r1 = r) as (-> & ->) by (split; congruence). cbn [safe] in T. destruct (at_obs _ _ _ H) as (_ & -> & A2).
    destruct T as [(S1 & -> & -> & H')|(ob & -> & -> & S1 & S2 & H')]; [destruct (at_obs _ _ _ H') as (-> & -> & _); split; [intros _; split; [lia|reflexivity]|]; split; [intros _ Q; discriminate Q|lia]|].
    split; [intros; contradiction|]. cbn [step_ok] in S2. destruct S2 as (B1 & B2).
    destruct H' as [(He & H')|(He & H')]; destruct (at_obs _ _ _ H') as (-> & -> & _); [split; [intros _ Q; discriminate Q|auto]|]. split; [apply (B2 He)|intros Q; contradiction].
  - intros h (p & st & H) Hst. destruct (at_obs _ _ _ H) as (_ & A1 & A2). rewrite A1 in Hst. split.
    + intros mn mx h' n d E. cbn [o_read entry_ops] in E. pose proof (entry_call_safe h p st (Read mn mx) H) as T. rewrite E in T. cbn [safe] in T.
      destruct T as [(S1 & -> & _)|(ob & -> & _ & _ & S2 & _)]; [lia|]. cbn [step_ok] in S2. apply S2; exact Hst.
    + intros n h' k Hn E. cbn [o_skip entry_ops] in E. pose proof (entry_call_safe h p st (Skip n) H) as T. destruct (entry_call pv st0 h (Skip n)) as [((h1 & r1) & d)| | |]; cbn [bind] in E; try discriminate.
      assert (r1 = k) as -> by congruence. cbn [safe] in T. destruct T as [(S1 & -> & _)|(ob & -> & _ & _ & S2 & _)]; [lia|]. cbn [step_ok] in S2. apply S2; exact Hst.
Qed.
Lemma entry_openable : lim = INT32_MAX -> openable False eo None b hI (fun _ => 0).
Proof.
  intros El. split; [rewrite <- El; apply entry_tame; tauto|]. split; [|split; [intros []|split; [apply entry_firm|apply b_nonneg]]].
  intros h (p & st & H). destruct (at_obs _ _ _ H) as (-> & _ & A). lia.
Qed.
Lemma hist_okc (h : hist len lim) : Forall okc (proj1_sig h).
Proof. destruct h as [h Hh]. cbn [proj1_sig]. apply Forall_forall. intros c Hc. rewrite forallb_forall in Hh. apply call_okb_okc, Hh, Hc. Qed.
End Open.
Lemma drain_safe fuel : forall h, Forall okc h -> (forall p st, at_h h p st -> b - p < Z.of_nat fuel) -> (0 < fuel)%nat -> safe True (drain_entry pv st0 i fuel h) (fun '(h', _) => Forall okc h').
Proof.
  assert (okc (Read 1 0)) as Hc by (split; [cbn; unfold INT32_MAX, INT32_MIN in *; lia|exact Logic.I]).
  induction fuel as [|fuel IH]; intros h Hh Hf H0; [lia|]. cbn [drain_entry].
  assert (Forall okc (h ++ [Read 1 0])) as Hh' by (apply Forall_app; split; [exact Hh|constructor; [exact Hc|constructor]]).
  rewrite Hpv. pose proof (at_any _ Hh') as T. destruct (run e x0 (h ++ [Read 1 0])) as [(x' & obs')| | |] eqn:E'; cbn [bind safe] in *; try exact T.
  destruct (nth_error obs' (length h)) as [ob|] eqn:En; [|exact Hh]. destruct (Z.ltb_spec 0 (ob_ret ob)) as [Hr|Hr]; [|exact Hh'].
  destruct (run_prefix e h _ _ _ E') as (z & Ez). pose proof (at_any _ Hh) as T0. rewrite Ez in T0. cbn [safe] in T0. destruct T0 as (p & st & H).
  pose proof (at_step _ _ _ _ H Hc) as T1. rewrite E' in T1. cbn [safe] in T1. rewrite En in T1. destruct T1 as (S1 & S2 & S3 & S4). cbn [step_ok] in S2. destruct S2 as (_ & _ & _ & B4 & B5 & _).
  assert (ob_st ob <> Error) as He by (intros Q; specialize (B4 Q); lia). specialize (S4 He). specialize (B5 He). specialize (Hf _ _ H).
  assert (0 <= ob_pos ob <= b) as Hb by (destruct S4 as (? & ? & _ & _ & _ & Q & _); exact Q).
  apply IH; [exact Hh'| |lia]. intros p2 st2 H2. assert (p2 = ob_pos ob) as -> by (destruct H2 as (? & ? & _ & <- & _); destruct S4 as (? & ? & _ & -> & _); reflexivity). lia.
Qed.
End Entry.
