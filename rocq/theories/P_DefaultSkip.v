From Verif Require Import Base StreamSpec P_Stream M_Sub.

Section P.
Context {St A : Type}.
Variables (o : ops St A) (content : list A) (fails : Prop) (lim : Z) (R : St -> view -> Prop).
Hypothesis HS : sim o content fails lim R.
Hypothesis Hlim : 1 <= lim.

Lemma default_skip_loop_ok fuel : forall s v n sk, R s v -> 0 <= n -> (Z.to_nat n <= fuel)%nat ->
  exists s' k, default_skip_loop (o_read o) fuel s n sk = Ret (s', k) /\
    ((fails /\ o_status o s' = Error /\ k = -2) \/
     (k = sk + Z.min n (zlen content - v_pos v) /\ exists v', R s' v' /\ v_pos v' = v_pos v + Z.min n (zlen content - v_pos v))).
Proof.
  induction fuel as [|f IH]; intros s v n sk HR Hn Hf; assert (Hv := sim_view _ _ _ _ _ HS _ _ HR); unfold view_ok in Hv.
  - assert (n = 0) as -> by lia. cbn. do 2 eexists; split; [reflexivity|]. right. split; [lia|]. exists v; split; [exact HR|lia].
  - cbn [default_skip_loop]. destruct (Z.leb_spec n 0).
    { assert (n = 0) as -> by lia. do 2 eexists; split; [reflexivity|]. right. split; [lia|]. exists v; split; [exact HR|lia]. }
    set (step := if 10000000 <? n then 10000000 else n).
    assert (1 <= step <= n /\ step <= 10000000) as Hst by (unfold step; destruct (Z.ltb_spec 10000000 n); lia).
    clearbody step.
    destruct (sim_read _ _ _ _ _ s v 1 step HS HR) as (s' & k & d & E & Hres).
    { cbn [call_ok]. unfold INT32_MAX. lia. }
    rewrite E; cbn [bind].
    destruct Hres as [[G HR']|(Q1 & Q2 & ->)].
    2:{ cbn. do 2 eexists; split; [reflexivity|]. left; tauto. }
    destruct G as (G1 & G2 & G3 & G4 & [(R1 & R2 & R3 & R4 & R5)|(R1 & R2 & R3 & R4)]); cbn [observe ob_ret ob_data ob_st next_view] in *.
    + destruct (Z.ltb_spec k (-1)); [lia|]. destruct (Z.ltb_spec k 1); [lia|]. destruct (Z.ltb_spec 0 k); [|lia].
      specialize (R4 ltac:(lia)).
      destruct (IH s' _ (n - k) (sk + k) HR') as (s'' & k' & E' & Hres); try lia. cbn [v_pos] in Hres.
      do 2 eexists; split; [exact E'|].
      destruct Hres as [Hres|(Q1 & v' & Q2 & Q3)]; [left; exact Hres|right]. split; [lia|]. exists v'; split; [exact Q2|lia].
    + subst k. cbn [Z.ltb Z.compare] in *. do 2 eexists; split; [reflexivity|]. right. split; [lia|]. eexists; split; [exact HR'|]. cbn; lia.
Qed.

Theorem default_skip_ok s v n : R s v -> 0 <= n ->
  exists s' k, default_skip (o_read o) s n = Ret (s', k) /\
    ((fails /\ o_status o s' = Error /\ k = -2) \/
     (k = Z.min n (zlen content - v_pos v) /\ exists v', R s' v' /\ v_pos v' = v_pos v + k)).
Proof.
  intros HR Hn. destruct (default_skip_loop_ok (Z.to_nat n) s v n 0 HR Hn) as (s' & k & E & Hres); [lia|].
  exists s', k. split; [exact E|]. destruct Hres as [Hres|(Q1 & Q2)]; [left; exact Hres|right]. split; [lia|].
  rewrite Q1, Z.add_0_l. exact Q2.
Qed.
End P.
