From Verif Require Import Base StreamSpec P_Stream M_Sub M_DataEvent DataEventSpec P_Sub2.

(** signature streams *)
Section Sig.
Context {P A : Type}.
Variable par : ops P A.
Lemma sig_run l : forall s, run (sig_ops par) s l = 
  match run par (sg_in s) l with
  | Ret (p, obs) => Ret (match l with [] => s | _ => mkSig p (o_pos par p) (o_size par p) (o_status par p) end, obs)
  | UB => UB | Abort => Abort | Hang => Hang end.
Proof.
  induction l as [|c l IH]; intros s; [reflexivity|].
  assert (exec (sig_ops par) s c = match exec par (sg_in s) c with
    | Ret (p, ob) => Ret (mkSig p (o_pos par p) (o_size par p) (o_status par p), ob) | UB => UB | Abort => Abort | Hang => Hang end) as E.
  { destruct c as [mn mx|k|q]; cbn [exec sig_ops o_read o_skip o_reset]; unfold sig_read, sig_skip, sig_reset.
    - destruct (o_read par (sg_in s) mn mx) as [[[p n] d]| | |]; reflexivity.
    - destruct (o_skip par (sg_in s) k) as [[p n]| | |]; reflexivity.
    - destruct (o_reset par (sg_in s) q) as [[p n]| | |]; reflexivity. }
  cbn [run]. rewrite E. destruct (exec par (sg_in s) c) as [[p ob]| | |] eqn:Ec; cbn [bind]; try reflexivity.
  destruct (is_error (ob_st ob)); [reflexivity|]. rewrite IH. cbn [sg_in]. destruct (run par p l) as [[p2 obs2]| | |] eqn:Er; cbn [bind]; try reflexivity.
  destruct l; [|reflexivity]. cbn in Er. injection Er as <- <-. reflexivity.
Qed.
End Sig.

Section DE.
Context {P A : Type}.
Variables (par : ops P A) (want : list (list A) -> bool) (content : list A) (fails : Prop) (lim : Z) (R : P -> view -> Prop).
Hypothesis HS : sim par content fails lim R.
Hypothesis Hpt : forall p v, R p v -> R p (mkView (v_pos v) (v_pos v) (v_pos v)).
Hypothesis Hsz : forall p v, R p v -> o_size par p = -1 \/ o_size par p = zlen content.
Hypothesis Hrs : forall p v q p' r, R p v -> 0 <= q <= v_pos v -> o_reset par p q = Ret (p', r) -> o_status par p' <> Error.
Hypothesis Hlim : 1 <= lim.
Hypothesis Hlen : zlen content <= INT32_MAX.

Definition lg (s : des P A) (far : Z) : Prop :=
  exists ds, de_log s = map Data ds ++ (if de_fin s then [End] else []) /\
    Forall (fun d => d <> []) ds /\ (forall i, (0 < i < length ds)%nat -> want (firstn i ds) = true) /\
    (de_fin s = true -> far = zlen content) /\
    ((de_total s = far /\ concat ds = slice content 0 far /\ (ds <> [] -> want ds = true)) \/
     (de_total s = -1 /\ ds <> [] /\ want ds = false /\ exists k, 0 <= k <= far /\ concat ds = slice content 0 k)).
Definition inv (s : des P A) (v : view) (far : Z) : Prop :=
  view_ok content v /\ R (de_in s) v /\ de_pos s = v_pos v /\ de_st s <> Error /\ (de_st s = Eof -> v_pos v = zlen content) /\
  (de_size s = -1 \/ de_size s = zlen content) /\ v_pos v <= far <= zlen content /\ lg s far.
(** after an error *)
Definition bad (s : des P A) : Prop := exists far, 0 <= far <= zlen content /\ lg s far.

Lemma pieces_map (ds : list (list A)) : pieces (map Data ds) = ds.
Proof. induction ds as [|d r IH]; [reflexivity|]. cbn. rewrite IH. reflexivity. Qed.
Lemma pieces_app (a b : list (event A)) : pieces (a ++ b) = pieces a ++ pieces b.
Proof. induction a as [|[d|] r IH]; cbn; rewrite ?IH; reflexivity. Qed.

Lemma lg_same s s' far : de_log s' = de_log s -> de_fin s' = de_fin s -> de_total s' = de_total s -> lg s far -> lg s' far.
Proof. unfold lg. intros -> -> ->. tauto. Qed.
Lemma lg_far s far far' : lg s far -> de_total s = -1 -> far <= far' -> (de_fin s = true -> far' = far) -> 0 <= far -> lg s far'.
Proof.
  intros (ds & H1 & H2 & H3 & H4 & H5) Ht Hf Hfin H0. exists ds. repeat split; try assumption.
  - intros E. rewrite (Hfin E). auto.
  - right. destruct H5 as [(Q1 & Q2 & Q3)|(Q1 & Q2 & Q3 & k & Q4 & Q5)]; [lia|]. repeat split; try assumption. exists k. split; [lia|assumption].
Qed.

Lemma de_read_ok s v far mn mx : inv s v far -> call_ok content lim (Read mn mx) ->
  exists s' n d, de_read par want s mn mx = Ret (s', n, d) /\
    ((good_obs content fails v (Read mn mx) (observe (de_ops par want) s' n d) /\
      inv s' (next_view v (Read mn mx) (observe (de_ops par want) s' n d)) (Z.max far (v_pos v + Z.max 0 n)) /\
      (n < mn -> de_fin s' = true) /\ (de_fin s = true -> de_fin s' = true))
     \/ (de_st s' = Error /\ fails /\ n = -2 /\ bad s')).
Proof.
  intros (Hv & HR & Hp & Hst & Hse & Hsi & Hfar & HL) Hc. assert (Hv' := Hv). unfold view_ok in Hv'.
  unfold de_read. destruct (sim_read _ _ _ _ _ (de_in s) v mn mx HS HR Hc) as (p & n & d & E & Hres). rewrite E; cbn [bind].
  cbn [call_ok] in Hc.
  destruct Hres as [[G HR']|(Q1 & Q2 & ->)].
  2:{ cbn. do 3 eexists; split; [reflexivity|]. right. cbn. split; [reflexivity|]. split; [assumption|]. split; [reflexivity|]. exists far. split; [lia|]. eapply lg_same; [..|exact HL]; reflexivity. }
  assert (HV' := sim_view _ _ _ _ _ HS _ _ HR').
  destruct G as (G1 & G2 & G3 & G4 & [(R1 & R2 & R3 & R4 & R5)|(R1 & R2 & R3 & R4)]); cbn [observe ob_ret ob_data ob_st ob_pos ob_size next_view] in *.
  - destruct (Z.ltb_spec n (-1)); [lia|]. destruct (Z.ltb_spec 0 n); [|lia]. cbn [v_pos v_lo v_hi] in *.
    assert (zlen d = n) as Zd by (rewrite R2; apply zlen_slice; lia).
    assert (negb (de_size s =? -1) && (de_size s <? de_pos s + n) = false) as ->.
    { destruct (Z.eqb_spec (de_size s) (-1)); [reflexivity|]. cbn [negb andb]. apply Z.ltb_ge. lia. }
    rewrite Hp.
    (* the state after reporting *)
    match goal with |- context [bind ?e _] => assert (exists t log, e =
         Ret (mkDe p t (de_fin s) (v_pos v + n) (de_size s) (de_st s) log, n, slice d 0 n) /\
         lg (mkDe p t (de_fin s) (v_pos v + n) (de_size s) (de_st s) log) (Z.max far (v_pos v + n))) as (t & log & -> & HL') end.
    { destruct HL as (ds & H1 & H2 & H3 & H4 & H5). destruct H5 as [(Q1 & Q2 & Q3)|(Q1 & Q2 & Q3 & k & Q4 & Q5)].
      - destruct (Z.eqb_spec (de_total s) (-1)); [lia|]. cbn [negb andb]. destruct (Z.ltb_spec (de_total s) (v_pos v + n)).
        + rewrite Q1 in *. cbv zeta. set (am := v_pos v + n - far). destruct (Z.ltb_spec n am); [lia|].
          assert (de_fin s = false) as Hfin by (destruct (de_fin s); [specialize (H4 eq_refl); lia|reflexivity]).
          set (dd := slice d (n - am) am). assert (pieces (de_log s ++ [Data dd]) = ds ++ [dd]) as Hpc.
          { rewrite H1, Hfin, app_nil_r, pieces_app, pieces_map. reflexivity. }
          assert (slice content far am = dd) as Hdd.
          { unfold dd. rewrite R2. rewrite slice_slice by lia. f_equal. lia. }
          assert (zlen dd = am) as Zdd by (rewrite <- Hdd; apply zlen_slice; lia).
          exists (if want (pieces (de_log s ++ [Data dd])) then v_pos v + n else -1), (de_log s ++ [Data dd]).
          split; [reflexivity|]. exists (ds ++ [dd]). cbn [de_log de_fin de_total]. rewrite Hpc, Hfin in *.
          split; [rewrite H1, map_app, !app_nil_r; reflexivity|].
          split; [apply Forall_app; split; [assumption|constructor; [|constructor]]; intros ->; change (zlen (@nil A)) with 0 in Zdd; lia|].
          split.
          { intros i Hi. rewrite app_length in Hi; cbn in Hi. destruct (Nat.eq_dec i (length ds)) as [->|Hne].
            - rewrite firstn_app, firstn_all, Nat.sub_diag. cbn. rewrite app_nil_r. apply Q3. intros ->; cbn in Hi; lia.
            - rewrite firstn_app. replace (i - length ds)%nat with 0%nat by lia. cbn. rewrite app_nil_r. apply H3. lia. }
          split; [discriminate|].
          rewrite Z.max_r by lia. assert (concat (ds ++ [dd]) = slice content 0 (v_pos v + n)) as Hcc.
          { rewrite concat_app, Q2. cbn. rewrite app_nil_r, <- Hdd. change far with (0 + far) at 2. rewrite slice_app by lia. f_equal. lia. }
          destruct (want (ds ++ [dd])) eqn:Ew.
          * left. split; [reflexivity|]. split; [exact Hcc|]. intros; reflexivity.
          * right. split; [reflexivity|]. split; [destruct ds; discriminate|]. split; [reflexivity|]. exists (v_pos v + n). split; [lia|exact Hcc].
        + do 2 eexists; split; [reflexivity|]. exists ds. cbn [de_log de_fin de_total]. rewrite Z.max_l by lia. repeat (split; [assumption|]). left. auto.
      - rewrite Q1. cbn [Z.eqb Pos.eqb negb andb]. do 2 eexists; split; [reflexivity|]. exists ds. cbn [de_log de_fin de_total].
        repeat (split; [assumption|]). split; [intros Ef; specialize (H4 Ef); lia|]. right. repeat split; try assumption. exists k. split; [lia|assumption]. }
    cbn [bind de_pos de_size de_total de_fin de_log de_in].
    assert (slice d 0 n = d) as Hd by (rewrite <- Zd; apply slice_all). rewrite Hd.
    destruct (Z.ltb_spec n mn).
    + assert (v_pos v + n = zlen content) as Hend by lia.
      replace (if de_size s =? -1 then v_pos v + n else de_size s) with (zlen content) by (destruct (Z.eqb_spec (de_size s) (-1)); lia).
      destruct (Z.eqb_spec (zlen content) (v_pos v + n)); [|lia]. cbn [negb].
      assert ((t =? -1) || (t =? zlen content) = true) as ->.
      { destruct HL' as (ds & _ & _ & _ & _ & [(Q1 & _)|(Q1 & _)]); cbn [de_total] in Q1; rewrite Q1, ?orb_true_iff, ?Z.eqb_eq; [right|]; lia. }
      cbn [negb]. do 3 eexists; split; [reflexivity|]. left.
      cbn [observe ob_ret ob_data ob_st ob_pos ob_size o_pos o_size o_status de_ops de_pos de_size de_st de_fin].
      destruct (Z.ltb_spec 0 n); [|lia]. rewrite !Z.max_r by lia.
      split; [|split; [|split; [auto|auto]]].
      * unfold good_obs. cbn [observe o_pos o_size o_status de_ops de_pos de_size de_st de_fin ob_ret ob_data ob_st ob_pos ob_size next_view]. destruct (Z.ltb_spec 0 n); [|lia]. cbn [v_pos].
        split; [discriminate|]. split; [intros; lia|]. split; [reflexivity|]. split; [right; right; lia|]. left. repeat split; try assumption.
      * unfold inv. cbn [next_view observe ob_ret de_in de_pos de_st de_size v_pos v_lo v_hi]. cbn [v_pos v_lo v_hi].
        split; [exact HV'|]. split; [exact HR'|]. split; [reflexivity|]. split; [discriminate|]. split; [intros; lia|]. split; [right; reflexivity|]. split; [lia|].
        rewrite Z.max_r in HL' by lia.
        destruct HL' as (ds & J1 & J2 & J3 & J4 & J5). exists ds. cbn [de_log de_fin de_total] in *.
        split; [destruct (de_fin s); rewrite J1; [reflexivity|rewrite app_nil_r; reflexivity]|]. repeat (split; [assumption|]). split; [intros; lia|exact J5].
    + do 3 eexists; split; [reflexivity|]. left.
      cbn [observe ob_ret ob_data ob_st ob_pos ob_size o_pos o_size o_status de_ops de_pos de_size de_st de_fin].
      destruct (Z.ltb_spec 0 n); [|lia]. rewrite (Z.max_r 0 n) by lia.
      split; [|split; [|split; [lia|auto]]].
      * unfold good_obs. cbn [observe o_pos o_size o_status de_ops de_pos de_size de_st de_fin ob_ret ob_data ob_st ob_pos ob_size next_view]. destruct (Z.ltb_spec 0 n); [|lia]. cbn [v_pos].
        split; [assumption|]. split; [intros Ee; specialize (Hse Ee); lia|]. split; [reflexivity|]. split; [right; exact Hsi|]. left. repeat split; try assumption.
      * unfold inv. cbn [next_view observe ob_ret de_in de_pos de_st de_size v_pos v_lo v_hi].
        split; [exact HV'|]. split; [exact HR'|]. split; [reflexivity|]. split; [assumption|]. split; [intros Ee; specialize (Hse Ee); lia|]. split; [exact Hsi|]. split; [lia|].
        exact HL'.
  - subst n. cbn [Z.ltb Z.compare v_pos v_lo v_hi bind de_pos de_size de_total de_fin de_log de_in] in *.
    destruct (Z.ltb_spec (-1) mn); [|lia]. rewrite Hp.
    replace (if de_size s =? -1 then v_pos v else de_size s) with (zlen content) by (destruct (Z.eqb_spec (de_size s) (-1)); lia).
    destruct (Z.eqb_spec (zlen content) (v_pos v)); [|lia]. cbn [negb].
    assert ((de_total s =? -1) || (de_total s =? zlen content) = true) as ->.
    { destruct HL as (ds & _ & _ & _ & _ & [(Q1 & _)|(Q1 & _)]); rewrite Q1, ?orb_true_iff, ?Z.eqb_eq; [right|]; lia. }
    cbn [negb]. do 3 eexists; split; [reflexivity|]. left.
    cbn [observe ob_ret ob_data ob_st ob_pos ob_size o_pos o_size o_status de_ops de_pos de_size de_st de_fin Z.ltb Z.compare].
    split; [|split; [|split; auto]].
    * unfold good_obs. cbn [observe o_pos o_size o_status de_ops de_pos de_size de_st de_fin ob_ret ob_data ob_st ob_pos ob_size next_view Z.ltb Z.compare v_pos].
      split; [discriminate|]. split; [intros; lia|]. split; [reflexivity|]. split; [right; right; reflexivity|]. right. repeat split; try assumption.
    * unfold inv. cbn [next_view observe ob_ret de_in de_pos de_st de_size v_pos v_lo v_hi].
      split; [exact HV'|]. split; [exact HR'|]. split; [reflexivity|]. split; [discriminate|]. split; [intros; lia|]. split; [right; reflexivity|].
      rewrite Z.max_l by lia. split; [lia|].
      destruct HL as (ds & J1 & J2 & J3 & J4 & J5). exists ds. cbn [de_log de_fin de_total] in *.
      split; [destruct (de_fin s); rewrite J1; [reflexivity|rewrite app_nil_r; reflexivity]|]. repeat (split; [assumption|]). split; [intros; lia|exact J5].
Qed.

Lemma de_skip_loop_ok fuel : forall s v far n sk, inv s v far -> 0 <= n -> (Z.to_nat n <= fuel)%nat ->
  exists s' k, default_skip_loop (de_read par want) fuel s n sk = Ret (s', k) /\
    ((fails /\ de_st s' = Error /\ k = -2 /\ bad s') \/
     (let m := Z.min n (zlen content - v_pos v) in k = sk + m /\ exists v', v_pos v' = v_pos v + m /\ inv s' v' (Z.max far (v_pos v + m)) /\
       (de_fin s = true -> de_fin s' = true))).
Proof.
  cbv zeta. induction fuel as [|f IH]; intros s v far n sk HI Hn Hf; assert (Hv : view_ok content v) by apply HI; unfold view_ok in Hv;
    assert (Hfar : v_pos v <= far <= zlen content) by apply HI.
  - assert (n = 0) as -> by lia. cbn. do 2 eexists; split; [reflexivity|]. right. split; [lia|]. exists v. rewrite Z.min_l, Z.add_0_r, Z.max_l by lia. auto.
  - cbn [default_skip_loop]. destruct (Z.leb_spec n 0).
    { assert (n = 0) as -> by lia. do 2 eexists; split; [reflexivity|]. right. split; [lia|]. exists v. rewrite Z.min_l, Z.add_0_r, Z.max_l by lia. auto. }
    set (step := if 10000000 <? n then 10000000 else n).
    assert (1 <= step <= n /\ step <= 10000000) as Hst by (unfold step; destruct (Z.ltb_spec 10000000 n); lia).
    clearbody step.
    destruct (de_read_ok s v far 1 step HI) as (s' & k & d & E & Hres).
    { cbn [call_ok]. unfold INT32_MAX. lia. }
    rewrite E; cbn [bind].
    destruct Hres as [(G & HI' & _ & Hfm)|(Q1 & Q2 & -> & Q4)].
    2:{ cbn. do 2 eexists; split; [reflexivity|]. left; tauto. }
    destruct G as (G1 & G2 & G3 & G4 & [(R1 & R2 & R3 & R4 & R5)|(R1 & R2 & R3 & R4)]); cbn [observe ob_ret ob_data ob_st next_view] in *.
    + destruct (Z.ltb_spec k (-1)); [lia|]. destruct (Z.ltb_spec k 1); [lia|]. destruct (Z.ltb_spec 0 k); [|lia].
      specialize (R4 ltac:(lia)). rewrite (Z.max_r 0 k) in HI' by lia.
      destruct (IH s' _ _ (n - k) (sk + k) HI') as (s'' & k' & E' & Hres); try lia. cbn [v_pos] in Hres.
      do 2 eexists; split; [exact E'|].
      destruct Hres as [Hres|(Q1 & v' & Q2 & Q3 & Q4)]; [left; exact Hres|right]. split; [lia|]. exists v'; split; [lia|].
      split; [|auto]. replace (Z.max far (v_pos v + Z.min n (zlen content - v_pos v))) with (Z.max (Z.max far (v_pos v + k)) (v_pos v + k + Z.min (n - k) (zlen content - (v_pos v + k)))) by lia. exact Q3.
    + subst k. cbn [Z.ltb Z.compare] in *. do 2 eexists; split; [reflexivity|]. right. split; [lia|]. eexists; split; [|split; [|exact Hfm]].
      2:{ replace (Z.max far (v_pos v + Z.min n (zlen content - v_pos v))) with (Z.max far (v_pos v + Z.max 0 (-1))) by lia. exact HI'. }
      cbn; lia.
Qed.

(** skip, towards a position inside the content or beyond *)
Lemma de_skip_ok s v far n : inv s v far -> 0 <= n <= INT32_MAX ->
  exists s' k, de_skip par want s n = Ret (s', k) /\
    ((de_st s' = Error /\ (fails \/ (0 < n /\ v_pos v = zlen content)) /\ (fails \/ de_pos s' = v_pos v \/ True) /\ bad s') \/
     (((0 <= k <= n /\ v_pos v + k <= zlen content /\ (k = n \/ v_pos v + k = zlen content)) \/ (k = -1 /\ v_pos v = zlen content)) /\
      let q := v_pos v + Z.max 0 k in inv s' (mkView q q q) (Z.max far q) /\ (de_fin s = true -> de_fin s' = true))).
Proof.
  intros HI Hn. assert (HI' := HI). destruct HI' as (Hv & HR & Hp & Hst & Hse & Hsi & Hfar & HL). assert (Hv' := Hv). unfold view_ok in Hv'.
  unfold de_skip. destruct (Z.eqb_spec (de_total s) (-1)) as [Et|Et].
  - destruct (sim_skip _ _ _ _ _ (de_in s) v n HS HR Hn) as (p & k & E & Hres). rewrite E; cbn [bind].
    do 2 eexists; split; [reflexivity|]. destruct Hres as [[G HR']|(Q1 & Q2)].
    + right. destruct G as (G1 & G2 & G3 & G4 & G5). cbn [observe ob_ret ob_data ob_st ob_pos ob_size next_view v_pos] in *.
      split; [exact G5|]. cbv zeta. split; [|cbn; auto]. assert (HV' := sim_view _ _ _ _ _ HS _ _ HR').
      unfold inv. cbn [next_view observe ob_ret de_in de_pos de_st de_size v_pos v_lo v_hi]. split; [exact HV'|]. split; [exact HR'|]. split; [exact G3|].
      split; [exact G1|]. split; [exact G2|]. split; [eapply Hsz; exact HR'|]. split; [unfold view_ok in HV'; cbn in HV'; lia|].
      apply lg_same with (s := s); try reflexivity. apply (lg_far s far); [exact HL|exact Et|lia| |lia]. intros Ef. destruct HL as (ds & _ & _ & _ & H4 & _).
      specialize (H4 Ef). unfold view_ok in HV'; cbn in HV'. lia.
    + left. cbn [de_st de_pos]. split; [exact Q1|]. split; [exact Q2|]. split; [tauto|]. exists far. split; [lia|]. apply lg_same with (s := s); [reflexivity..|exact HL].
  - unfold default_skip. destruct (de_skip_loop_ok (Z.to_nat n) s v far n 0 HI) as (s' & k & E & Hres); [lia|lia|].
    do 2 eexists; split; [exact E|]. destruct Hres as [(Q1 & Q2 & Q3 & Q4)|(Q1 & v' & Q2 & Q3 & Q4)]; [left; tauto|right].
    split; [left; lia|]. cbv zeta. rewrite (Z.max_r 0 k) by lia. rewrite Q1, Z.add_0_l. rewrite <- Q2. split; [|exact Q4].
    rewrite <- Q2 in Q3. destruct Q3 as (V1 & V2 & V3 & V4 & V5 & V6 & V7 & V8). unfold inv. cbn [v_pos v_lo v_hi].
    assert (V2' := Hpt _ _ V2). split; [exact (sim_view _ _ _ _ _ HS _ _ V2')|]. repeat (split; [assumption|]). assumption.
Qed.

Lemma de_exec_ok s v far c : inv s v far -> call_ok content lim c ->
  exists s' ob, exec (de_ops par want) s c = Ret (s', ob) /\
    ((good_obs content fails v c ob /\ inv s' (next_view_fwd v c ob) (Z.max far (ob_pos ob)) /\
      (match c with Read mn _ => ob_ret ob < mn -> de_fin s' = true | _ => True end) /\ (de_fin s = true -> de_fin s' = true))
     \/ (bad_obs content fails v c ob /\ bad s')).
Proof.
  intros HI Hc. assert (HI' := HI). destruct HI' as (Hv & HR & Hp & Hst & Hse & Hsi & Hfar & HL). assert (Hv' := Hv). unfold view_ok in Hv'.
  destruct c as [mn mx|n|q]; cbn [exec de_ops o_read o_skip o_reset].
  - destruct (de_read_ok s v far mn mx HI Hc) as (s' & n & d & E & Hres). rewrite E; cbn [bind]. do 2 eexists; split; [reflexivity|].
    destruct Hres as [(G & Hi & H1 & H2)|(Q1 & Q2 & Q3 & Q4)].
    + left. split; [exact G|]. split; [|split; [exact H1|exact H2]]. cbn [next_view_fwd].
      assert (ob_pos (observe (de_ops par want) s' n d) = v_pos v + Z.max 0 n) as ->; [|exact Hi].
      destruct G as (_ & _ & G3 & _). rewrite G3. cbn [next_view observe ob_ret]. destruct (Z.ltb_spec 0 n); cbn [v_pos]; lia.
    + right. split; [|exact Q4]. split; [exact Q1|]. cbn. tauto.
  - destruct (de_skip_ok s v far n HI Hc) as (s' & k & E & Hres). rewrite E; cbn [bind]. do 2 eexists; split; [reflexivity|].
    destruct Hres as [(Q1 & Q2 & _ & Q4)|(Q1 & Q2 & Q3)].
    + right. split; [|exact Q4]. split; [exact Q1|]. exact Q2.
    + cbv zeta in Q2. left. destruct Q2 as (V1 & V2 & V3 & V4 & V5 & V6 & V7 & V8). cbn [v_pos v_lo v_hi] in *.
      split.
      * unfold good_obs. cbn [observe ob_ret ob_data ob_st ob_pos ob_size next_view v_pos o_pos o_size o_status de_ops]. repeat split; try assumption. right; exact V6.
      * split; [|split; [exact I|exact Q3]]. cbn [next_view_fwd next_view observe ob_ret ob_pos o_pos de_ops]. rewrite V3.
        unfold inv. cbn [v_pos v_lo v_hi]. repeat (split; [assumption|]). assumption.
  - cbn [call_ok] in Hc. unfold de_reset. rewrite Hp. destruct (Z.ltb_spec (v_pos v) q) as [Hq|Hq].
    + destruct (de_skip_ok s v far (q - v_pos v) HI) as (s' & k & E & Hres); [lia|]. rewrite E; cbn [bind]. do 2 eexists; split; [reflexivity|].
      destruct Hres as [(Q1 & Q2 & _ & Q4)|(Q1 & Q2 & Q3)].
      * right. split; [|exact Q4]. split; [exact Q1|]. destruct Q2; [assumption|lia].
      * cbv zeta in Q2. left. destruct Q2 as (V1 & V2 & V3 & V4 & V5 & V6 & V7 & V8). cbn [v_pos v_lo v_hi] in *.
        assert (v_pos v + Z.max 0 k = q) as Hk by lia. rewrite Hk in *.
        split.
        -- unfold good_obs. cbn [observe ob_ret ob_data ob_st ob_pos ob_size next_view v_pos o_pos o_size o_status de_ops]. rewrite V3.
           assert (v_pos (if (v_lo v <=? q) && (q <=? v_hi v) then mkView q (v_lo v) (v_hi v) else mkView q q q) = q) as -> by (destruct (_ && _); reflexivity).
           repeat split; try assumption; try lia; right; exact V6.
        -- split; [|split; [exact I|exact Q3]]. cbn [next_view_fwd observe ob_ret ob_pos o_pos de_ops]. rewrite V3.
           destruct (Z.ltb_spec (v_pos v) q); [|lia]. unfold inv. cbn [v_pos v_lo v_hi]. repeat (split; [assumption|]). assumption.
    + destruct (sim_reset _ _ _ _ _ (de_in s) v q HS HR) as (p & r & E & Hres); [lia|]. rewrite E; cbn [bind]. do 2 eexists; split; [reflexivity|].
      destruct Hres as [[G HR']|(Q1 & Q2)].
      * left. destruct G as (G1 & G2 & G3 & G4 & G5 & G6). cbn [observe ob_ret ob_data ob_st ob_pos ob_size] in *.
        set (nv := next_view v (Reset q) (observe par p r [])) in *.
        assert (forall ob : obs A, ob_ret ob = r -> next_view v (Reset q) ob = nv) as Hnv by (intros ob Eo; unfold nv; cbn [next_view observe ob_ret]; rewrite Eo; reflexivity).
        assert (HV' := sim_view _ _ _ _ _ HS _ _ HR'). 
        assert (0 <= r <= v_pos v) as Hr by lia.
        destruct (Z.ltb_spec r 0); [lia|].
        assert ((if r =? de_size s then Eof else Ok) <> Error) as N1 by (destruct (r =? de_size s); discriminate).
        assert ((if r =? de_size s then Eof else Ok) = Eof -> v_pos nv = zlen content) as N2.
        { destruct (Z.eqb_spec r (de_size s)); [|discriminate]. intros _. lia. }
        split; [|split; [|split; [exact I|auto]]].
        -- unfold good_obs. rewrite Hnv by reflexivity. cbn [observe ob_ret ob_data ob_st ob_pos ob_size o_pos o_size o_status de_ops de_st de_pos de_size].
           split; [exact N1|]. split; [exact N2|]. split; [lia|]. split; [right; exact Hsi|]. split; lia.
        -- cbn [next_view_fwd]. destruct (Z.ltb_spec (v_pos v) q); [lia|]. rewrite Hnv by reflexivity. cbn [observe ob_pos o_pos de_ops de_pos].
           rewrite Z.max_l by lia. unfold inv. cbn [next_view observe ob_ret de_in de_pos de_st de_size]. split; [exact HV'|]. split; [exact HR'|]. split; [lia|].
           split; [exact N1|]. split; [exact N2|]. split; [exact Hsi|]. split; [lia|]. apply lg_same with (s := s); [reflexivity..|exact HL].
      * exfalso. exact (Hrs _ _ q _ _ HR ltac:(lia) E Q1).
Qed.

Lemma de_run_ok l : forall s v far, inv s v far -> Forall (call_ok content lim) l ->
  exists s' obs, run (de_ops par want) s l = Ret (s', obs) /\ accepts_fwd content fails v l obs /\ ((bad s' /\ ~ Forall (fun ob => ob_st ob <> Error) obs) \/ (Forall (fun ob => ob_st ob <> Error) obs /\ exists v', inv s' v' (fold_left (fun m ob => Z.max m (ob_pos ob)) obs far) /\
       (de_fin s = true \/ short_read l obs = true -> de_fin s' = true))).
Proof.
  induction l as [|c l IH]; intros s v far HI Hl.
  - cbn. do 2 eexists; split; [reflexivity|]. split; [exact I|]. right. split; [constructor|]. exists v. split; [exact HI|]. intros [?|?]; [assumption|discriminate].
  - inversion Hl as [|? ? Hc Hl']; subst. destruct (de_exec_ok s v far c HI Hc) as (s1 & ob & E & [(G & HI1 & H1 & H2)|(B & B2)]); cbn [run]; rewrite E; cbn [bind].
    + assert (ob_st ob <> Error) as Hne by apply G. rewrite (is_error_false _ Hne).
      destruct (IH s1 _ _ HI1 Hl') as (s2 & obs & E2 & Hacc & Hres). rewrite E2; cbn [bind]. do 2 eexists; split; [reflexivity|].
      split; [cbn [accepts_fwd]; rewrite (is_error_false _ Hne); split; assumption|].
      destruct Hres as [(Hres & Hne2)|(F & v' & Hi & Hsh)]; [left; split; [exact Hres|intros HF; apply Hne2; inversion HF; assumption]|right]. split; [constructor; assumption|]. exists v'. split; [exact Hi|].
      intros [Hf|Hf]; apply Hsh; [left; auto|]. cbn [short_read] in Hf. destruct c as [mn mx|k|q]; [|right; exact Hf|right; exact Hf].
      apply orb_true_iff in Hf as [Hf|Hf]; [left|right; exact Hf]. apply andb_true_iff in Hf as (Hf & _). apply Z.ltb_lt in Hf. auto.
    + assert (ob_st ob = Error) as Hst by apply B. rewrite Hst; cbn [is_error]. do 2 eexists; split; [reflexivity|]. split; [|left; split; [exact B2|intros HF; inversion HF; congruence]].
      cbn [accepts_fwd]. rewrite Hst; cbn [is_error]. split; [exact B|reflexivity].
Qed.
End DE.
