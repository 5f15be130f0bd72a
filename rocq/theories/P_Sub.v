From Verif Require Import Base StreamSpec P_Stream M_Sub.

Lemma wrap32_range' z : INT32_MIN <= wrap32 z <= INT32_MAX /\ (0 <= z -> wrap32 z <= z).
Proof.
  unfold wrap32, INT32_MIN, INT32_MAX. pose proof (Z.mod_pos_bound z 4294967296 ltac:(lia)). pose proof (Z.mod_le z 4294967296).
  destruct (Z.ltb_spec (z mod 4294967296) 2147483648); lia.
Qed.

Section P.
Context {P A : Type}.
Variables (par : ops P A) (content : list A) (fails : Prop) (lim : Z) (R : P -> view -> Prop).
Hypothesis HS : sim par content fails lim R.
(** the substream starts at [off]; [n] is the requested size, -1 for none *)
Variables (off n : Z).
Hypothesis Hoff : 0 <= off <= zlen content.

Definition sub_content : list A := slice content off (if n =? -1 then zlen content - off else n).
Definition sub_fails : Prop := fails \/ zlen content - off < n.

Hypothesis Hn : n = -1 \/ 0 <= n.
Hypothesis Hn1 : n = -1 -> 0 < zlen content - off.
(** no read of the parent returns more than an int32_t can hold *)
Definition ret32 : Prop := forall p v mn mx p' k d, R p v -> 1 <= mn <= lim -> mn <= INT32_MAX -> INT32_MIN <= mx <= 0 -> o_read par p mn mx = Ret (p', k, d) -> k <= INT32_MAX.
(** the parent follows the documentation also for 0 < max < min: no limit *)
Definition no_limit : Prop := forall p v mn mx, R p v -> 0 < mx < mn -> o_read par p mn mx = o_read par p mn 0.
(** calls that work also for large substreams *)
Definition fits (c : call) : Prop := (n <= INT32_MAX /\ (n = -1 -> zlen content - off <= INT32_MAX)) \/
  match c with Read mn mx => mn <= mx \/ ret32 /\ (mn = 1 \/ no_limit) | _ => True end.

Lemma sub_len : zlen sub_content = if n =? -1 then zlen content - off else Z.min n (zlen content - off).
Proof. unfold sub_content. destruct (Z.eqb_spec n (-1)); rewrite zlen_slice_min; lia0. Qed.

Definition sub_R (s : sub P) (v : view) : Prop :=
  view_ok sub_content v /\ su_off s = off /\ su_pos s = v_pos v /\ su_st s <> Error /\
  (su_st s = Eof -> v_pos v = zlen sub_content) /\
  (n <> -1 -> su_size s = n) /\ (n = -1 -> su_size s = -1 \/ su_size s = zlen sub_content) /\
  exists vp, R (su_par s) vp /\ v_pos vp = off + v_pos v /\ v_lo vp <= off + v_lo v /\ off + v_hi v <= v_hi vp.

Lemma sub_slice p k : 0 <= p -> p + k <= zlen sub_content -> slice content (off + p) k = slice sub_content p k.
Proof. intros H1 H2. rewrite sub_len in H2. unfold sub_content. symmetry. destruct (Z.eqb_spec n (-1)); apply slice_slice; lia0. Qed.

Lemma sub_body_step s v mn mx mn' mx' : sub_R s v -> 1 <= mn' <= lim -> mn' <= INT32_MAX ->
  (mn' <= mx' <= INT32_MAX \/ INT32_MIN <= mx' <= 0) -> 1 <= mn ->
  (su_size s <> -1 -> 0 < su_size s - v_pos v /\ mn' = Z.min mn (su_size s - v_pos v) /\ (mn' <= mx' <= su_size s - v_pos v \/ mx' <= 0 /\ INT32_MAX <= su_size s - v_pos v /\ ret32) /\ (mn <= mx -> mn' <= mx' <= mx)) ->
  (su_size s = -1 -> mn' = mn /\ mx' = mx) ->
  exists s' k d, sub_read_body par s mn' mx' = Ret (s', k, d) /\
    let ob := observe (sub_ops par) s' k d in
    ((good_obs sub_content sub_fails v (Read mn mx) ob /\ sub_R s' (next_view v (Read mn mx) ob)) \/
     bad_obs sub_content sub_fails v (Read mn mx) ob).
Proof.
  intros (Hv & Ho & Hp & Hst & Hf & Hz & Hz1 & vp & HR & Vp & Vl & Vh) L1 L1' L2 L3 Hk Hu.
  pose proof sub_len as SL. assert (Hv' := Hv). unfold view_ok in Hv'.
  unfold sub_read_body.
  destruct (sim_read par content fails lim R (su_par s) vp mn' mx' HS HR) as (p & k & d & E & Hres).
  { cbn [call_ok]. lia0. }
  rewrite E; cbn [bind].
  assert (su_size s <> -1 -> 0 < su_size s - v_pos v /\ mn' = Z.min mn (su_size s - v_pos v) /\ (mn' <= mx' -> mx' <= su_size s - v_pos v) /\
    (k <= mx' \/ mx' < mn' -> k <= su_size s - v_pos v) /\ (mn <= mx -> mn' <= mx' <= mx)) as Hk'.
  { intros Es. destruct (Hk Es) as (K1 & K2 & K3 & K4). split; [exact K1|]. split; [exact K2|]. split; [lia0|]. split; [|exact K4]. intros Hkm.
    destruct K3 as [K3|(K3 & K5 & K6)]; [lia0|]. assert (INT32_MIN <= mx' <= 0) as Lm by (destruct L2; lia0). pose proof (K6 _ _ _ _ _ _ _ HR L1 L1' Lm E). lia0. }
  clear Hk. rename Hk' into Hk.
  destruct Hres as [[G HR']|(Q1 & Q2 & Q3)].
  2:{ subst k. destruct (Z.ltb_spec mx' mn'), (Z.leb_spec (-2) mx'); cbn [orb negb]; try lia0;
      cbn; do 3 eexists; (split; [reflexivity|]); right; unfold bad_obs, sub_fails; cbn; tauto. }
  destruct G as (G1 & G2 & G3 & G4 & [(R1 & R2 & R3 & R4 & R5)|(R1 & R2 & R3 & R4)]);
    cbn [observe ob_ret ob_data ob_st ob_pos ob_size next_view] in *.
  - destruct (Z.ltb_spec 0 k); [|lia0]. cbn [v_pos] in *.
    replace (negb _) with false.
    2:{ symmetry; apply negb_false_iff; apply orb_true_iff. rewrite Z.ltb_lt, Z.leb_le. lia0. }
    destruct (Z.ltb_spec k (-1)); [lia0|].
    destruct (Z.ltb_spec k mn').
    + destruct (Z.eqb_spec (su_size s) (-1)) as [Es|Es].
      * do 3 eexists; split; [reflexivity|]. left. cbv zeta.
        assert (n = -1) as En by (destruct (Z.eq_dec n (-1)); [assumption|specialize (Hz ltac:(assumption)); lia0]).
        rewrite En in SL. cbn [Z.eqb Pos.eqb] in SL.
        unfold good_obs. cbn [observe ob_ret ob_data ob_st ob_pos ob_size o_pos o_size o_status sub_ops next_view su_pos su_size su_st].
        destruct (Z.ltb_spec 0 k); [|lia0]. cbn [v_pos]. rewrite Hp. specialize (Hu Es).
        split.
        -- split; [congruence|]. split; [intros; lia0|]. split; [reflexivity|]. split; [right; right; lia0|].
           left. split; [lia0|]. split; [rewrite R2, Vp; apply sub_slice; lia0|]. split; [lia0|]. split; [lia0|lia0].
        -- unfold sub_R. cbn [su_off su_pos su_st su_size su_par v_pos v_lo v_hi]. unfold view_ok; cbn [v_pos v_lo v_hi].
           split; [lia0|]. split; [exact Ho|]. split; [reflexivity|]. split; [congruence|]. split; [lia0|].
           split; [congruence|]. split; [intros; right; lia0|].
           eexists; split; [exact HR'|]. cbn [v_pos v_lo v_hi]. lia0.
      * do 3 eexists; split; [reflexivity|]. right. unfold bad_obs, sub_fails; cbn. split; [reflexivity|]. split; [|reflexivity].
        specialize (Hk Es). destruct (Z.eqb_spec n (-1)) as [En|En].
        -- destruct (Hz1 En); lia0.
        -- specialize (Hz En). right. lia0.
    + do 3 eexists; split; [reflexivity|]. left. cbv zeta.
      assert (v_pos v + k <= zlen sub_content) as Hin.
      { destruct (Z.eqb_spec (su_size s) (-1)) as [Es|Es].
        - assert (n = -1) as En by (destruct (Z.eq_dec n (-1)); [assumption|specialize (Hz ltac:(assumption)); lia0]).
          rewrite En in SL. cbn [Z.eqb Pos.eqb] in SL. lia0.
        - specialize (Hk Es). destruct (Z.eqb_spec n (-1)) as [En|En].
          + destruct (Hz1 En); lia0.
          + specialize (Hz En). lia0. }
      assert (mn <= k \/ v_pos v + k = zlen sub_content) as Hge.
      { destruct (Z.eqb_spec (su_size s) (-1)) as [Es|Es].
        - specialize (Hu Es). left; lia0.
        - specialize (Hk Es). destruct (Z.eqb_spec n (-1)) as [En|En].
          + destruct (Hz1 En); lia0.
          + specialize (Hz En). lia0. }
      assert (mn <= mx -> k <= mx) as Hle.
      { intros Hm. destruct (Z.eq_dec (su_size s) (-1)) as [Es|Es]; [specialize (Hu Es)|specialize (Hk Es)]; lia0. }
      assert (v_pos v + k = su_size s -> v_pos v + k = zlen sub_content) as Heof.
      { intros He. destruct (Z.eqb_spec n (-1)) as [En|En].
        - destruct (Hz1 En); lia0.
        - specialize (Hz En). lia0. }
      assert (su_st s = Eof -> v_pos v + k = zlen sub_content) as Heof2.
      { intros He. specialize (Hf He). lia0. }
      unfold good_obs. cbn [observe ob_ret ob_data ob_st ob_pos ob_size o_pos o_size o_status sub_ops next_view su_pos su_size su_st].
      destruct (Z.ltb_spec 0 k); [|lia0]. cbn [v_pos]. rewrite Hp.
      assert ((if v_pos v + k =? su_size s then Eof else su_st s) <> Error) as Hne by (destruct (v_pos v + k =? su_size s); congruence).
      assert ((if v_pos v + k =? su_size s then Eof else su_st s) = Eof -> v_pos v + k = zlen sub_content) as Hee.
      { destruct (Z.eqb_spec (v_pos v + k) (su_size s)); [intros; apply Heof; assumption|exact Heof2]. }
      split.
      * split; [exact Hne|]. split; [exact Hee|]. split; [reflexivity|]. split.
        -- destruct (Z.eqb_spec n (-1)) as [En|En]; [right; apply Hz1; exact En|].
           specialize (Hz En). unfold sub_fails. destruct (Z.lt_ge_cases (zlen content - off) n); [left; right; lia0|right; right; lia0].
        -- left. split; [lia0|]. split; [rewrite R2, Vp; apply sub_slice; lia0|]. split; [lia0|]. split; assumption.
      * unfold sub_R. cbn [su_off su_pos su_st su_size su_par v_pos v_lo v_hi]. unfold view_ok; cbn [v_pos v_lo v_hi].
        split; [lia0|]. split; [exact Ho|]. split; [reflexivity|]. split; [exact Hne|]. split; [exact Hee|].
        split; [exact Hz|]. split; [exact Hz1|].
        eexists; split; [exact HR'|]. cbn [v_pos v_lo v_hi]. lia0.
  - subst k. cbn [Z.ltb Z.compare v_pos] in *.
    replace (negb _) with false.
    2:{ symmetry; apply negb_false_iff; apply orb_true_iff. rewrite Z.ltb_lt, Z.leb_le. lia0. }
    destruct (Z.ltb_spec (-1) mn'); [|lia0].
    destruct (Z.eqb_spec (su_size s) (-1)) as [Es|Es].
    + do 3 eexists; split; [reflexivity|]. left. cbv zeta.
      assert (n = -1) as En by (destruct (Z.eq_dec n (-1)); [assumption|specialize (Hz ltac:(assumption)); lia0]).
      rewrite En in SL. cbn [Z.eqb Pos.eqb] in SL.
      unfold good_obs. cbn [observe ob_ret ob_data ob_st ob_pos ob_size o_pos o_size o_status sub_ops next_view su_pos su_size su_st Z.ltb Z.compare v_pos].
      split.
      * split; [congruence|]. split; [intros; lia0|]. split; [exact Hp|]. split; [right; left; exact Es|].
        right. split; [reflexivity|]. split; [exact R2|]. split; [lia0|reflexivity].
      * unfold sub_R. cbn [su_off su_pos su_st su_size su_par v_pos v_lo v_hi]. unfold view_ok; cbn [v_pos v_lo v_hi].
        split; [lia0|]. split; [exact Ho|]. split; [exact Hp|]. split; [congruence|]. split; [lia0|].
        split; [congruence|]. split; [intros; left; exact Es|].
        eexists; split; [exact HR'|]. cbn [v_pos v_lo v_hi]. lia0.
    + do 3 eexists; split; [reflexivity|]. right. unfold bad_obs, sub_fails; cbn. split; [reflexivity|]. split; [|reflexivity].
      specialize (Hk Es). destruct (Z.eqb_spec n (-1)) as [En|En].
      * destruct (Hz1 En); lia0.
      * specialize (Hz En). right. lia0.
Qed.

Lemma sub_step s v c : sub_R s v -> call_ok sub_content lim c -> fits c -> step_sim (sub_ops par) sub_content sub_fails sub_R s v c.
Proof.
  pose proof sub_len as SL.
  - intros H Hc Hfit. assert (H' := H). destruct H' as (Hv & Ho & Hp & Hst & Hf & Hz & Hz1 & vp & HR & Vp & Vl & Vh).
    assert (Hv' := Hv). unfold view_ok in Hv'. unfold step_sim.
    destruct c as [mn mx|k|p]; cbn [call_ok] in Hc.
    + cbn [exec sub_ops o_read]. unfold sub_read.
      destruct (Z.eqb_spec (su_size s) (-1)) as [Es|Es].
      * destruct (sub_body_step s v mn mx mn mx H) as (s' & k & d & E & Hres); try lia0.
        rewrite E; cbn [bind]. do 2 eexists; split; [reflexivity|exact Hres].
      * assert (v_pos v <= su_size s /\ (su_size s <= INT32_MAX \/ mn <= mx \/ ret32 /\ (mn = 1 \/ no_limit))) as (Hpz & Hsz).
        { split.
          - destruct (Z.eqb_spec n (-1)) as [En|En]; [destruct (Hz1 En); lia0|specialize (Hz En); lia0].
          - destruct Hfit as [(F1 & F2)|F]; [left|right; exact F]. destruct (Z.eqb_spec n (-1)) as [En|En]; [destruct (Hz1 En); lia0|specialize (Hz En); lia0]. }
        destruct (Z.eqb_spec (su_size s - su_pos s) 0) as [E0|E0].
        -- cbn [bind]. do 2 eexists; split; [reflexivity|]. left.
           assert (v_pos v = zlen sub_content) as Hend.
           { destruct (Z.eqb_spec n (-1)) as [En|En]; [destruct (Hz1 En); lia0|specialize (Hz En); lia0]. }
           unfold good_obs. cbn [observe ob_ret ob_data ob_st ob_pos ob_size o_pos o_size o_status sub_ops next_view su_pos su_size su_st Z.ltb Z.compare v_pos].
           split.
           ++ split; [congruence|]. split; [intros; lia0|]. split; [exact Hp|]. split; [right; right; lia0|].
              right. repeat split; assumption.
           ++ unfold sub_R. cbn [su_off su_pos su_st su_size su_par v_pos v_lo v_hi]. unfold view_ok; cbn [v_pos v_lo v_hi].
              split; [lia0|]. split; [exact Ho|]. split; [exact Hp|]. split; [congruence|]. split; [lia0|].
              split; [exact Hz|]. split; [exact Hz1|]. eexists; split; [exact HR|]. lia0.
        -- set (mn' := if _ <? mn then _ else mn).
           assert (mn' = Z.min mn (su_size s - v_pos v)) as Hmn'.
           { unfold mn'. rewrite Hp. destruct (Z.ltb_spec (su_size s - v_pos v) mn); rewrite ?wrap32_id by (unfold INT32_MIN; lia0); lia0. }
           clearbody mn'.
           match goal with |- context [sub_read_body par s mn' ?m] => set (mx0 := m) end.
           assert (exists mx', sub_read_body par s mn' mx0 = sub_read_body par s mn' mx' /\
             (mn' <= mx' <= su_size s - v_pos v \/ mx' <= 0 /\ INT32_MIN <= mx' /\ INT32_MAX <= su_size s - v_pos v /\ ret32) /\ (mn <= mx -> mn' <= mx' <= mx) /\ mx' <= INT32_MAX) as (mx' & Emx & Hmx').
           { unfold mx0. rewrite Hp. destruct (Z.le_gt_cases (su_size s - v_pos v) INT32_MAX) as [Hle|Hgt].
             - eexists; split; [reflexivity|]. destruct (Z.ltb_spec mx mn'), (Z.ltb_spec (su_size s - v_pos v) mx); cbn [orb]; rewrite ?wrap32_id by (unfold INT32_MIN; lia0); lia0.
             - destruct Hsz as [Hsz|[Hsz|(H32 & Hsz)]]; [lia0| |].
               + eexists; split; [reflexivity|]. destruct (Z.ltb_spec mx mn'), (Z.ltb_spec (su_size s - v_pos v) mx); cbn [orb]; lia0.
               + destruct (Z.ltb_spec mx mn'), (Z.ltb_spec (su_size s - v_pos v) mx); cbn [orb]; try lia0; [|eexists; split; [reflexivity|lia0]].
                 pose proof (wrap32_range' (su_size s - v_pos v)) as W. set (w := wrap32 (su_size s - v_pos v)) in *. clearbody w.
                 destruct (Z.le_gt_cases w 0); [exists w; split; [reflexivity|]; split; [right; repeat split; try assumption; lia0|lia0]|].
                 destruct (Z.le_gt_cases mn' w); [exists w; split; [reflexivity|]; split; [left; lia0|lia0]|].
                 destruct Hsz as [Hsz|HN]; [lia0|]. exists 0. split.
                 * unfold sub_read_body. rewrite (HN _ _ mn' w HR ltac:(lia0)). destruct (Z.ltb_spec w mn'), (Z.ltb_spec 0 mn'); try lia0. reflexivity.
                 * split; [right; split; [lia0|]; split; [unfold INT32_MIN; lia0|]; split; [lia0|exact H32]|lia0]. }
           rewrite Emx. clear Emx. clearbody mx0.
           destruct (sub_body_step s v mn mx mn' mx' H) as (s' & k & d & E & Hres); try lia0.
           { intros _. split; [lia0|]. split; [exact Hmn'|]. split; [|exact (proj1 (proj2 Hmx'))]. destruct Hmx' as ([M|(M1 & M2 & M3 & M4)] & _); [left; exact M|right; auto]. }
           rewrite E; cbn [bind]. do 2 eexists; split; [reflexivity|exact Hres].
    + cbn [exec sub_ops o_skip]. unfold sub_skip.
      destruct (Z.eqb_spec (su_size s) (su_pos s)) as [Es|Es].
      { cbn [bind]. do 2 eexists; split; [reflexivity|]. left.
        assert (v_pos v = zlen sub_content) as Hend.
        { destruct (Z.eqb_spec n (-1)) as [En|En]; [destruct (Hz1 En); lia0|specialize (Hz En); lia0]. }
        unfold good_obs. cbn [observe ob_ret ob_data ob_st ob_pos ob_size o_pos o_size o_status sub_ops next_view su_pos su_size su_st v_pos Z.max Z.compare].
        rewrite Z.add_0_r. split.
        - split; [congruence|]. split; [intros; lia0|]. split; [exact Hp|]. split; [right; right; lia0|]. right. lia0.
        - unfold sub_R. cbn [su_off su_pos su_st su_size su_par v_pos v_lo v_hi]. unfold view_ok; cbn [v_pos v_lo v_hi].
          split; [lia0|]. split; [exact Ho|]. split; [exact Hp|]. split; [congruence|]. split; [lia0|].
          split; [exact Hz|]. split; [exact Hz1|]. eexists; split; [exact HR|]. lia0. }
      assert (sub_fails \/ su_size s = -1 \/ su_size s = zlen sub_content) as Hszok.
      { destruct (Z.eqb_spec n (-1)) as [En|En]; [right; apply Hz1; exact En|].
        specialize (Hz En). unfold sub_fails. destruct (Z.lt_ge_cases (zlen content - off) n); [left; right; lia0|right; right; lia0]. }
      destruct (Z.eqb_spec k 0) as [Ek|Ek].
      { subst k. cbn [bind]. do 2 eexists; split; [reflexivity|]. left.
        unfold good_obs. cbn [observe ob_ret ob_data ob_st ob_pos ob_size o_pos o_size o_status sub_ops next_view v_pos Z.max Z.compare].
        rewrite Z.add_0_r. split.
        - split; [assumption|]. split; [assumption|]. split; [exact Hp|]. split; [exact Hszok|]. left. lia0.
        - unfold sub_R. cbn [v_pos v_lo v_hi]. unfold view_ok; cbn [v_pos v_lo v_hi].
          split; [lia0|]. split; [exact Ho|]. split; [exact Hp|]. split; [assumption|]. split; [assumption|].
          split; [exact Hz|]. split; [exact Hz1|]. eexists; split; [exact HR|]. lia0. }
      set (k' := if _ && _ then _ else k).
      assert (1 <= k' <= k /\ (su_size s <> -1 -> k' = Z.min k (su_size s - v_pos v)) /\ (su_size s = -1 -> k' = k)) as Hk'.
      { unfold k'. rewrite Hp in *. destruct (Z.eqb_spec (su_size s) (-1)); cbn [negb andb]; [lia0|].
        assert (v_pos v < su_size s).
        { destruct (Z.eqb_spec n (-1)) as [En|En]; [destruct (Hz1 En); lia0|specialize (Hz En); lia0]. }
        destruct (Z.ltb_spec (su_size s - v_pos v) k); lia0. }
      clearbody k'.
      destruct (sim_skip par content fails lim R (su_par s) vp k' HS HR) as (p & sk & E & Hres); [lia0|].
      rewrite E; cbn [bind].
      destruct Hres as [[G HR']|[Q1 Q2]].
      2:{ rewrite Q1; cbn [is_error bind]. do 2 eexists; split; [reflexivity|]. right. unfold bad_obs; cbn. split; [reflexivity|].
          unfold sub_fails. destruct Q2 as [Q2|Q2]; [tauto|]. right. split; [lia0|].
          destruct (Z.eqb_spec n (-1)); lia0. }
      destruct G as (G1 & G2 & G3 & G4 & G5). cbn [observe ob_ret ob_data ob_st ob_pos ob_size next_view v_pos] in *.
      rewrite (is_error_false _ G1). rewrite Hp in *.
      destruct G5 as [(R1 & R2 & R3)|(R1 & R2)].
      * rewrite Z.max_r in * by lia0.
        destruct (Z.eq_dec sk 0) as [Esk|Esk].
        { (* nothing skipped: the parent is at its end *)
          subst sk. rewrite Z.add_0_r in *. destruct (Z.eqb_spec (v_pos v) (su_size s)); [congruence|].
          cbn. do 2 eexists; split; [reflexivity|]. right. unfold bad_obs; cbn. split; [reflexivity|].
          right. split; [lia0|]. destruct (Z.eqb_spec n (-1)); lia0. }
        assert (v_pos v + sk <= zlen sub_content /\ (sk = k \/ v_pos v + sk = zlen sub_content) /\
                (v_pos v + sk = su_size s -> v_pos v + sk = zlen sub_content)) as (Hin & Hfull & Heof).
        { destruct (Z.eqb_spec (su_size s) (-1)) as [Es1|Es1].
          - assert (n = -1) as En by (destruct (Z.eq_dec n (-1)); [assumption|specialize (Hz ltac:(assumption)); lia0]).
            rewrite En in SL. cbn [Z.eqb Pos.eqb] in SL. lia0.
          - destruct (Z.eqb_spec n (-1)) as [En|En]; [destruct (Hz1 En); lia0|specialize (Hz En); lia0]. }
        assert (su_st s = Eof -> v_pos v + sk = zlen sub_content) as Heof2.
        { intros He. specialize (Hf He). lia0. }
        assert (sub_R (mkSub p (su_off s) (su_size s) (v_pos v + sk) (if v_pos v + sk =? su_size s then Eof else su_st s))
                  (mkView (v_pos v + sk) (v_pos v + sk) (v_pos v + sk))) as HR2.
        { unfold sub_R. cbn [su_off su_pos su_st su_size su_par v_pos v_lo v_hi]. unfold view_ok; cbn [v_pos v_lo v_hi].
          split; [lia0|]. split; [exact Ho|]. split; [reflexivity|].
          split; [destruct (v_pos v + sk =? su_size s); congruence|].
          split; [destruct (Z.eqb_spec (v_pos v + sk) (su_size s)); [intros; apply Heof; assumption|exact Heof2]|].
          split; [exact Hz|]. split; [exact Hz1|]. eexists; split; [exact HR'|]. cbn [v_pos v_lo v_hi]. lia0. }
        assert (forall st, st <> Error -> (st = Eof -> v_pos v + sk = zlen sub_content) ->
          good_obs sub_content sub_fails v (Skip k) (mkObs sk [] (v_pos v + sk) (su_size s) st)) as HG.
        { intros st Hs1 Hs2. unfold good_obs. cbn [ob_ret ob_data ob_st ob_pos ob_size next_view v_pos].
          rewrite Z.max_r by lia0. cbn [v_pos]. repeat split; try assumption. left. lia0. }
        destruct (Z.eqb_spec (v_pos v + sk) (su_size s)).
        -- cbn [bind]. do 2 eexists; split; [reflexivity|]. left. split; [apply (HG Eof); [congruence|intros; apply Heof; assumption]|].
           cbn [next_view observe ob_ret]. rewrite Z.max_r by lia0. exact HR2.
        -- destruct (Z.leb_spec sk 0); [lia0|]. cbn [bind]. do 2 eexists; split; [reflexivity|]. left. split; [apply (HG (su_st s)); assumption|].
           cbn [next_view observe ob_ret]. rewrite Z.max_r by lia0. exact HR2.
      * (* the parent was at its end and returned -1 *)
        subst sk. destruct (Z.eqb_spec (v_pos v + -1) (su_size s)) as [E1|E1].
        -- exfalso. destruct (Z.eqb_spec n (-1)) as [En|En].
           ++ specialize (Hn1 En). destruct (Hz1 En); lia0.
           ++ specialize (Hz En). lia0.
        -- cbn. do 2 eexists; split; [reflexivity|]. right. unfold bad_obs; cbn. split; [reflexivity|].
           right. split; [lia0|]. destruct (Z.eqb_spec n (-1)); lia0.
    + cbn [exec sub_ops o_reset]. unfold sub_reset.
      destruct (Z.ltb_spec p 0); [lia0|].
      assert (0 <= p + su_off s <= zlen content) as Hpo.
      { rewrite Ho. destruct (Z.eqb_spec n (-1)); lia0. }
      destruct (sim_reset par content fails lim R (su_par s) vp (p + su_off s) HS HR Hpo) as (p' & r & E & Hres).
      rewrite E; cbn [bind].
      destruct Hres as [[G HR']|[Q1 Q2]].
      2:{ destruct (r <? su_off s); cbn [bind]; do 2 eexists; (split; [reflexivity|]); right; unfold bad_obs, sub_fails; cbn; tauto. }
      destruct G as (G1 & G2 & G3 & G4 & G5). cbn [observe ob_ret ob_data ob_st ob_pos ob_size next_view] in *.
      destruct G5 as [G5 G6]. rewrite <- G5 in *.
      destruct (Z.ltb_spec r (su_off s)); [lia0|]. cbn [bind]. do 2 eexists; split; [reflexivity|]. left.
      assert (sub_fails \/ su_size s = -1 \/ su_size s = zlen sub_content) as Hszok.
      { destruct (Z.eqb_spec n (-1)) as [En|En]; [right; apply Hz1; exact En|].
        specialize (Hz En). unfold sub_fails. destruct (Z.lt_ge_cases (zlen content - off) n); [left; right; lia0|right; right; lia0]. }
      assert (r - off <= zlen sub_content) as Hr1 by lia0.
      assert (o_status par p' = Eof -> r - off = zlen sub_content) as Hr2.
      { intros He. specialize (G2 He). destruct (Z.eqb_spec n (-1)); lia0. }
      unfold good_obs. cbn [observe ob_ret ob_data ob_st ob_pos ob_size o_pos o_size o_status sub_ops next_view su_pos su_size su_st].
      rewrite Ho in *.
      destruct (Z.leb_spec (v_lo v) p); [destruct (Z.leb_spec p (v_hi v))|]; cbn [andb v_pos].
      * (* inside the segment *)
        assert ((v_lo vp <=? p + off) && (p + off <=? v_hi vp) = true) as Ew by (rewrite andb_true_iff, !Z.leb_le; lia0).
        rewrite Ew in *. cbn [v_pos] in *. clear G3. subst r. replace (p + off - off) with p in * by lia0.
        split; [repeat split; try assumption; lia0|].
        unfold sub_R. cbn [su_off su_pos su_st su_size su_par v_pos v_lo v_hi]. unfold view_ok; cbn [v_pos v_lo v_hi].
        split; [lia0|]. repeat (split; [assumption || reflexivity|]). eexists; split; [exact HR'|]. cbn [v_pos v_lo v_hi]. lia0.
      * split; [repeat split; try assumption; lia0|].
        unfold sub_R. cbn [su_off su_pos su_st su_size su_par v_pos v_lo v_hi]. unfold view_ok; cbn [v_pos v_lo v_hi].
        split; [lia0|]. repeat (split; [assumption || reflexivity|]). eexists; split; [exact HR'|].
        destruct (Z.leb_spec (v_lo vp) (p + off)), (Z.leb_spec (p + off) (v_hi vp)); cbn [andb v_pos v_lo v_hi] in *; lia0.
      * split; [repeat split; try assumption; lia0|].
        unfold sub_R. cbn [su_off su_pos su_st su_size su_par v_pos v_lo v_hi]. unfold view_ok; cbn [v_pos v_lo v_hi].
        split; [lia0|]. repeat (split; [assumption || reflexivity|]). eexists; split; [exact HR'|].
        destruct (Z.leb_spec (v_lo vp) (p + off)), (Z.leb_spec (p + off) (v_hi vp)); cbn [andb v_pos v_lo v_hi] in *; lia0.
Qed.

Lemma sub_sim : n <= INT32_MAX -> (n = -1 -> zlen content - off <= INT32_MAX) -> sim (sub_ops par) sub_content sub_fails lim sub_R.
Proof.
  intros F1 F2. split; [intros s v H; apply H|intros s v H; apply H|]. intros s v c H Hc. apply sub_step; [exact H|exact Hc|]. left. split; [exact F1|exact F2].
Qed.
Lemma sub_sim_any : ret32 -> no_limit -> sim (sub_ops par) sub_content sub_fails lim sub_R.
Proof.
  intros F1 F2. split; [intros s v H; apply H|intros s v H; apply H|]. intros s v c H Hc. apply sub_step; [exact H|exact Hc|]. right. destruct c; [|exact I|exact I]. right. split; [exact F1|right; exact F2].
Qed.
Lemma sub_run l : forall s v, sub_R s v -> Forall (fun c => call_ok sub_content lim c /\ fits c) l ->
  exists s' obs, run (sub_ops par) s l = Ret (s', obs) /\ accepts sub_content sub_fails v l obs.
Proof.
  induction l as [|c l IH]; intros s v HR Hl; [exists s, []; split; [reflexivity|exact I]|]. inversion Hl as [|? ? (Hc & Hf) Hl']; subst.
  destruct (sub_step s v c HR Hc Hf) as (s1 & ob & E & [[G HR1]|B]); cbn [run]; rewrite E; cbn [bind].
  - rewrite (is_error_false (ob_st ob)) by (destruct G as [G _]; exact G). destruct (IH s1 _ HR1 Hl') as (s2 & obs & E2 & Hacc).
    rewrite E2; cbn [bind]. exists s2, (ob :: obs). split; [reflexivity|]. cbn [accepts]. rewrite (is_error_false (ob_st ob)) by (destruct G as [G _]; exact G). split; assumption.
  - destruct B as [B1 B2]. rewrite B1; cbn [is_error]. exists s1, [ob]; split; [reflexivity|]. cbn [accepts]. rewrite B1; cbn [is_error]. split; [split; assumption|reflexivity].
Qed.

Lemma sub_init_R p v : R p v -> v_pos v = off -> sub_R (mkSub p off n 0 Ok) view0.
Proof.
  intros HR Hp. pose proof (zlen_nonneg sub_content). assert (HV := sim_view _ _ _ _ _ HS _ _ HR). unfold view_ok in HV.
  unfold sub_R, view_ok. cbn. repeat split; try lia0; try congruence; try tauto.
  exists v. rewrite Hp, Z.add_0_r. split; [exact HR|]. lia0.
Qed.
End P.
