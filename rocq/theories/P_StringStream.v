From Verif Require Import Base StreamSpec P_Stream M_StringStream.

Section P.
Context {A : Type}.
Variable content : list A.
Hypothesis Hlen : zlen content <= INT32_MAX.

Definition ss_R (s : sstream A) (v : view) : Prop :=
  ss_data s = content /\ ss_size s = zlen content /\ ss_pos s = v_pos v /\
  view_ok content v /\ ss_st s <> Error /\ (ss_st s = Eof -> v_pos v = zlen content).

Lemma ss_read_step s v mn mx : ss_R s v ->
  1 <= mn <= INT32_MAX -> (mn <= mx <= INT32_MAX \/ INT32_MIN <= mx <= 0) ->
  step_sim ss_ops content False ss_R s v (Read mn mx).
Proof.
  intros (Hd & Hs & Hp & Hv & He & Hf) H1 H2. unfold view_ok in Hv. unfold step_sim.
  cbn [exec ss_ops o_read]. unfold ss_read. rewrite Hd, Hs, Hp.
  destruct (Z.eqb_spec (zlen content - v_pos v) 0) as [E|E].
  - cbn [bind]. do 2 eexists. split; [reflexivity|]. left.
    unfold good_obs, ss_R, view_ok. cbn. repeat split; try congruence; try lia.
    right; repeat split; try lia.
  - match goal with |- context[if ?c then wrap32 ?l else ?m] => set (nread := if c then wrap32 l else m) end.
    assert (0 < nread /\ v_pos v + nread <= zlen content /\ (mn <= mx -> nread <= mx) /\
            (mn <= nread \/ v_pos v + nread = zlen content)) as Hn.
    { unfold nread. destruct (Z.ltb_spec (zlen content - v_pos v) mx), (Z.ltb_spec mx 1); cbn [orb];
        rewrite ?wrap32_id by (unfold INT32_MIN, INT32_MAX in *; lia); lia. }
    clearbody nread.
    replace (_ && _ && _) with true.
    2:{ symmetry. rewrite !andb_true_iff, !Z.leb_le. lia. }
    cbn [bind]. do 2 eexists. split; [reflexivity|]. left.
    unfold good_obs, ss_R, view_ok. cbn.
    destruct (Z.ltb_spec 0 nread); [|lia]. cbn.
    destruct (Z.eqb_spec (v_pos v + nread) (zlen content)); repeat split; try congruence; try lia;
      try (left; repeat split; try lia; try reflexivity).
    all: try (intros; specialize (Hf H0); lia); try tauto; try (left; lia); try (right; lia).
Qed.

Lemma ss_sim : sim ss_ops content False INT32_MAX ss_R.
Proof.
  split.
  - intros s v H; apply H.
  - intros s v H; apply H.
  - intros s v c H Hc. destruct c as [mn mx|n|p]; cbn [call_ok] in Hc.
    + apply ss_read_step; try assumption; lia.
    + destruct (Z.eqb_spec n 0) as [->|Hn].
      * destruct H as (Hd & Hs & Hp & Hv & He & Hf). unfold view_ok in Hv.
        unfold step_sim; cbn. do 2 eexists; split; [reflexivity|]. left.
        unfold good_obs, ss_R, view_ok; cbn. rewrite !Z.add_0_r. repeat split; try congruence; try lia; tauto.
      * destruct (ss_read_step s v n n H) as (s' & ob & E & G); [lia|lia|].
        unfold step_sim. cbn [exec ss_ops o_read o_skip] in *. unfold ss_skip.
        destruct (Z.eqb_spec n 0); [lia|]. rewrite wrap32_id by (unfold INT32_MIN; lia).
        destruct (ss_read s n n) as [[[s1 k] d]| | |]; cbn [bind] in *; try discriminate.
        injection E as <- <-. do 2 eexists; split; [reflexivity|]. left.
        destruct G as [[G HR]|[_ []]]; [|contradiction].
        unfold good_obs in *. cbn [observe ob_ret ob_data ob_st ob_pos ob_size o_pos o_size o_status next_view ss_ops] in *.
        destruct G as (G1 & G2 & G3 & G4 & [(R1 & R2 & R3 & R4 & R5)|(R1 & R2 & R3 & R4)]).
        -- destruct (Z.ltb_spec 0 k); [|lia]. cbn [v_pos] in *. rewrite Z.max_r by lia.
           specialize (R4 ltac:(lia)).
           split; [repeat split; try assumption; left; lia|].
           unfold ss_R, view_ok in *. cbn [v_pos v_lo v_hi] in *. repeat split; try tauto; lia.
        -- subst k. cbn [Z.ltb Z.compare v_pos] in *. cbn. rewrite Z.add_0_r.
           split; [repeat split; try assumption; right; lia|exact HR].
    + destruct H as (Hd & Hs & Hp & Hv & He & Hf). unfold view_ok in Hv.
      unfold step_sim. cbn [exec ss_ops o_reset ss_reset bind]. rewrite Hs.
      destruct (Z.ltb_spec p 0); [lia|].
      destruct (Z.ltb_spec p (zlen content)); cbn [bind ss_pos]; do 2 eexists; (split; [reflexivity|]); left;
      unfold good_obs, ss_R, view_ok; cbn; rewrite Hd;
      (destruct (Z.leb_spec (v_lo v) p), (Z.leb_spec p (v_hi v)); cbn; repeat split; try congruence; try lia; try tauto).
Qed.

Theorem ss_conforms : Conforms ss_ops content False INT32_MAX (mkSS content (zlen content) 0 Ok) view0.
Proof.
  apply (sim_conforms _ _ _ _ ss_R); [exact ss_sim|].
  pose proof (zlen_nonneg content).
  unfold ss_R, view_ok; cbn; repeat split; try congruence; try lia.
Qed.
End P.
