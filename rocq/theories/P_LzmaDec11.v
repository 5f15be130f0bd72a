(** LzmaDec_DecodeToDic and LzmaDec_DecodeToBuf. *)
From Verif Require Import Base InflateSpec LzmaFormatSpec P_LzmaFormat P_LzmaFormat2 M_LzmaDec P_LzmaDec1 P_LzmaDec2 P_LzmaDec3 P_LzmaDec4 P_LzmaDec5 P_LzmaDec6 P_LzmaDec7 P_LzmaDec8 P_LzmaDec9 P_LzmaDec10.

Lemma zget_rep {A} (x : A) n i : 0 <= i < Z.of_nat n -> zget (repeat x n) i = Some x.
Proof.
  intros H. unfold zget. destruct (Z.ltb_spec i 0); [lia|]. rewrite (nth_error_nth' _ x) by (rewrite repeat_length; lia). f_equal. apply nth_repeat.
Qed.
Lemma init_probs pr : 0 <= p_lc pr + p_lp pr -> probs_ok pr (repeat 1024 (Z.to_nat (numProbs pr))) (fun _ => 1024).
Proof.
  intros H. assert (0 < 2 ^ (p_lc pr + p_lp pr)) by (apply Z.pow_pos_nonneg; lia). assert (0 <= numProbs pr) by (unfold numProbs; change Literal with 1846; lia). split.
  - unfold zlen. rewrite repeat_length. lia.
  - intros c Hc. pose proof (idx_range pr c H Hc). apply zget_rep. lia.
Qed.
Lemma start_state r z : start r = Some z -> z_out z = [] /\ z_state z = 0 /\ z_rep0 z = 1 /\ z_rep1 z = 1 /\ z_rep2 z = 1 /\ z_rep3 z = 1 /\ k_probs (z_coder z) = (fun _ => 1024).
Proof. unfold start. destruct r as [|b0 [|b1 [|b2 [|b3 [|b4 r]]]]]; try discriminate. destruct (_ =? 0); [|discriminate]. intros E. injection E as <-. auto 10. Qed.

Section Loop.
Variables (pr : props) (limit : Z) (fin : bool).
Hypothesis Hp : lzprops_ok (px pr).
Hypothesis Hlim : limit <= p_dicSize pr.
Let P := px pr.
Lemma fresh_st p r z : d_prop p = pr -> d_remain p = 0 -> start r = Some z -> d_range p = k_range (z_coder z) -> d_code p = k_code (z_coder z) -> d_check p = 0 -> d_processed p = 0 -> Ring (p_dicSize pr) (d_dic p) (d_dicPos p) [] ->
  ST (InitStateReal p) z [].
Proof.
  intros E1 E2 Hs E3 E4 E5 E6 R. destruct (start_inv (px pr) _ _ Hp Hs) as (I & _). destruct (start_state _ _ Hs) as (A1 & A2 & A3 & A4 & A5 & A6 & A7).
  constructor; cbn [InitStateReal d_remain]; try lia.
  - constructor; cbn [InitStateReal d_prop d_range d_code d_probs d_state d_rep0 d_rep1 d_rep2 d_rep3]; try rewrite E1; try assumption; try congruence. rewrite A7. apply init_probs. apply Hl, Hp.
  - constructor; cbn [InitStateReal d_prop d_dic d_dicPos d_processed d_check]; try rewrite E1; [exact R|exact E6|]. left. split; [exact E5|]. destruct Hp as (_ & _ & _ & Hd). cbn in Hd. change (zlen (@nil Z)) with 0. lia.
  - rewrite E2, A1. reflexivity.
Qed.
(** the part of a round after the start of the stream *)
Lemma rest_ok f p r o src n st : IHf pr limit fin f -> INV pr p r o -> d_needFlush p = false -> d_remain p < 274 -> d_dicPos p <= limit -> (d_remain p <> 0 -> d_dicPos p = limit) -> (Z.to_nat (limit - d_dicPos p) < S f)%nat ->
  exists x, rest_ f p limit src n fin st = Ret x /\ RESULT pr limit fin (d_dicPos p) r src o n x.
Proof.
  intros IH HI Ef Hr Hd Hfull Hfuel. unfold rest_. set (full := limit <=? d_dicPos p). cbv zeta.
  assert (full = true -> d_dicPos p = limit) as HF by (unfold full; intros Q; apply Z.leb_le in Q; lia).
  destruct (full && ((d_remain p =? 0) && (d_code p =? 0))) eqn:E1.
  { apply andb_true_iff in E1. destruct E1 as (E1 & E2). apply andb_true_iff in E2. destruct E2 as (E2 & E3). apply Z.eqb_eq in E2. apply Z.eqb_eq in E3. specialize (HF E1). eexists; split; [reflexivity|]. cbn [RESULT]. exists [], src, []. rewrite !app_nil_r. change (zlen (@nil Z)) with 0. split; [reflexivity|]. split; [lia|]. split; [lia|]. split; [lia|]. split; [exact HI|]. auto. }
  destruct (full && negb fin) eqn:E2.
  { apply andb_true_iff in E2. destruct E2 as (E2 & E3). specialize (HF E2). rewrite E2 in E1. cbn [andb] in E1. eexists; split; [reflexivity|]. cbn [RESULT]. exists [], src, []. rewrite !app_nil_r. change (zlen (@nil Z)) with 0. split; [reflexivity|]. split; [lia|]. split; [lia|]. split; [lia|]. split; [exact HI|].
    split; [exact HF|]. split; [destruct fin; [discriminate|reflexivity]|]. split; [lia|]. split; [exact Ef|]. intros (Q1 & Q2). rewrite Q1, Q2 in E1. discriminate. }
  destruct (full && negb (d_remain p =? 0)) eqn:E3.
  { apply andb_true_iff in E3. destruct E3 as (E3 & E4). specialize (HF E3). rewrite E3 in E2. cbn [andb] in E2. apply negb_true_iff, Z.eqb_neq in E4. destruct HI as [Q1 Q2 Q3 Q4|z Q1 Q2 Q3 Q4|z0 z Q1 Q2 Q3 Q4 Q5 Q6 Q7 Q8 Qx|z0 z k Q1 Q2 Q3]; try lia.
    eexists; split; [reflexivity|]. cbn [RESULT]. exists [], src, []. rewrite !app_nil_r. change (zlen (@nil Z)) with 0. split; [reflexivity|]. split; [lia|]. split; [lia|]. split; [lia|].
    destruct (start_steps pr r z0 z src Q4 Q5) as (z1 & T1 & T2). destruct Q6 as [S1 S2 S3 S4 S5]. split.
    - exists [], (d_dicPos p). cbn [app]. rewrite app_nil_r. change (zlen (@nil Z)) with 0. split; [pose proof (do_ring _ _ S2) as R; rewrite Q1 in R; exact R|]. split; [lia|]. split; [lia|]. right. exists z1, (morez z src). split; [exact T1|]. split; [exact T2|]. cbn. destruct (copy_app (Z.to_nat (d_remain p)) (z_rep0 z) o) as (w & Ew & _). exists w. rewrite S3, Ew. reflexivity.
    - right. split; [destruct fin; [reflexivity|discriminate]|]. split; [exact HF|]. destruct (Qx E4) as (y & Y1 & Y2 & Y3). destruct (start_steps pr r z0 y src Q4 Y1) as (z2 & U1 & U2). exists z2, (morez y src), (morez z src). split; [exact U1|]. split; [exact U2|]. split; [rewrite (step_more (px pr)) by congruence; rewrite Y2; reflexivity|]. cbn [morez z_out z_coder more k_code]. rewrite S3, zlen_copy. split; [lia|]. intros (Q & _). rewrite Q in Y3. lia. }
  assert (d_remain p = 0) as E0.
  { destruct (Z.eq_dec (d_remain p) 0) as [Q|Q]; [exact Q|exfalso]. specialize (Hfull Q). assert (full = true) as Q2 by (unfold full; apply Z.leb_le; lia). rewrite Q2 in E3. cbn [andb] in E3. apply negb_false_iff, Z.eqb_eq in E3. congruence. }
  assert (full = true -> fin = true /\ d_code p <> 0) as Hfin by (intros Q; rewrite Q in E2, E1; split; [destruct fin; [reflexivity|discriminate]|intros Q2; rewrite E0, Q2 in E1; discriminate]).
  destruct HI as [Q1 Q2 Q3 Q4|z Q1 Q2 Q3 Q4 Q5 Q6 Q7 Q8 Q9 Q10 Q11 Q12 Q13|z0 z Q1 Q2 Q3 Q4 Q5 Q6 Q7 Q8 Qx|z0 z k Q1 Q2 Q3]; [congruence| | |lia].
  - rewrite Q3. subst o. apply (work_ok pr limit fin Hlim f (InitStateReal p) r [] z z); cbn [InitStateReal d_prop d_needFlush d_needInit d_temp d_dicPos d_remain]; try assumption; try reflexivity.
    + constructor.
    + exact (fresh_st p r z Q1 Q4 Q7 Q9 Q10 Q11 Q12 Q13).
    + congruence.
    + congruence.
  - rewrite Q3. apply (work_ok pr limit fin Hlim f p r o z0 z); try assumption; try reflexivity. intros Q. exact (proj2 (Q8 Q)).
Qed.
Lemma loop_all : forall f, IHf pr limit fin f.
Proof.
  induction f as [|f IH]; intros p r o src n st HI Hd Hfull Hfuel; [lia|]. rewrite dic_loop_S. change kMatchSpecLenStart with 274.
  destruct (Z.eqb_spec (d_remain p) 274) as [E|E].
  { destruct HI as [Q1 Q2 Q3 Q4|z Q1 Q2 Q3 Q4|z0 z Q1 Q2 Q3 Q4 Q5 Q6 Q7 Q8 Qx|z0 z k Q1 Q2 Q3 Q4 Q5 Q6 Q7 Q8 Q9 Q10 Q11]; try lia; [pose proof (st_len _ _ _ Q6); lia|].
    destruct (Z.eqb_spec (d_code p) 0) as [Q|Q].
    - eexists; split; [reflexivity|]. cbn [RESULT]. exists [], src, []. rewrite !app_nil_r. change (zlen (@nil Z)) with 0. split; [reflexivity|]. split; [lia|]. split; [lia|]. split; [lia|]. split; [|split; assumption]. apply (I_End _ _ _ _ z0 z k); assumption.
    - eexists; split; [reflexivity|]. cbn [RESULT]. exists [], src, []. rewrite !app_nil_r. change (zlen (@nil Z)) with 0. split; [reflexivity|]. split; [lia|]. split; [lia|]. split; [lia|]. destruct (start_steps pr r z0 z src Q5 Q6) as (z1 & T1 & T2). split.
      + exists [], (d_dicPos p). cbn [app]. rewrite app_nil_r. change (zlen (@nil Z)) with 0. split; [exact Q11|]. split; [lia|]. split; [lia|]. right. exists z1, (morez z src). split; [exact T1|]. split; [exact T2|]. cbn. rewrite Q10. exists []. rewrite app_nil_r. reflexivity.
      + left. right. exists z1, (morez z src). split; [exact T1|]. split; [exact T2|]. split; [cbn [morez z_out]; rewrite Q10; lia|]. right. exists (more k src). split; [rewrite (step_more (px pr)) by congruence; rewrite Q7; reflexivity|]. cbn. congruence. }
  destruct (d_needFlush p) eqn:Ef.
  - destruct HI as [Q1 Q2 Q3 Q4 Q5 Q6 Q7 Q8 Q9 Q10|z Q1 Q2 Q3 Q4|z0 z Q1 Q2 Q3 Q4 Q5 Q6 Q7 Q8 Qx|z0 z k Q1 Q2 Q3 Q4 Q5 Q6 Q7 Q8 Q9 Q10 Q11]; try congruence. subst o. rewrite Q5.
    destruct (fill_init_ok src r n ltac:(lia)) as (u & rest & -> & -> & L1 & L2). cbv beta iota. destruct (Z.ltb_spec (zlen (r ++ u)) 5) as [L|L].
    + cbn [bind]. eexists; split; [reflexivity|]. specialize (L2 L). subst rest. cbn [RESULT]. exists u, [], []. rewrite !app_nil_r. change (zlen (@nil Z)) with 0. split; [reflexivity|]. split; [lia|]. split; [cbn; lia|]. split; [cbn; lia|]. split; [apply I_Pre; cbn; try assumption; reflexivity|]. split; [reflexivity|]. split; [left; split; [exact L|reflexivity]|]. split; [exact Q4|]. intros _. right. exact Q2.
    + destruct (r ++ u) as [|b0 [|b1 [|b2 [|b3 [|b4 [|b5 tl]]]]]] eqn:Et; rewrite ?zlen_cons in L, L1; change (zlen (@nil Z)) with 0 in L, L1; try lia; [|pose proof (zlen_nonneg tl); lia].
      cbn [bind]. change (aget [b0; b1; b2; b3; b4] 0) with (Ret b0). cbn [bind]. destruct (b0 mod 256 =? 0) eqn:Eb; cbn [negb].
      * unfold InitRc. change (aget [b0; b1; b2; b3; b4] 1) with (Ret b1). change (aget [b0; b1; b2; b3; b4] 2) with (Ret b2). change (aget [b0; b1; b2; b3; b4] 3) with (Ret b3). change (aget [b0; b1; b2; b3; b4] 4) with (Ret b4). cbn [bind].
        match goal with |- exists x, rest_ f ?q limit rest ?m fin st = Ret x /\ _ => destruct (rest_ok f q (r ++ u) [] rest m st IH) as (x & Ex & Hx) end; try (cbn; assumption || lia || reflexivity).
        { destruct (start (r ++ u)) as [z|] eqn:Es; [|rewrite Et in Es; cbn in Es; rewrite Eb in Es; discriminate].
          pose proof Es as Es2. rewrite Et in Es2. unfold start in Es2. rewrite Eb in Es2. injection Es2 as Es2.
          apply (I_Fresh _ _ _ _ z); cbn [set_temp d_prop d_needFlush d_needInit d_remain d_temp d_range d_code d_check d_processed d_dic d_dicPos]; try assumption; try reflexivity; rewrite <- Es2; cbn [z_coder k_in k_range k_code]; [reflexivity|reflexivity|]. ring. }
        exists x. split; [exact Ex|]. apply (result_more _ _ _ _ _ _ _ _ u rest []); [|reflexivity]. rewrite app_nil_r. change (zlen (@nil Z)) with 0. rewrite Z.add_0_r. exact Hx.
      * eexists; split; [reflexivity|]. cbn [RESULT]. exists u, rest, []. cbn [app]. change (zlen (@nil Z)) with 0. split; [reflexivity|]. split; [lia|]. split; [cbn; lia|]. split; [cbn; lia|]. split.
        -- exists [], (d_dicPos p). change (zlen (@nil Z)) with 0. split; [exact Q10|]. split; [cbn; lia|]. split; [lia|]. left. reflexivity.
        -- left. left. rewrite app_assoc, Et. split; [cbn [app]; rewrite !zlen_cons; pose proof (zlen_nonneg rest); lia|]. cbn [app start]. rewrite Eb. reflexivity.
  - cbn [bind]. apply rest_ok; try assumption; [|intros Q; apply Hfull; assumption].
    destruct HI as [Q1 Q2 Q3 Q4|z Q1 Q2 Q3 Q4|z0 z Q1 Q2 Q3 Q4 Q5 Q6 Q7 Q8 Qx|z0 z k Q1 Q2 Q3]; try lia. pose proof (st_len _ _ _ Q6); lia.
Qed.
Theorem DecodeToDic_ok p r o src : INV pr p r o -> d_dicPos p <= limit ->
  exists x, DecodeToDic p limit src fin = Ret x /\ RESULT pr limit fin (d_dicPos p) r src o 0 x.
Proof.
  intros HI Hd. unfold DecodeToDic.
  assert (exists p1 w, WriteRem p limit = Ret p1 /\ INV pr p1 r (o ++ w) /\ d_dicPos p1 = d_dicPos p + zlen w /\ d_dicPos p1 <= limit /\ (d_remain p1 <> 0 -> d_remain p1 <> 274 -> d_dicPos p1 = limit)) as (p1 & w & -> & I1 & D1 & D2 & D3).
  { assert (d_remain p = 0 \/ d_remain p = 274 -> exists p1 w, WriteRem p limit = Ret p1 /\ INV pr p1 r (o ++ w) /\ d_dicPos p1 = d_dicPos p + zlen w /\ d_dicPos p1 <= limit /\ (d_remain p1 <> 0 -> d_remain p1 <> 274 -> d_dicPos p1 = limit)) as H0.
    { intros H. exists p, []. rewrite app_nil_r. change (zlen (@nil Z)) with 0. split; [unfold WriteRem; destruct H as [-> | ->]; reflexivity|]. split; [exact HI|]. split; [lia|]. split; [lia|]. destruct H; congruence. }
    destruct HI as [Q1 Q2 Q3 Q4|z Q1 Q2 Q3 Q4|z0 z Q1 Q2 Q3 Q4 Q5 Q6 Q7 Q8 Qx|z0 z k Q1 Q2 Q3 Q4 Q5 Q6 Q7 Q8 Q9 Q10 Q11]; [apply H0; auto|apply H0; auto| |apply H0; auto].
    destruct (Z.eq_dec (d_remain p) 0) as [Q|Q]; [apply H0; auto|]. destruct (WriteRem_ok p z o limit Q6 ltac:(rewrite Q1; lia)) as (p1 & o' & E & Sm & S' & W1 & W2 & W3 & (w & Ew) & _). exists p1, w. rewrite <- Ew. split; [exact E|].
    destruct Sm as [M1 M2 M3 M4]. split; [|split; [rewrite W1, Ew, zlen_app; lia|split; [lia|intros H _; exact (W3 H)]]].
    apply (I_Run _ _ _ _ z0 z); try assumption; try congruence. { rewrite M4. intros H. exfalso. apply Q. exact (proj1 (Q8 H)). } intros _. destruct (Qx Q) as (y & Y1 & Y2 & Y3). exists y. split; [exact Y1|]. split; [exact Y2|]. rewrite Ew, zlen_app. pose proof (zlen_nonneg w). lia. }
  cbn [bind]. destruct (loop_all (Z.to_nat (limit - d_dicPos p1) + 2) p1 r (o ++ w) src 0 SNotSpecified I1 D2 D3 ltac:(lia)) as (x & Ex & Hx). exists x. split; [exact Ex|].
  apply (result_more _ _ _ _ _ _ _ _ [] src w); [|reflexivity]. change (zlen (@nil Z)) with 0. rewrite app_nil_r, <- D1. exact Hx.
Qed.
End Loop.
