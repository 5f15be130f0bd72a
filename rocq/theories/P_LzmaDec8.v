(** LzmaDec_DecodeReal, LzmaDec_WriteRem and LzmaDec_DecodeReal2. *)
From Verif Require Import Base LzmaFormatSpec P_LzmaFormat P_LzmaFormat2 M_LzmaDec P_LzmaDec1 P_LzmaDec2 P_LzmaDec3 P_LzmaDec4 P_LzmaDec5 P_LzmaDec6 P_LzmaDec7.

Record same (p p' : dec) : Prop := { sm_prop : d_prop p' = d_prop p; sm_flush : d_needFlush p' = d_needFlush p; sm_init : d_needInit p' = d_needInit p; sm_temp : d_temp p' = d_temp p }.
Lemma same_refl p : same p p. Proof. constructor; reflexivity. Qed.
Lemma same_trans a b c : same a b -> same b c -> same a c.
Proof. intros [A1 A2 A3 A4] [B1 B2 B3 B4]. constructor; congruence. Qed.
(** the decoder has written [o]; [z]: the state of the format, perhaps some bytes of a match ahead *)
Record ST (p : dec) (z : lz) (o : list Z) : Prop := {
  st_dz : DZ p z; st_do : DO p o; st_out : z_out z = copy (Z.to_nat (d_remain p)) (z_rep0 z) o; st_len : 0 <= d_remain p < 274; st_dist : d_remain p <> 0 -> z_rep0 z <= zlen o }.
Lemma st_zero p z o : ST p z o -> d_remain p = 0 -> z_out z = o.
Proof. intros S E. rewrite (st_out _ _ _ S), E. reflexivity. Qed.

(** ** LzmaDec_WriteRem *)
Lemma WriteRem_ok p z o limit : ST p z o -> d_dicPos p <= limit <= p_dicSize (d_prop p) ->
  exists p' o', WriteRem p limit = Ret p' /\ same p p' /\ ST p' z o' /\ d_dicPos p' = d_dicPos p + (zlen o' - zlen o) /\ d_dicPos p <= d_dicPos p' <= limit /\
    (d_remain p' <> 0 -> d_dicPos p' = limit) /\ (exists w, o' = o ++ w) /\ d_code p' = d_code p.
Proof.
  intros S Hlim. unfold WriteRem. change kMatchSpecLenStart with 274. pose proof (st_len _ _ _ S) as Hr.
  destruct (Z.eqb_spec (d_remain p) 0) as [E|E]; cbn [negb andb].
  { exists p, o. split; [reflexivity|]. split; [apply same_refl|]. split; [exact S|]. split; [lia|]. split; [lia|]. split; [lia|]. split; [exists []; rewrite app_nil_r; reflexivity|reflexivity]. }
  destruct (Z.ltb_spec (d_remain p) 274) as [_|]; [|lia]. cbv zeta.
  set (len := if limit - d_dicPos p <? d_remain p then limit - d_dicPos p else d_remain p).
  assert (0 <= len <= d_remain p /\ len <= limit - d_dicPos p /\ (len < d_remain p -> len = limit - d_dicPos p)) as (H1 & H2 & H3).
  { unfold len. destruct (Z.ltb_spec (limit - d_dicPos p) (d_remain p)); lia. }
  clearbody len. destruct (Z.ltb_spec len 0) as [|_]; [lia|].
  destruct S as [Sz So Sout Sl Sd]. destruct So as [R P C]. destruct Sz as [Hp I Ra Co Pb Sta R0 R1 R2 R3]. destruct (zi_rep0 _ _ I) as (Q1 & _). change (x_dict (px (d_prop p))) with (p_dicSize (d_prop p)) in Q1. specialize (Sd E).
  assert (p_dicSize (d_prop p) < 4294967296) as HD by (destruct Hp as (_ & _ & _ & Hd); exact (proj2 Hd)).
  destruct (rem_loop_ok _ (z_rep0 z) (Z.to_nat len) _ _ o R ltac:(lia) ltac:(lia) ltac:(rewrite Z2Nat.id; lia)) as (dic' & Ed & R'). rewrite Z2Nat.id in R' by lia. rewrite R0, Ed. cbn [bind].
  set (o' := copy (Z.to_nat len) (z_rep0 z) o) in *. assert (zlen o' = zlen o + len) as L by (unfold o'; rewrite zlen_copy; lia).
  eexists; exists o'. split; [reflexivity|]. split; [constructor; reflexivity|]. split; [|split; [cbn; lia|split; [cbn; lia|split; [cbn; lia|]]]].
  - constructor; cbn [d_remain].
    + constructor; cbn [d_prop d_range d_code d_probs d_state d_rep0 d_rep1 d_rep2 d_rep3]; assumption || congruence.
    + constructor; cbn [d_prop d_dic d_dicPos d_processed d_check]; [exact R'|rewrite P, L; apply u32_add|].
      rewrite P. unfold check_ok. destruct C as [(C1 & C2)|(C1 & C2)]; rewrite C1.
      * cbn [Z.eqb andb]. rewrite (u32_id (zlen o)) by (pose proof (zlen_nonneg o); lia). rewrite u32_id by (pose proof (zlen_nonneg o); lia).
        destruct (Z.leb_spec (p_dicSize (d_prop p) - zlen o) len); [right|left]; (split; [reflexivity|lia]).
      * right. split; [destruct (_ && _); reflexivity|lia].
    + rewrite Sout. unfold o'. rewrite <- copy_add. f_equal. lia.
    + lia.
    + intros _. lia.
  - cbn. split; [|reflexivity]. destruct (copy_app (Z.to_nat len) (z_rep0 z) o) as (w & Ew & _). exists w. exact Ew.
Qed.
Lemma WriteRem_end p limit : 274 <= d_remain p -> WriteRem p limit = Ret p.
Proof. intros H. unfold WriteRem. change kMatchSpecLenStart with 274. destruct (Z.ltb_spec (d_remain p) 274); [lia|]. rewrite andb_false_r. reflexivity. Qed.

(** ** LzmaDec_DecodeReal *)
Definition fixc (p : dec) : dec := if p_dicSize (d_prop p) <=? d_processed p then set_check p (p_dicSize (d_prop p)) else p.
Lemma fixc_f {A} (f : dec -> A) p : (forall c, f (set_check p c) = f p) -> f (fixc p) = f p.
Proof. intros H. unfold fixc. destruct (_ <=? _); [apply H|reflexivity]. Qed.
Record Run (lim : Z) (src : list Z) (p p' : dec) (buf : Z) (z z' : lz) (o : list Z) : Prop := {
  rn_same : same p p'; rn_steps : steps (px (d_prop p)) z z'; rn_st : ST p' z' o; rn_in : at_in src buf (k_in (z_coder z'));
  rn_pos : d_dicPos p' = d_dicPos p + (zlen o - zlen (z_out z)); rn_more : d_dicPos p < d_dicPos p' <= lim; rn_full : d_remain p' <> 0 -> d_dicPos p' = lim; rn_pre : exists w, o = z_out z ++ w;
  rn_cross : exists y, steps (px (d_prop p)) z y /\ step (px (d_prop p)) y = Next z' /\ zlen (z_out y) < zlen o }.
Record MarkR (lim : Z) (src : list Z) (p p' : dec) (buf : Z) (z z' : lz) (kn : coder) : Prop := {
  mr_same : same p p'; mr_steps : steps (px (d_prop p)) z z'; mr_step : step (px (d_prop p)) z' = Marked kn; mr_code : d_code p' = k_code kn; mr_in : at_in src buf (k_in kn);
  mr_ring : Ring (p_dicSize (d_prop p)) (d_dic p') (d_dicPos p') (z_out z'); mr_pos : d_dicPos p' = d_dicPos p + (zlen (z_out z') - zlen (z_out z)); mr_lim : d_dicPos p <= d_dicPos p' <= lim }.
Record BadR (lim : Z) (p p' : dec) (z z1 z2 : lz) (pos : Z) : Prop := {
  br_same : same p p'; br_steps : steps (px (d_prop p)) z z1; br_steps2 : steps (px (d_prop p)) z1 z2;
  br_pos : d_dicPos p' = d_dicPos p + (zlen (z_out z1) - zlen (z_out z)); br_ring : Ring (p_dicSize (d_prop p)) (d_dic p') pos (z_out z2); br_pos2 : pos = d_dicPos p' + (zlen (z_out z2) - zlen (z_out z1));
  br_lim : d_dicPos p <= d_dicPos p' <= pos; br_lim2 : pos <= lim;
  br_why : step (px (d_prop p)) z2 = Invalid \/ (z2 = z /\ d_dicPos p = lim /\ exists y, step (px (d_prop p)) z = Next y) }.
Lemma DecodeReal_ok p z src buf limit bufLimit : DZ p z -> DO p (z_out z) -> at_in src buf (k_in (z_coder z)) -> d_dicPos p <= limit <= p_dicSize (d_prop p) ->
  (bufLimit <= 0 \/ bufLimit + 20 <= zlen src) -> (d_check p = 0 -> zlen (z_out z) + (limit - d_dicPos p) <= p_dicSize (d_prop p)) ->
  decoded (px (d_prop p)) z <> None -> (d_dicPos p < limit \/ forall s kn, decoded (px (d_prop p)) z = Some (s, kn) -> bulk s) ->
  exists p' buf' ok, DecodeReal src p limit buf bufLimit = Ret (p', buf', ok) /\
   if ok then
      (exists z' o, Run limit src p (fixc p') buf' z z' o /\ (d_dicPos p' = limit \/ bufLimit <= buf')) \/
      (exists z' kn, MarkR limit src p p' buf' z z' kn /\ 274 <= d_remain p' < 546)
   else exists z2 pos, BadR limit p p' z z z2 pos.
Proof.
  intros [Hp I Ra Co Pb Sta R0 R1 R2 R3] [R P C] Hin Hlim HB Hck Hdec Hbulk. unfold DecodeReal.
  set (v := mkVars _ _ _ _ _ _ _ _ _ _).
  assert (VZ (d_prop p) (d_check p) src v z) as V by (constructor; cbn; assumption || reflexivity).
  assert (CR (d_prop p) src (v_rc v) (z_coder z)) as HC by (constructor; cbn; try assumption; apply (zi_good _ _ I)).
  destruct (loop_ok (d_prop p) (d_check p) limit src bufLimit Hp HB (Z.to_nat (limit - d_dicPos p) + 1) v (z_coder z) z V HC (norm_normal _ (zi_normal _ _ I)) Hlim ltac:(cbn [v_dicPos v]; lia) Hck Hdec Hbulk) as (x & -> & HX).
  cbn [bind]. destruct x as [w|w|l d].
  - destruct HX as ((z' & o & F) & Hex). destruct F as [F1 (k & F2 & F2') F3 F4 F5 F6 F7 F8 F9 F10 F11 F12 F13 F14 F15 F16 F17].
    destruct (normalize_ok _ _ _ _ _ F2 F2') as (r & -> & Cr). cbn [bind]. do 3 eexists. split; [reflexivity|]. cbn beta iota. left. exists z', o.
    pose proof (steps_inv) as SI.
    assert (zinv (px (d_prop p)) z') as I' by (apply (SI _ _ _ I F1)). cbn [v_dicPos v] in *.
    split.
    + constructor; repeat (rewrite fixc_f by reflexivity); cbn [d_dicPos d_remain]; try assumption.
      * constructor; rewrite fixc_f by reflexivity; reflexivity.
      * constructor; repeat (rewrite fixc_f by reflexivity); cbn [d_remain]; try assumption.
        -- destruct Cr as [A1 A2 A3 A4 A5]. constructor; repeat (rewrite fixc_f by reflexivity); cbn [d_prop d_range d_code d_probs d_state d_rep0 d_rep1 d_rep2 d_rep3]; assumption.
        -- constructor; repeat (rewrite fixc_f by reflexivity); cbn [d_prop d_dic d_dicPos d_processed]; [assumption..|].
           unfold fixc. cbn [d_prop d_processed]. rewrite F4. assert (p_dicSize (d_prop p) < 4294967296) as HD by (destruct Hp as (_ & _ & _ & Hd); exact (proj2 Hd)).
           destruct C as [(C1 & C2)|(C1 & C2)].
           ++ specialize (Hck C1). rewrite u32_id by (pose proof (zlen_nonneg o); lia). destruct (Z.leb_spec (p_dicSize (d_prop p)) (zlen o)); cbn [d_check set_check]; [right|left]; (split; [assumption || reflexivity|lia]).
           ++ right. split; [destruct (_ <=? _); [reflexivity|exact C1]|lia].
      * exact (cr_in _ _ _ _ Cr).
    + cbn [d_dicPos]. destruct Hex as [Hex|Hex]; [left; exact Hex|right]. pose proof (at_in_len _ _ _ (cr_in _ _ _ _ F2)). pose proof (at_in_len _ _ _ (cr_in _ _ _ _ Cr)). destruct (norm_len _ _ F2') as (L1 & _). lia.
  - destruct HX as (z' & kn & M). destruct M as [M1 M2 (k & M3 & M3') M4 M5 M6 M7 M8]. destruct (normalize_ok _ _ _ _ _ M3 M3') as (r & -> & Cr). cbn [bind]. do 3 eexists. split; [reflexivity|]. cbn beta iota. right. exists z', kn.
    split; [|cbn; lia]. constructor; cbn; try assumption; try (constructor; reflexivity); [exact (cr_code _ _ _ _ Cr)|exact (cr_in _ _ _ _ Cr)].
  - destruct HX as (z2 & pos & S1 & S2 & S3 & S4 & S5). do 3 eexists. split; [reflexivity|]. cbn beta iota. exists z2, pos. cbn [v_dicPos v] in *. constructor; cbn [d_prop d_dicPos d_dic]; try assumption; try lia; [constructor; reflexivity|constructor].
Qed.

(** ** LzmaDec_DecodeReal2 *)
Lemma real2_ok src limit bufLimit : (bufLimit <= 0 \/ bufLimit + 20 <= zlen src) ->
  forall fuel p z buf, DZ p z -> DO p (z_out z) -> at_in src buf (k_in (z_coder z)) -> d_dicPos p <= limit <= p_dicSize (d_prop p) -> (Z.to_nat (limit - d_dicPos p) < fuel)%nat ->
  decoded (px (d_prop p)) z <> None -> (d_dicPos p < limit \/ forall s kn, decoded (px (d_prop p)) z = Some (s, kn) -> bulk s) ->
  exists p' buf' ok, real2_loop fuel src p limit buf bufLimit = Ret (p', buf', ok) /\
   if ok then
      (exists z' o, Run limit src p p' buf' z z' o /\ (d_dicPos p' = limit \/ bufLimit <= buf')) \/
      (exists z' kn, MarkR limit src p p' buf' z z' kn /\ 274 <= d_remain p' < 546)
   else exists z1 z2 pos, BadR limit p p' z z1 z2 pos.
Proof.
  intros HB. induction fuel as [|fuel IH]; intros p z buf HZ HO Hin Hlim Hfuel Hdec Hbulk; [lia|]. cbn [real2_loop]. cbv zeta.
  set (limit2 := if _ : bool then _ else _).
  assert (p_dicSize (d_prop p) < 4294967296) as HD by (destruct (dz_props _ _ HZ) as (_ & _ & _ & Hd); exact (proj2 Hd)).
  assert (d_dicPos p <= limit2 <= limit /\ (d_dicPos p < limit -> d_dicPos p < limit2) /\ (d_check p = 0 -> zlen (z_out z) + (limit2 - d_dicPos p) <= p_dicSize (d_prop p))) as (L1 & L2 & L3).
  { unfold limit2. rewrite (do_proc _ _ HO). destruct (do_check _ _ HO) as [(C1 & C2)|(C1 & C2)]; rewrite C1.
    - cbn [Z.eqb andb]. rewrite (u32_id (zlen (z_out z))) by (pose proof (zlen_nonneg (z_out z)); lia). rewrite u32_id by (pose proof (zlen_nonneg (z_out z)); lia).
      destruct (Z.ltb_spec (p_dicSize (d_prop p) - zlen (z_out z)) (limit - d_dicPos p)); lia.
    - assert (4096 <= p_dicSize (d_prop p)) by (destruct (dz_props _ _ HZ) as (_ & _ & _ & Hd); exact (proj1 Hd)). destruct (Z.eqb_spec (p_dicSize (d_prop p)) 0); [lia|]. cbn [andb]. lia. }
  clearbody limit2.
  destruct (DecodeReal_ok p z src buf limit2 bufLimit HZ HO Hin ltac:(lia) HB L3 Hdec) as (p1 & buf1 & ok & -> & HX).
  { destruct Hbulk as [Hb|Hb]; [left; lia|right; exact Hb]. }
  cbn [bind]. destruct ok; cbn [negb].
  2:{ destruct HX as (z2 & pos & B). do 3 eexists. split; [reflexivity|]. exists z, z2, pos. destruct B as [B1 B2 B3 B4 B5 B6 B7 B8 B9]. constructor; try assumption; try lia. destruct B9 as [B9|(B9 & B10 & B11)]; [left; exact B9|right]. split; [exact B9|]. split; [lia|exact B11]. }
  fold (fixc p1). destruct HX as [(z1 & o & Rn & Hex)|(z1 & kn & M & Hr)].
  2:{ rewrite WriteRem_end by (rewrite fixc_f by reflexivity; lia). cbn [bind]. rewrite (fixc_f d_remain) by reflexivity. change kMatchSpecLenStart with 274. destruct (Z.ltb_spec (d_remain p1) 274); [lia|]. rewrite andb_false_r.
      do 3 eexists. split; [reflexivity|]. cbn beta iota. right. exists z1, kn. destruct M as [M1 M2 M3 M4 M5 M6 M7 M8]. split; [|rewrite fixc_f by reflexivity; exact Hr].
      constructor; repeat (rewrite fixc_f by reflexivity); try assumption; [|lia]. destruct M1 as [S1 S2 S3 S4]. constructor; rewrite fixc_f by reflexivity; assumption. }
  destruct Rn as [N1 N2 N3 N4 N5 N6 N7 N8 N9]. pose proof (sm_prop _ _ N1) as Ep.
  destruct (WriteRem_ok (fixc p1) z1 o limit N3 ltac:(rewrite Ep; lia)) as (p2 & o2 & -> & W1 & W2 & W3 & W4 & W5 & W6 & _). cbn [bind]. pose proof (sm_prop _ _ W1) as Ep2.
  assert (Run limit src p p2 buf1 z z1 o2) as Rn2.
  { constructor; try assumption; [exact (same_trans _ _ _ N1 W1)|lia|lia| |]. { destruct N8 as (w1 & ->). destruct W6 as (w2 & ->). exists (w1 ++ w2). symmetry. apply app_assoc. } destruct N9 as (y & Y1 & Y2 & Y3). exists y. split; [exact Y1|]. split; [exact Y2|]. destruct W6 as (w2 & ->). rewrite zlen_app. pose proof (zlen_nonneg w2). lia. }
  change kMatchSpecLenStart with 274. destruct ((d_dicPos p2 <? limit) && (buf1 <? bufLimit) && (d_remain p2 <? 274)) eqn:Ec.
  2:{ do 3 eexists. split; [reflexivity|]. cbn beta iota. left. exists z1, o2. split; [exact Rn2|]. pose proof (st_len _ _ _ W2).
      apply andb_false_iff in Ec. destruct Ec as [Ec|Ec]; [apply andb_false_iff in Ec; destruct Ec as [Ec|Ec]|]; apply Z.ltb_ge in Ec; lia. }
  apply andb_true_iff in Ec. destruct Ec as (Ec & _). apply andb_true_iff in Ec. destruct Ec as (Ec1 & Ec2). apply Z.ltb_lt in Ec1. apply Z.ltb_lt in Ec2.
  assert (d_remain p2 = 0) as E0 by (destruct (Z.eq_dec (d_remain p2) 0) as [e|e]; [exact e|specialize (W5 e); lia]). pose proof (st_zero _ _ _ W2 E0) as Eo. subst o2.
  assert (d_prop p2 = d_prop p) as E2 by congruence.
  destruct (IH p2 z1 buf1 (st_dz _ _ _ W2) (st_do _ _ _ W2) N4) as (p3 & buf3 & ok & Er & HX).
  - rewrite E2. lia.
  - pose proof (rn_more _ _ _ _ _ _ _ _ Rn2). lia.
  - pose proof (dz_inv _ _ (st_dz _ _ _ W2)) as I1. rewrite E2 in *. apply enough_input; [apply (zi_good _ _ I1)|apply (zi_normal _ _ I1)|]. pose proof (at_in_len _ _ _ N4). destruct N4 as (Hb & _). lia.
  - left. exact Ec1.
  - exists p3, buf3, ok. split; [exact Er|]. destruct Rn2 as [K1 K2 K3 K4 K5 K6 K7 K8 K9]. destruct ok.
    + destruct HX as [(z3 & o3 & X & Hx)|(z3 & kn & M & Hx)].
      * left. exists z3, o3. split; [|exact Hx]. destruct X as [X1 X2 X3 X4 X5 X6 X7 X8 X9]. rewrite E2 in X2, X9. constructor; try assumption; try lia; [exact (same_trans _ _ _ K1 X1)|exact (steps_trans _ _ _ _ K2 X2)| |].
        { destruct K8 as (w1 & Ew). destruct X8 as (w2 & ->). rewrite Ew. exists (w1 ++ w2). symmetry. apply app_assoc. }
        destruct X9 as (y & Y1 & Y2). exists y. split; [exact (steps_trans _ _ _ _ K2 Y1)|exact Y2].
      * right. exists z3, kn. split; [|exact Hx]. destruct M as [M1 M2 M3 M4 M5 M6 M7 M8]. rewrite E2 in *. constructor; try assumption; try lia; [exact (same_trans _ _ _ K1 M1)|exact (steps_trans _ _ _ _ K2 M2)].
    + destruct HX as (za & zb & pos & B). exists za, zb, pos. destruct B as [B1 B2 B3 B4 B5 B6 B7 B8 B9]. rewrite E2 in *. constructor; try assumption; try lia; [exact (same_trans _ _ _ K1 B1)|exact (steps_trans _ _ _ _ K2 B2)|].
      destruct B9 as [B9|(_ & B9 & _)]; [left; exact B9|lia].
Qed.
Lemma DecodeReal2_ok src limit bufLimit p z buf : (bufLimit <= 0 \/ bufLimit + 20 <= zlen src) ->
  DZ p z -> DO p (z_out z) -> at_in src buf (k_in (z_coder z)) -> d_dicPos p <= limit <= p_dicSize (d_prop p) ->
  decoded (px (d_prop p)) z <> None -> (d_dicPos p < limit \/ forall s kn, decoded (px (d_prop p)) z = Some (s, kn) -> bulk s) ->
  exists p' buf' ok, DecodeReal2 src p limit buf bufLimit = Ret (p', buf', ok) /\
   if ok then
      (exists z' o, Run limit src p p' buf' z z' o /\ (d_dicPos p' = limit \/ bufLimit <= buf')) \/
      (exists z' kn, MarkR limit src p p' buf' z z' kn /\ d_remain p' = 274)
   else exists z1 z2 pos, BadR limit p p' z z1 z2 pos.
Proof.
  intros HB HZ HO Hin Hlim Hdec Hbulk. unfold DecodeReal2.
  destruct (real2_ok src limit bufLimit HB (Z.to_nat (limit - d_dicPos p) + 1) p z buf HZ HO Hin Hlim ltac:(lia) Hdec Hbulk) as (p1 & buf1 & ok & -> & HX). cbn [bind]. destruct ok; cbn [negb].
  - do 3 eexists. split; [reflexivity|]. cbn beta iota. change kMatchSpecLenStart with 274. destruct HX as [(z1 & o & Rn & Hx)|(z1 & kn & M & Hx)].
    + pose proof (st_len _ _ _ (rn_st _ _ _ _ _ _ _ _ Rn)). destruct (Z.ltb_spec 274 (d_remain p1)); [lia|]. left. exists z1, o. split; assumption.
    + right. exists z1, kn. destruct (Z.ltb_spec 274 (d_remain p1)); [|split; [exact M|lia]]. split; [|reflexivity]. destruct M as [M1 M2 M3 M4 M5 M6 M7 M8]. constructor; try assumption. destruct M1. constructor; assumption.
  - do 3 eexists. split; [reflexivity|]. exact HX.
Qed.
