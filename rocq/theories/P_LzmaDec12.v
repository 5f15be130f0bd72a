(** LzmaDec_DecodeToBuf. *)
From Verif Require Import Base InflateSpec LzmaFormatSpec P_LzmaFormat P_LzmaFormat2 M_LzmaDec P_LzmaDec1 P_LzmaDec2 P_LzmaDec3 P_LzmaDec4 P_LzmaDec5 P_LzmaDec6 P_LzmaDec7 P_LzmaDec8 P_LzmaDec9 P_LzmaDec10 P_LzmaDec11.

Lemma inv_ring pr p r o : INV pr p r o -> Ring (p_dicSize pr) (d_dic p) (d_dicPos p) o.
Proof.
  intros [Q1 Q2 Q3 Q4 Q5 Q6 -> Q8 Q9 Q10|z Q1 Q2 Q3 Q4 Q5 -> Q7 Q8 Q9 Q10 Q11 Q12 Q13|z0 z Q1 Q2 Q3 Q4 Q5 Q6 Q7 Q8 Qx|z0 z k Q1 Q2 Q3 Q4 Q5 Q6 Q7 Q8 Q9 Q10 Q11]; try assumption.
  pose proof (do_ring _ _ (st_do _ _ _ Q6)) as R. rewrite Q1 in R. exact R.
Qed.
Lemma inv_wrap pr p r o : INV pr p r o -> d_dicPos p = p_dicSize pr -> INV pr (set_dicPos p 0) r o.
Proof.
  intros H E. pose proof (inv_ring _ _ _ _ H) as R. rewrite E in R. apply ring_wrap in R.
  destruct H as [Q1 Q2 Q3 Q4 Q5 Q6 Q7 Q8 Q9 Q10|z Q1 Q2 Q3 Q4 Q5 Q6 Q7 Q8 Q9 Q10 Q11 Q12 Q13|z0 z Q1 Q2 Q3 Q4 Q5 Q6 Q7 Q8 Qx|z0 z k Q1 Q2 Q3 Q4 Q5 Q6 Q7 Q8 Q9 Q10 Q11].
  - subst o. apply I_Pre; try assumption; reflexivity.
  - subst o. apply (I_Fresh _ _ _ _ z); try assumption; reflexivity.
  - apply (I_Run _ _ _ _ z0 z); try assumption. destruct Q6 as [S1 S2 S3 S4 S5]. destruct S1. destruct S2. constructor; try assumption; constructor; try assumption. cbn [set_dicPos d_prop d_dic d_dicPos]. rewrite Q1. exact R.
  - apply (I_End _ _ _ _ z0 z k); assumption.
Qed.
Lemma dic_bytes_app a b : forall x, dic_bytes (a ++ b) = Ret x -> exists y z, dic_bytes a = Ret y /\ dic_bytes b = Ret z /\ x = y ++ z.
Proof.
  induction a as [|[c|] a IH]; intros x; cbn [app dic_bytes].
  - intros E. exists [], x. split; [reflexivity|]. split; [exact E|reflexivity].
  - destruct (dic_bytes (a ++ b)) as [x1| | |] eqn:E; try discriminate. cbn [bind]. intros Q; injection Q as <-. destruct (IH _ eq_refl) as (y & z & -> & -> & ->). exists (c :: y), z. cbn. auto.
  - discriminate.
Qed.
Lemma dic_bytes_len l : forall x, dic_bytes l = Ret x -> length x = length l.
Proof. induction l as [|[c|] l IH]; intros x; cbn [dic_bytes]; [intros E; injection E as <-; reflexivity| |discriminate]. destruct (dic_bytes l) as [x1| | |]; try discriminate. cbn [bind]. intros Q; injection Q as <-. cbn. rewrite (IH _ eq_refl). reflexivity. Qed.
Lemma dic_slice D dic pos dp o w e : Ring D dic pos (o ++ w ++ e) -> pos = dp + zlen w + zlen e -> 0 <= dp -> dic_bytes (slice dic dp (zlen w)) = Ret w.
Proof.
  intros R E H. pose proof (zlen_nonneg w) as Lw. pose proof (zlen_nonneg e) as Le. pose proof (zlen_nonneg o) as Lo.
  assert (zlen (w ++ e) = zlen w + zlen e) as La by apply zlen_app.
  assert (zlen (o ++ w ++ e) = zlen o + zlen (w ++ e)) as Lall by apply zlen_app.
  pose proof (dic_bytes_ok _ _ _ _ R (length (w ++ e))) as B. fold (zlen (w ++ e)) in B. specialize (B ltac:(lia) ltac:(lia)).
  replace (pos - zlen (w ++ e)) with dp in B by lia. unfold lastn in B. rewrite Lall in B. replace (Z.to_nat (zlen o + zlen (w ++ e) - zlen (w ++ e))) with (length o) in B by (unfold zlen; lia).
  rewrite skipn_app, skipn_all, Nat.sub_diag in B. cbn [app skipn] in B. rewrite La, <- slice_app in B by lia. destruct (dic_bytes_app _ _ _ B) as (y & z & E1 & E2 & E3). rewrite E1. f_equal.
  assert (length y = length w) as Ly.
  { rewrite (dic_bytes_len _ _ E1). pose proof (zlen_slice dic dp (zlen w) H ltac:(lia)) as Ls. rewrite (rg_len _ _ _ _ R) in Ls. pose proof (rg_pos _ _ _ _ R). specialize (Ls ltac:(lia)). unfold zlen in *. lia. }
  clear -E3 Ly. revert y E3 Ly. induction w as [|a w IH]; intros [|b y] E3 Ly; cbn in *; try discriminate; [reflexivity|]. injection E3 as -> E3. f_equal. apply IH; [exact E3|lia].
Qed.

Definition BRESULT (pr : props) (fin : bool) (space : Z) (r src o : list Z) (n : Z) (dest : list Z) (x : dec * Z * list Z * bool * lstatus) : Prop :=
  let '(p', n', dest', ok, st) := x in
  exists used rest y, src = used ++ rest /\ n' = n + zlen used /\ dest' = dest ++ y /\ zlen y <= space /\
  if ok then
    INV pr p' (r ++ used) (o ++ y) /\
    match st with
    | SFinishedWithMark => d_remain p' = 274 /\ d_code p' = 0
    | SNeedsMoreInput => rest = [] /\ lz_starving (px pr) (r ++ used) (o ++ y) /\ d_remain p' = 0 /\ (zlen y = space -> d_code p' <> 0 \/ d_needFlush p' = true)
    | SMaybeFinished => zlen y = space /\ d_remain p' = 0 /\ d_code p' = 0 /\ d_needFlush p' = false
    | SNotFinished => zlen y = space /\ fin = false /\ d_remain p' < 274 /\ d_needFlush p' = false /\ ~ (d_remain p' = 0 /\ d_code p' = 0)
    | SNotSpecified => False
    end
  else reach (px pr) (r ++ src) (o ++ y) /\ (lz_wrong (px pr) (r ++ src) (zlen o + space) \/ (fin = true /\ zlen y = space /\ lz_continues (px pr) (r ++ src) (o ++ y))).
Lemma bresult_more pr fin space r src o n dest u s2 w x : BRESULT pr fin (space - zlen w) (r ++ u) s2 (o ++ w) (n + zlen u) (dest ++ w) x -> src = u ++ s2 -> BRESULT pr fin space r src o n dest x.
Proof.
  intros H ->. destruct x as ((((p', n'), dest'), ok), st). destruct H as (used & rest & y & E & En & Ed & Hl & H). exists (u ++ used), rest, (w ++ y). rewrite !zlen_app.
  split; [rewrite E; apply app_assoc|]. split; [lia|]. split; [rewrite Ed; symmetry; apply app_assoc|]. split; [lia|]. rewrite <- !app_assoc in H. destruct ok.
  - destruct H as (H1 & H2). split; [exact H1|]. destruct st; try exact H2; try (destruct H2 as (H2 & H3); split; [lia|exact H3]). destruct H2 as (H2 & H3 & H4 & H5). split; [exact H2|]. split; [exact H3|]. split; [exact H4|]. intros Q. apply H5. lia.
  - destruct H as (H1 & H2). split; [exact H1|]. destruct H2 as [H2|(H2 & H3 & H4)]; [left; rewrite zlen_app in H2; replace (zlen o + zlen w + (space - zlen w)) with (zlen o + space) in H2 by lia; exact H2|right]. split; [exact H2|]. split; [lia|exact H4].
Qed.
Lemma wrong_le p t m m' : lz_wrong p t m -> m <= m' -> lz_wrong p t m'.
Proof. intros [H|(z0 & z & H1 & H2 & H3 & H4)] L; [left; exact H|right]. exists z0, z. split; [exact H1|]. split; [exact H2|]. split; [lia|exact H4]. Qed.
Lemma buf_loop_ok pr fin : lzprops_ok (px pr) -> forall fuel p r o dest space src n, INV pr p r o -> 0 <= space -> (Z.to_nat space < fuel)%nat ->
  exists x, buf_loop fuel p dest space src n fin = Ret x /\ BRESULT pr fin space r src o n dest x.
Proof.
  intros Hp. assert (4096 <= p_dicSize pr) as HD by (destruct Hp as (_ & _ & _ & Hd); exact (proj1 Hd)).
  induction fuel as [|fuel IH]; intros p r o dest space src n HI Hs Hf; [lia|]. cbn [buf_loop].
  set (p0 := if d_dicPos p =? d_bufSize p then set_dicPos p 0 else p).
  assert (d_bufSize p = p_dicSize pr) as Eb by exact (rg_len _ _ _ _ (inv_ring _ _ _ _ HI)).
  assert (INV pr p0 r o /\ 0 <= d_dicPos p0 < p_dicSize pr) as (I0 & H0).
  { unfold p0. rewrite Eb. pose proof (rg_pos _ _ _ _ (inv_ring _ _ _ _ HI)). destruct (Z.eqb_spec (d_dicPos p) (p_dicSize pr)) as [Q|Q]; [split; [apply inv_wrap; assumption|cbn; lia]|split; [exact HI|lia]]. }
  clearbody p0. clear Eb. assert (d_bufSize p0 = p_dicSize pr) as Eb by exact (rg_len _ _ _ _ (inv_ring _ _ _ _ I0)). rewrite Eb. cbv zeta.
  set (all := p_dicSize pr - d_dicPos p0 <? space). set (limit := if all then p_dicSize pr else d_dicPos p0 + space). set (fin' := if all then false else fin).
  assert (d_dicPos p0 <= limit <= p_dicSize pr /\ limit <= d_dicPos p0 + space /\ (all = true -> limit < d_dicPos p0 + space /\ d_dicPos p0 < limit) /\ (all = false -> limit = d_dicPos p0 + space)) as (L1 & L2 & L3 & L4).
  { unfold limit, all. destruct (Z.ltb_spec (p_dicSize pr - d_dicPos p0) space); lia. }
  clearbody limit.
  destruct (DecodeToDic_ok pr limit fin' Hp ltac:(lia) p0 r o src I0 ltac:(lia)) as ((((p1 & used') & ok) & st) & -> & HR). cbn [bind].
  destruct HR as (u & rest & w & Es & En & Ed & Hl & HR). rewrite Z.add_0_l in En. subst used'. rewrite Es, advance_ok. cbn [bind]. replace (d_dicPos p1 - d_dicPos p0) with (zlen w) by lia. pose proof (zlen_nonneg w) as Lw.
  destruct (Z.ltb_spec (zlen w) 0); [lia|]. destruct (Z.ltb_spec space (zlen w)); [lia|]. cbn [orb].
  assert (dic_bytes (slice (d_dic p1) (d_dicPos p0) (zlen w)) = Ret w) as ->.
  { destruct ok.
    - destruct HR as (HI1 & _). apply (dic_slice (p_dicSize pr) _ (d_dicPos p1) _ o w []); [rewrite app_nil_r; exact (inv_ring _ _ _ _ HI1)|change (zlen (@nil Z)) with 0; lia|lia].
    - destruct HR as ((e & pos & R & E & _) & _). apply (dic_slice (p_dicSize pr) _ pos _ o w e); [exact R|lia|lia]. }
  cbn [bind]. destruct ok; cbn [negb].
  - destruct HR as (HI1 & HR).
    destruct ((zlen w =? 0) || (space - zlen w =? 0)) eqn:Ec.
    + eexists; split; [reflexivity|]. cbn [BRESULT]. exists u, rest, w. split; [reflexivity|]. split; [reflexivity|]. split; [reflexivity|]. split; [lia|]. split; [exact HI1|].
      assert (d_dicPos p1 = limit -> all = false /\ zlen w = space) as HA.
      { intros Q. apply orb_true_iff in Ec. destruct all eqn:Ea; [exfalso|split; [reflexivity|rewrite (L4 eq_refl) in *; lia]]. destruct (L3 eq_refl). destruct Ec as [Ec|Ec]; apply Z.eqb_eq in Ec; lia. }
      destruct st; try exact HR.
      * destruct HR as (K1 & K2 & K3). destruct (HA K1) as (HA1 & HA2). unfold fin' in K2. rewrite HA1 in K2. auto.
      * destruct HR as (K1 & K2 & K3 & K4). split; [exact K1|]. split; [exact K2|]. split; [exact K3|]. intros Q. apply K4. lia.
      * destruct HR as (K1 & K2). destruct (HA K1) as (_ & HA2). auto.
    + apply orb_false_iff in Ec. destruct Ec as (Ec1 & Ec2). apply Z.eqb_neq in Ec1. apply Z.eqb_neq in Ec2.
      destruct (IH p1 (r ++ u) (o ++ w) (dest ++ w) (space - zlen w) rest (n + zlen u) HI1 ltac:(lia) ltac:(lia)) as (x & Ex & Hx). exists x. split; [exact Ex|]. apply (bresult_more _ _ _ _ _ _ _ _ u rest w); [exact Hx|reflexivity].
  - eexists; split; [reflexivity|]. cbn [BRESULT]. exists u, rest, w. split; [reflexivity|]. split; [reflexivity|]. split; [reflexivity|]. split; [lia|]. rewrite <- Es. destruct HR as ((e & pos & _ & _ & _ & HRe) & HW). split.
    + destruct HRe as [Q|(z0 & z & Z1 & Z2 & (t & Z3))]; [left|right; exists z0, z; split; [exact Z1|]; split; [exact Z2|]; exists (e ++ t); rewrite Z3, <- !app_assoc; reflexivity].
      apply app_eq_nil in Q. destruct Q as (-> & Q). apply app_eq_nil in Q. destruct Q as (-> & _). reflexivity.
    + destruct HW as [HW|(K1 & K2 & K3)]; [left; apply (wrong_le _ _ _ _ HW); lia|right]. unfold fin' in K1. destruct all eqn:Ea; [discriminate|]. split; [exact K1|]. split; [rewrite (L4 eq_refl) in *; lia|exact K3].
Qed.
Theorem DecodeToBuf_ok pr fin p r o space src : lzprops_ok (px pr) -> INV pr p r o -> 0 <= space ->
  exists x, DecodeToBuf p space src fin = Ret x /\ BRESULT pr fin space r src o 0 [] x.
Proof. intros Hp HI Hs. unfold DecodeToBuf. apply buf_loop_ok; try assumption. lia. Qed.
(** the new decoder *)
Lemma decoder_inv pr : lzprops_ok (px pr) -> INV pr (decoder pr) [] [].
Proof.
  intros Hp. destruct Hp as (_ & _ & _ & Hd). cbn in Hd. apply I_Pre; try reflexivity. cbn. constructor; [rewrite zlen_repeat; lia|lia|]. intros d H. change (zlen (@nil Z)) with 0 in H. lia.
Qed.
Lemma props_decoded data pr : Props_Decode data = Ret (Some pr) -> lzprops_ok (px pr).
Proof.
  unfold Props_Decode. destruct (zlen data <? 5); [discriminate|]. destruct (aget data 0) as [d0| | |]; try discriminate. destruct (aget data 1) as [d1| | |]; try discriminate. destruct (aget data 2) as [d2| | |]; try discriminate. destruct (aget data 3) as [d3| | |]; try discriminate. destruct (aget data 4) as [d4| | |]; try discriminate.
  cbn [bind]. cbv zeta. destruct (Z.leb_spec 225 (d0 mod 256)); [discriminate|]. intros E. injection E as <-. unfold lzprops_ok, px; cbn [x_lc x_lp x_pb x_dict p_lc p_lp p_pb p_dicSize].
  pose proof (Z.mod_pos_bound d0 256 ltac:(lia)). pose proof (Z.mod_pos_bound d1 256 ltac:(lia)). pose proof (Z.mod_pos_bound d2 256 ltac:(lia)). pose proof (Z.mod_pos_bound d3 256 ltac:(lia)). pose proof (Z.mod_pos_bound d4 256 ltac:(lia)).
  generalize dependent (d0 mod 256). intros d Hd1 Hd2. split; [pose proof (Z.mod_pos_bound d 9); lia|]. split; [pose proof (Z.mod_pos_bound (d / 9) 5); lia|]. split; [|match goal with |- context [?a <? 4096] => destruct (Z.ltb_spec a 4096) end; lia].
  rewrite Z.div_div by lia. split; [apply Z.div_pos; lia|]. assert (d / (9 * 5) < 5) by (apply Z.div_lt_upper_bound; lia). lia.
Qed.
