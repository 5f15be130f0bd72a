(** The bundled decoder is what LZMAInputStream needs. *)
From Verif Require Import Base InflateSpec LzmaFormatSpec P_LzmaFormat P_LzmaFormat2 M_LzmaDec P_LzmaDec1 P_LzmaDec2 P_LzmaDec3 P_LzmaDec4 P_LzmaDec5 P_LzmaDec6 P_LzmaDec7 P_LzmaDec8 P_LzmaDec9 P_LzmaDec10 P_LzmaDec11 P_LzmaDec12 P_LzmaDec13 T_LzmaDec M_Lzma LzmaSpec M_LzmaReal.

(** ** an end mark takes at least one byte *)
Lemma coded_weight_le c k : kgood k -> weight (fst (coded c k)) <= weight k.
Proof.
  intros (G1 & G2 & G3). specialize (G1 c). unfold weight. rewrite coded_in. apply Z.mul_le_mono_nonneg_r; [pose proof (pow256_pos (k_in k)); lia|]. unfold coded. cbv zeta.
  assert (0 <= k_range k / 2048 * k_probs k c) by (apply Z.mul_nonneg_nonneg; [apply Z.div_pos; lia|lia]).
  assert (k_range k / 2048 * k_probs k c <= k_range k).
  { pose proof (Z.mul_div_le (k_range k) 2048 ltac:(lia)). assert (k_range k / 2048 * k_probs k c <= k_range k / 2048 * 2048) by (apply Z.mul_le_mono_nonneg_l; [apply Z.div_pos; lia|lia]). lia. }
  destruct (_ <? _); cbn [fst k_range]; lia.
Qed.
Lemma halved_weight_le k : kgood k -> 2 * weight (fst (halved k)) <= weight k.
Proof.
  intros (G1 & G2 & G3). unfold weight. rewrite halved_in. rewrite Z.mul_assoc. apply Z.mul_le_mono_nonneg_r; [pose proof (pow256_pos (k_in k)); lia|]. unfold halved. cbv zeta.
  pose proof (Z.mul_div_le (k_range k) 2 ltac:(lia)). destruct (_ && _); cbn [fst k_range]; lia.
Qed.
Lemma weight_pos k : kgood k -> 0 < weight k.
Proof. intros (_ & G & _). unfold weight. apply Z.mul_pos_pos; [lia|apply pow256_pos]. Qed.
Lemma decode_weight {A} (p : prog A) : forall k a k', kgood k -> decode p k = Some (a, k') -> kgood k' /\ weight k' <= weight k.
Proof.
  induction p as [a|c f IH|f IH]; intros k a' k' G E; cbn [decode] in E.
  - injection E as _ <-. split; [exact G|lia].
  - destruct (norm k) as [k1|] eqn:En; [|discriminate]. destruct (norm_good _ _ G En) as (G1 & N1 & _). rewrite <- (norm_weight _ _ En).
    pose proof (coded_good c k1 G1 N1) as (G2 & _). pose proof (coded_weight_le c k1 G1) as L. destruct (coded c k1) as (k2 & b) eqn:Ec. cbn [fst] in *.
    destruct (IH _ _ _ _ G2 E) as (G3 & L3). split; [exact G3|lia].
  - destruct (norm k) as [k1|] eqn:En; [|discriminate]. destruct (norm_good _ _ G En) as (G1 & N1 & _). rewrite <- (norm_weight _ _ En).
    pose proof (halved_good k1 G1 N1) as (G2 & _). pose proof (halved_weight_le k1 G1) as L. destruct (halved k1) as (k2 & b) eqn:Ec. cbn [fst] in *.
    destruct (IH _ _ _ _ G2 E) as (G3 & L3). split; [exact G3|]. pose proof (weight_pos _ G2). lia.
Qed.
Lemma direct_weight : forall n m k a k', kgood k -> decode (direct n m) k = Some (a, k') -> kgood k' /\ 2 ^ Z.of_nat n * weight k' <= weight k.
Proof.
  induction n as [|n IH]; intros m k a k' G E; cbn [direct decode] in E.
  - injection E as _ <-. change (2 ^ Z.of_nat 0) with 1. split; [exact G|lia].
  - destruct (norm k) as [k1|] eqn:En; [|discriminate]. destruct (norm_good _ _ G En) as (G1 & N1 & _). rewrite <- (norm_weight _ _ En).
    pose proof (halved_good k1 G1 N1) as (G2 & _). pose proof (halved_weight_le k1 G1) as L. destruct (halved k1) as (k2 & b) eqn:Ec. cbn [fst] in *.
    destruct (IH _ _ _ _ G2 E) as (G3 & L3). split; [exact G3|]. rewrite Nat2Z.inj_succ, Z.pow_succ_r by lia. lia.
Qed.
Lemma decode_seq {A B} (p : prog A) (f : A -> prog B) k a k' : decode (pbind p f) k = Some (a, k') -> exists x k1, decode p k = Some (x, k1) /\ decode (f x) k1 = Some (a, k').
Proof. rewrite decode_bind. destruct (decode p k) as [(x & k1)|]; [|discriminate]. intros E. exists x, k1. split; [reflexivity|exact E]. Qed.
Lemma distance_mark l k k' : kgood k -> decode (distance l) k = Some (4294967295, k') -> kgood k' /\ 2 ^ 26 * weight k' <= weight k.
Proof.
  intros G E. unfold distance in E. apply decode_seq in E. destruct E as (slot & k1 & E1 & E). destruct (decode_weight _ _ _ _ G E1) as (G1 & L1). pose proof (returns_decode _ _ _ _ _ (returns_number _ _) E1) as Hs. cbv beta in Hs. change (2 ^ Z.of_nat 6) with 64 in Hs.
  destruct (Z.ltb_spec slot 4) as [S4|S4]; [cbn [decode] in E; assert (slot = 4294967295) by congruence; lia|]. cbv zeta in E. destruct (slot_bits slot ltac:(lia)) as (B1 & B2 & B3 & B4). set (bits := slot / 2 - 1) in *. set (high := 2 + slot mod 2) in *. clearbody bits high.
  destruct (Z.ltb_spec slot 14) as [S14|S14].
  - exfalso. apply decode_seq in E. destruct E as (low & k2 & E2 & E). pose proof (returns_decode _ _ _ _ _ (returns_reversed _ _) E2) as Hl. cbv beta in Hl. rewrite Z2Nat.id in Hl by lia. cbn [decode] in E. assert (high * 2 ^ bits + low = 4294967295) as Q by congruence.
    assert (2 ^ bits <= 2 ^ 5) by (apply Z.pow_le_mono_r; lia). change (2 ^ 5) with 32 in *. assert (0 <= 2 ^ bits) by (apply Z.pow_nonneg; lia). nia.
  - apply decode_seq in E. destruct E as (mid & k2 & E2 & E). apply decode_seq in E. destruct E as (low & k3 & E3 & E). cbn [decode] in E. assert (mid * 16 + low = 4294967295 /\ k3 = k') as (Q & ->) by (split; congruence).
    pose proof (returns_decode _ _ _ _ _ (returns_direct _ _) E2) as Hm. pose proof (returns_decode _ _ _ _ _ (returns_reversed _ _) E3) as Hl. cbv beta in Hm, Hl. change (2 ^ Z.of_nat 4) with 16 in Hl. rewrite Z2Nat.id in Hm by lia.
    assert (bits = 30) as ->.
    { destruct (Z.eq_dec bits 30) as [H|H]; [exact H|exfalso]. assert (2 ^ (bits - 4) <= 2 ^ 25) by (apply Z.pow_le_mono_r; lia). change (2 ^ 25) with 33554432 in *. nia. }
    destruct (direct_weight _ _ _ _ _ G1 E2) as (G2 & L2). destruct (decode_weight _ _ _ _ G2 E3) as (G3 & L3). split; [exact G3|]. change (Z.of_nat (Z.to_nat (30 - 4))) with 26 in L2. change (2 ^ 26) with 67108864 in *. lia.
Qed.
Lemma mark_weight st pos lit ex k k' : kgood k -> decode (sym st pos lit ex) k = Some (EndMark, k') -> kgood k' /\ 2 ^ 26 * weight k' <= weight k.
Proof.
  intros G E. unfold sym in E. apply decode_seq in E. destruct E as (m & k1 & E1 & E). destruct (decode_weight _ _ _ _ G E1) as (G1 & L1). destruct m.
  2:{ apply decode_seq in E. destruct E as (b & k2 & _ & E). cbn [decode] in E. discriminate. }
  apply decode_seq in E. destruct E as (r & k2 & E2 & E). destruct (decode_weight _ _ _ _ G1 E2) as (G2 & L2). destruct r.
  { apply decode_seq in E. destruct E as (g & k3 & _ & E). apply decode_seq in E. destruct E as (w & k4 & _ & E). destruct w; [apply decode_seq in E; destruct E as (l & k5 & _ & E)|]; cbn [decode] in E; discriminate. }
  apply decode_seq in E. destruct E as (l & k3 & E3 & E). destruct (decode_weight _ _ _ _ G2 E3) as (G3 & L3). apply decode_seq in E. destruct E as (d & k4 & E4 & E). cbn [decode] in E.
  destruct (Z.eqb_spec d 4294967295) as [->|]; [|discriminate]. assert (k4 = k') as -> by congruence. destruct (distance_mark _ _ _ G3 E4) as (G4 & L4). split; [exact G4|lia].
Qed.
Lemma mark_takes_input p z k : zinv p z -> decoded p z = Some (EndMark, k) -> k_in (z_coder z) <> [].
Proof.
  intros I E Q. unfold decoded in E. destruct (decode (next_sym p z) (z_coder z)) as [(s & k1)|] eqn:E1; [|discriminate]. destruct (norm k1) as [k2|] eqn:E2; [|discriminate]. assert (s = EndMark) as -> by congruence.
  destruct (mark_weight _ _ _ _ _ _ (zi_good _ _ I) E1) as (G & L). destruct (norm_good _ _ G E2) as (G2 & N2 & _). pose proof (norm_weight _ _ E2) as W. destruct (zi_good _ _ I) as (_ & Gr & _). unfold weight in *. rewrite Q in L. change (256 ^ zlen (@nil Z)) with 1 in L. unfold normal in N2.
  pose proof (pow256_pos (k_in k2)) as Hp. change (2 ^ 26) with 67108864 in L. nia.
Qed.

(** ** what LzmaSpec.v asks of a decoder *)
Definition real_format (p : lzprops) : lzformat := mkLzformat (lz_output p) (lz_valid_data p) (lz_marked_data p).
Definition real_DI (pr : props) (d : dec) (u o : list Z) : Prop := INV pr d u o /\ d_remain d <> 274.

Lemma valid_point p c x t : lz_valid_data p c x -> exists z y, start (c ++ t) = Some (morez z t) /\ steps p (morez z t) (morez y t) /\ z_out y = x /\ 5 <= zlen c.
Proof.
  intros [(z & y & E & H & O & _)|(z & y & k & E & H & O & _)]; exists z, y; (split; [apply start_more, E|]; split; [apply steps_more, H|]; split; [exact O|]);
    unfold start in E; destruct c as [|b0 [|b1 [|b2 [|b3 [|b4 r]]]]]; try discriminate; rewrite !zlen_cons; pose proof (zlen_nonneg r); lia.
Qed.
Lemma wrong_more p t s m : lzprops_ok p -> lz_wrong p t m -> lz_wrong p (t ++ s) m.
Proof.
  intros Hp [(L & E)|(z0 & z & H1 & H2 & H3 & H4)].
  - left. rewrite zlen_app. pose proof (zlen_nonneg s). split; [lia|]. unfold start in *. destruct t as [|b0 [|b1 [|b2 [|b3 [|b4 r]]]]]; try (unfold zlen in L; cbn in L; lia). cbn [app]. destruct (b0 mod 256 =? 0); [discriminate|reflexivity].
  - right. exists (morez z0 s), (morez z s). split; [apply start_more, H1|]. split; [apply steps_more, H2|]. split; [exact H3|]. destruct H4 as [H4|(k & H4 & H5)]; pose proof (step_more p z s ltac:(congruence)) as Q; rewrite H4 in Q; [left; exact Q|right]. exists (more k s). split; [exact Q|exact H5].
Qed.
(** input behind complete data: all of the data was delivered *)
Lemma real_lazy pr d u o c t x : lzprops_ok (px pr) -> real_DI pr d u o -> lz_valid_data (px pr) c x -> u = c ++ t -> t <> [] -> zlen x <= zlen o.
Proof.
  intros Hp (HI & HR) Hv -> Ht. destruct (valid_point _ _ _ t Hv) as (zc & y & C1 & C2 & C3 & C5).
  destruct (inv_view _ _ _ _ Hp HI) as [(_ & V & _)|(_ & [(z0 & z & F)|(z0 & z & k & F)])]; [rewrite zlen_app in V; pose proof (zlen_nonneg t); lia| |exfalso; apply HR; apply F].
  destruct F as [F1 F2 F3 F4 F5 F6 F7 F8 F9]. assert (z0 = morez zc t) as -> by congruence. destruct (start_inv _ _ _ Hp C1) as (Ic & _). destruct (steps_inv _ _ _ Ic C2) as (Iy & _). destruct (steps_inv _ _ _ Ic F2) as (Iz & _). destruct F7 as (w & W & Lw).
  destruct (d_temp d) as [|b tt] eqn:Et.
  - assert (z <> morez y t /\ ~ steps (px pr) z (morez y t)) as (N1 & N2).
    { assert (~ steps (px pr) z (morez y t)) as N. { intros Q. destruct (steps_inv _ _ _ Iz Q) as (_ & _ & (q & Q2)). rewrite F4 in Q2. cbn in Q2. destruct q; [|discriminate]. destruct (k_in (z_coder y)); [|discriminate]. destruct t; [congruence|discriminate]. }
      split; [|exact N]. intros ->. apply N. constructor. }
    destruct (steps_linear _ _ _ _ F2 C2) as [Q|Q]; [contradiction|].
    destruct (Z.eq_dec (d_remain d) 0) as [R0|R0].
    + pose proof (steps_out_le _ _ _ Iy Q) as L. cbn [morez z_out] in L. rewrite C3, W, zlen_app in L. lia.
    + destruct (F8 R0) as (y' & Y1 & Y2 & Y3). destruct (steps_linear _ _ _ _ Y1 C2) as [S|S].
      * destruct (steps_first _ _ _ S) as [S1|(y2 & S1 & S2)]; [rewrite S1 in Y3; cbn [morez z_out] in Y3; rewrite C3 in Y3; lia|]. exfalso. apply N2. assert (y2 = z) as <- by congruence. exact S2.
      * pose proof (steps_out_le _ _ _ Iy S) as L. cbn [morez z_out] in L. rewrite C3 in L. lia.
  - destruct (F9 ltac:(discriminate)) as (R0 & Nd). assert (step (px pr) z = Starved) as Sz by (rewrite step_eq, Nd; reflexivity).
    pose proof (states_last _ _ _ _ _ Hp C1 C2 F2 ltac:(intros q; congruence)) as Q. pose proof (steps_out_le _ _ _ Iy Q) as L. cbn [morez z_out] in L. rewrite C3, W, zlen_app in L. lia.
Qed.
(** the mark is not read without being reported *)
Lemma real_unended pr d u o c t x : lzprops_ok (px pr) -> real_DI pr d u o -> lz_marked_data (px pr) c x -> u <> c ++ t.
Proof.
  intros Hp (HI & HR) (zc & y & k & C1 & C2 & C3 & C4 & C5 & C6) ->. pose proof (start_len _ _ _ Hp C1) as L5. pose proof (zlen_nonneg (k_in (z_coder zc))). apply (start_more _ t) in C1. apply (steps_more _ _ _ t) in C2. pose proof (step_more (px pr) y t ltac:(congruence)) as C4'. rewrite C4 in C4'. cbn [more_out] in C4'.
  destruct (inv_view _ _ _ _ Hp HI) as [(_ & V & _)|(_ & [(z0 & z & F)|(z0 & z & k1 & F)])]; [rewrite zlen_app in V; pose proof (zlen_nonneg t); lia| |exfalso; apply HR; apply F].
  destruct F as [F1 F2 F3 F4 F5 F6 F7 F8 F9]. assert (z0 = morez zc t) as -> by congruence. destruct (start_inv _ _ _ Hp C1) as (Ic & _). destruct (steps_inv _ _ _ Ic C2) as (Iy & _). destruct (steps_inv _ _ _ Ic F2) as (Iz & _).
  pose proof (states_last _ _ _ _ _ Hp C1 F2 C2 ltac:(intros q; congruence)) as Q.
  destruct (d_temp d) as [|b tt] eqn:Et.
  - destruct (steps_inv _ _ _ Iz Q) as (_ & _ & (q & Q2)). rewrite F4 in Q2. assert (k_in (z_coder (morez y t)) = []) as Q3 by (destruct q; [symmetry; exact Q2|discriminate]). exact (mark_takes_input _ _ _ Iy (step_marked _ _ _ C4') Q3).
  - destruct (F9 ltac:(discriminate)) as (R0 & Nd). assert (step (px pr) z = Starved) as Sz by (rewrite step_eq, Nd; reflexivity). rewrite (steps_end _ _ _ Q) in C4' by (intros q; congruence). congruence.
Qed.
Theorem real_ok pr : lzprops_ok (px pr) -> lzma_ok (real_format (px pr)) (lz_real pr) (real_DI pr).
Proof.
  intros Hp. split; cbn [lz_dec lz_valid lz_marked real_format l_init l_step lz_real].
  - intros c x t H. apply valid_output; assumption.
  - intros c x H. split; [right; exact H|]. intros t. apply marked_output; assumption.
  - split; [apply decoder_inv, Hp|cbn; lia].
  - intros d u o c t x. apply real_lazy, Hp.
  - intros d u o c t x. apply real_unended, Hp.
  - intros d u o w space fin d' k y r HD Hw Hs E. pose proof HD as (HI & HR). unfold lz_step in E.
    destruct (DecodeToBuf_ok pr fin d u o space w Hp HI ltac:(lia)) as (((((p' & n) & y') & ok) & st) & E2 & HB). rewrite E2 in E. assert (p' = d' /\ n = k /\ y' = y /\ r = if ok then LOk (match st with SFinishedWithMark => true | _ => false end) else LBad) as (-> & -> & -> & ->) by (split; [|split; [|split]]; congruence). clear E.
    destruct HB as (used & rest & w' & -> & En & Ey & Hl & HB). cbn [app] in Ey. subst w'. rewrite (used_firstn _ _ _ En). pose proof (zlen_nonneg used) as Lu. pose proof (zlen_nonneg rest) as Lr. pose proof (zlen_nonneg y) as Ly.
    split; [rewrite zlen_app; lia|]. split; [exact Hl|]. destruct ok.
    + destruct HB as (HI' & HB). split.
      { intros t. rewrite <- app_assoc. rewrite app_assoc. apply reach_output; [exact Hp|]. apply (inv_reach _ _ _ _ (rest ++ t) Hp HI'). }
      assert (st = SFinishedWithMark \/ (match st with SFinishedWithMark => true | _ => false end = false /\ d_remain d' <> 274 /\ (0 < k \/ 0 < zlen y))) as [->|(-> & R2 & Pg)].
      { destruct st; [contradiction|left; reflexivity| | |]; right; (split; [reflexivity|]).
        - destruct HB as (K1 & _ & K2 & _). split; [lia|right; lia].
        - destruct HB as (-> & _ & K2 & _). rewrite app_nil_r in *. split; [lia|left]. destruct used as [|b q]; [congruence|]. rewrite zlen_cons in En. pose proof (zlen_nonneg q). lia.
        - destruct HB as (K1 & K2 & _). split; [lia|right; lia]. }
      * destruct HB as (K1 & K2). assert (lz_marked_data (px pr) (u ++ used) (o ++ y)) as HM.
        { destruct (inv_view _ _ _ _ Hp HI') as [(_ & _ & _ & Q)|(_ & [(z0 & z & F)|(z0 & z & kk & F)])]; [lia|pose proof (fl_rem _ _ _ _ _ _ F); lia|]. destruct F as [F1 F2 F3 F4 F5 F6 F7]. exists z0, z, kk. split; [exact F1|]. split; [exact F2|]. split; [exact F6|]. split; [exact F3|]. split; [exact F4|congruence]. }
        split; [|exact HM]. destruct (Z.eq_dec k 0) as [K0|K0]; [|left; lia]. destruct (Z.eq_dec (zlen y) 0) as [Y0|Y0]; [|right; lia]. exfalso.
        assert (used = []) as -> by (destruct used as [|b q]; [reflexivity|rewrite zlen_cons in En; pose proof (zlen_nonneg q); lia]). rewrite app_nil_r in HM. apply (real_unended _ _ _ _ _ [] _ Hp HD HM). rewrite app_nil_r. reflexivity.
      * split; [exact Pg|]. split; [exact HI'|exact R2].
    + split.
      { intros t. destruct HB as (HB & _). apply reach_output; [exact Hp|]. destruct HB as [HB|(z0 & z & B1 & B2 & B3)]; [left; exact HB|right]. exists (morez z0 t), (morez z t). rewrite (app_assoc u). split; [apply start_more, B1|]. split; [apply steps_more, B2|exact B3]. }
      intros t c b x Ec Hv. destruct HB as (HB1 & [HW|(-> & HW & HC)]).
      * assert (zlen x < zlen o + space /\ ~ lz_marked_data (px pr) c x) as (G1 & G2); [|destruct fin; [lia|split; assumption]].
        apply (wrong_more _ _ t _ Hp) in HW. rewrite <- app_assoc, Ec in HW. assert (~ lz_marked_data (px pr) c x) as NM by (intros Q; exact (marked_not_wrong _ _ _ _ _ Hp Q HW)). split; [|exact NM].
        destruct Hv as [(zc & yc & C1 & C2 & C3 & C4 & C5)|Hv]; [|contradiction]. apply (start_more _ b) in C1. apply (steps_more _ _ _ b) in C2. destruct (start_inv _ _ _ Hp C1) as (Ic & _). destruct (steps_inv _ _ _ Ic C2) as (Iy & _).
        destruct HW as [(_ & Q)|(z0 & z & Q1 & Q2 & Q3 & Q4)]; [congruence|]. assert (z0 = morez zc b) as -> by congruence.
        assert (forall q, step (px pr) z <> Next q) as Nz by (intros q; destruct Q4 as [Q4|(kk & Q4 & _)]; congruence).
        pose proof (states_last _ _ _ _ _ Hp C1 C2 Q2 Nz) as S. pose proof (steps_out_le _ _ _ Iy S) as L. cbn [morez z_out] in L. rewrite C3 in L.
        destruct (Z.eq_dec (zlen x) (zlen o + space)) as [Q|Q]; [exfalso|lia]. apply (steps_same _ _ _ Iy) in S; [|cbn [morez z_out]; rewrite C3; lia]. subst z. destruct (zero_step _ _ Iy C5) as [S|(q & S)]; [|exact (Nz _ S)]. destruct Q4 as [Q4|(kk & Q4 & _)]; congruence.
      * intros Lx. destruct HC as (z0 & z & yy & Q1 & Q2 & Q3 & Q4 & Q5). apply (start_more _ t) in Q1. apply (steps_more _ _ _ t) in Q2. pose proof (step_more (px pr) z t ltac:(congruence)) as Q3'. rewrite Q3 in Q3'. cbn [more_out] in Q3'. rewrite <- app_assoc, Ec in Q1.
        assert (prefix (o ++ y) (lz_output (px pr) (u ++ (used ++ rest) ++ t))) as RO.
        { apply reach_output; [exact Hp|]. destruct HB1 as [HB|(z1 & z2 & B1 & B2 & B3)]; [left; exact HB|right]. exists (morez z1 t), (morez z2 t). rewrite (app_assoc u). split; [apply start_more, B1|]. split; [apply steps_more, B2|exact B3]. }
        rewrite Ec in RO. pose proof (valid_output _ _ _ b Hp Hv) as VO. assert (zlen (o ++ y) = zlen x) as Lo by (rewrite zlen_app; lia).
        assert (o ++ y = x) as EX. { destruct RO as (q1 & RO). destruct VO as (q2 & VO). rewrite RO in VO. revert VO Lo. clear. generalize (o ++ y) as a. intros a. revert x. induction a as [|v a IH]; intros [|v' x] Q L; rewrite ?zlen_cons in L; try (pose proof (zlen_nonneg a); change (zlen (@nil Z)) with 0 in L; lia); try (pose proof (zlen_nonneg x); change (zlen (@nil Z)) with 0 in L; lia); [reflexivity|]. cbn in Q. injection Q as -> Q. f_equal. apply IH; [exact Q|lia]. }
        rewrite EX in *. destruct Hv as [(zc & yc & C1 & C2 & C3 & C4 & C5)|(zc & yc & kk & C1 & C2 & C3 & C4 & _)]; apply (start_more _ b) in C1; apply (steps_more _ _ _ b) in C2; assert (morez zc b = morez z0 t) as Qs by congruence; rewrite Qs in *.
        -- destruct (Z.eq_dec (zlen (z_out z)) (zlen x)) as [L|L].
           ++ assert (morez z t = morez yc b) as Qz by (apply (states_same _ _ _ _ _ Hp C1 Q2 C2); cbn [morez z_out]; rewrite C3; exact L). apply Q5. pose proof (f_equal z_out Qz) as A1. pose proof (f_equal (fun z => k_code (z_coder z)) Qz) as A2. cbn in A1, A2. split; congruence.
           ++ pose proof (states_between _ _ _ _ _ _ Hp C1 Q2 Q3' C2) as B. cbn [morez z_out] in B. rewrite C3 in B. lia.
        -- pose proof (step_more (px pr) yc b ltac:(congruence)) as C4'. rewrite C4 in C4'. cbn [more_out] in C4'. assert (steps (px pr) (morez z0 t) (morez yy t)) as Sy by exact (StepsS _ _ _ _ Q2 Q3').
           pose proof (states_last _ _ _ _ _ Hp C1 Sy C2 ltac:(intros q; congruence)) as S. destruct (start_inv _ _ _ Hp C1) as (Ic & _). destruct (steps_inv _ _ _ Ic Sy) as (Iyy & _). pose proof (steps_out_le _ _ _ Iyy S) as L. cbn [morez z_out] in L. rewrite C3 in L. lia.
Qed.
(** ** and of a decoder of any data *)
Lemma lzrun_out p : forall n z, zinv p z -> zlen (z_out (lzrun n p z)) <= zlen (z_out z) + 273 * Z.of_nat n /\ zinv p (lzrun n p z).
Proof.
  induction n as [|n IH]; intros z I; cbn [lzrun]; [split; [lia|exact I]|]. destruct (step p z) as [|y| |] eqn:E; try (split; [lia|exact I]).
  destruct (step_next _ _ _ I E) as (Iy & (w & W & Lw) & _). destruct (IH y Iy) as (L & I2). rewrite W, zlen_app in L. split; [lia|exact I2].
Qed.
Lemma output_bound p r : lzprops_ok p -> zlen (lz_output p r) <= 109200 * (zlen r + 1) /\ Forall is_byte (lz_output p r).
Proof.
  intros Hp. unfold lz_output. destruct (start r) as [z|] eqn:E; [|split; [change (zlen (@nil Z)) with 0; pose proof (zlen_nonneg r); lia|constructor]]. destruct (start_inv p _ _ Hp E) as (I & O & _).
  destruct (lzrun_out p (400 * (length r + 1)) z I) as (L & I2). rewrite O in L. change (zlen (@nil Z)) with 0 in L. split; [unfold zlen in *; lia|]. exact (zi_bytes _ _ I2).
Qed.
Theorem real_sane pr : lzprops_ok (px pr) -> sane_lzcodec (lz_real pr) 109200 (fun d u o => exists r x, INV pr d r x /\ zlen r = u /\ zlen x = o).
Proof.
  intros Hp. split; cbn [l_init l_step lz_real].
  - exists [], []. split; [apply decoder_inv, Hp|split; reflexivity].
  - intros d u o (r & x & HI & <- & <-). destruct (reach_output _ _ _ Hp (inv_reach _ _ _ _ [] Hp HI)) as (q & Q). rewrite app_nil_r in Q. destruct (output_bound _ r Hp) as (L & _). rewrite Q, zlen_app in L. pose proof (zlen_nonneg q). lia.
  - intros d u o w space fin d' k y r (ru & x & HI & <- & <-) Hs E. unfold lz_step in E. destruct (DecodeToBuf_ok pr fin d ru x space w Hp HI ltac:(lia)) as (((((p' & n) & y') & ok) & st) & E2 & HB). rewrite E2 in E.
    assert (p' = d' /\ n = k /\ y' = y /\ r = if ok then LOk (match st with SFinishedWithMark => true | _ => false end) else LBad) as (-> & -> & -> & ->) by (split; [|split; [|split]]; congruence). clear E.
    destruct HB as (used & rest & w' & -> & En & Ey & Hl & HB). cbn [app] in Ey. subst w'. pose proof (zlen_nonneg used) as Lu. pose proof (zlen_nonneg rest) as Lr.
    split; [rewrite zlen_app; lia|]. split; [exact Hl|]. destruct ok; [|exact Logic.I]. destruct HB as (HI' & _). split.
    + destruct (reach_output _ _ _ Hp (inv_reach _ _ _ _ [] Hp HI')) as (q & Q). rewrite app_nil_r in Q. destruct (output_bound _ (ru ++ used) Hp) as (_ & B). rewrite Q in B. apply Forall_app in B. destruct B as (B & _). apply Forall_app in B. exact (proj2 B).
    + exists (ru ++ used), (x ++ y). rewrite !zlen_app. split; [exact HI'|]. lia.
Qed.
