(** Input that was not looked at: what was decoded with it is decoded without it.  One call of LzmaDec_DecodeReal2. *)
From Verif Require Import Base LzmaFormatSpec P_LzmaFormat P_LzmaFormat2 M_LzmaDec P_LzmaDec1 P_LzmaDec2 P_LzmaDec3 P_LzmaDec4 P_LzmaDec5 P_LzmaDec6 P_LzmaDec7 P_LzmaDec8.

Lemma more_more k a b : more (more k a) b = more k (a ++ b).
Proof. unfold more; cbn. rewrite app_assoc. reflexivity. Qed.
Lemma morez_morez z a b : morez (morez z a) b = morez z (a ++ b).
Proof. unfold morez; cbn [z_coder z_state z_rep0 z_rep1 z_rep2 z_rep3 z_out]. rewrite more_more. reflexivity. Qed.
Lemma more_nil k : more k [] = k.
Proof. unfold more. rewrite app_nil_r. destruct k; reflexivity. Qed.
Lemma morez_nil z : morez z [] = z.
Proof. unfold morez. rewrite more_nil. destruct z; reflexivity. Qed.
Lemma morez_inv p z t : zinv p z -> zinv p (morez z t).
Proof. intros [A1 A2 A3 A4 A5 A6 A7 A8 A9]. constructor; try assumption. Qed.
Lemma morez_dz p z t : DZ p z -> DZ p (morez z t).
Proof. intros [A1 A2 A3 A4 A5 A6 A7 A8 A9 A10]. constructor; try assumption. apply morez_inv, A2. Qed.
Lemma morez_inj a b t : morez a t = morez b t -> a = b.
Proof.
  destruct a as [[a1 a2 a3 a4] a5 a6 a7 a8 a9 a10], b as [[b1 b2 b3 b4] b5 b6 b7 b8 b9 b10]. unfold morez, more; cbn. intros E. assert (a4 ++ t = b4 ++ t) as Q by congruence. apply app_inv_tail in Q. congruence.
Qed.
Lemma inv_morez p z t : zinv p (morez z t) -> zinv p z.
Proof. intros [A1 A2 A3 A4 A5 A6 A7 A8 A9]. constructor; try assumption. Qed.
Lemma dz_morez p z t : DZ p (morez z t) -> DZ p z.
Proof. intros [A1 A2 A3 A4 A5 A6 A7 A8 A9 A10]. constructor; try assumption. apply (inv_morez _ _ _ A2). Qed.
Lemma step_less p z t x : zinv p z -> step p (morez z t) = Next x -> zlen t <= zlen (k_in (z_coder x)) -> exists x', x = morez x' t /\ step p z = Next x'.
Proof.
  intros I H L. rewrite step_eq in H. destruct (decoded p (morez z t)) as [(s, k)|] eqn:E; [|discriminate].
  destruct (decoded_some _ _ _ _ (zi_good _ _ (morez_inv p z t I)) E) as (G & N & _). destruct (apply_inv _ _ _ _ _ (morez_inv p z t I) (decoded_sym _ _ _ _ E) G N H) as (_ & Ec & _). rewrite Ec in L.
  destruct (decoded_less _ _ _ _ _ E L) as (k1 & E1 & ->). rewrite step_eq, E1. rewrite apply_more in H. destruct (apply_sym p z s k1) as [|x'| |]; cbn in H; try discriminate. injection H as <-. exists x'. split; reflexivity.
Qed.
Lemma step_marked p z k : step p z = Marked k -> decoded p z = Some (EndMark, k).
Proof.
  rewrite step_eq. destruct (decoded p z) as [(s, k1)|]; [|discriminate]. unfold apply_sym. destruct s as [b|l d| |w l|]; try discriminate.
  - destruct (_ && _); discriminate.
  - destruct (z_out z); discriminate.
  - destruct (z_out z); [discriminate|]. destruct (w =? 0); [discriminate|]. destruct (w =? 1); [discriminate|]. destruct (w =? 2); discriminate.
  - intros E. injection E as <-. reflexivity.
Qed.
Lemma marked_less p z t k : step p (morez z t) = Marked k -> zlen t <= zlen (k_in k) -> exists k1, k = more k1 t /\ step p z = Marked k1.
Proof. intros H L. apply step_marked in H. destruct (decoded_less _ _ _ _ _ H L) as (k1 & E & ->). exists k1. split; [reflexivity|]. rewrite step_eq, E. reflexivity. Qed.
Lemma steps_less p z t x : zinv p z -> steps p (morez z t) x -> zlen t <= zlen (k_in (z_coder x)) -> exists x', x = morez x' t /\ steps p z x'.
Proof.
  intros I H. remember (morez z t) as z1 eqn:E1. induction H as [z1|z1 y x H1 IH H2]; intros L; subst z1.
  - exists z. split; [reflexivity|constructor].
  - destruct (steps_inv _ _ _ (morez_inv p z t I) H1) as (Iy & _). destruct (step_next _ _ _ Iy H2) as (_ & _ & (u & Eu) & _).
    destruct (IH eq_refl) as (y' & -> & Hs). { rewrite Eu, zlen_app. pose proof (zlen_nonneg u). lia. }
    destruct (step_less _ _ _ _ (inv_morez _ _ _ Iy) H2 L) as (x' & -> & Hx). exists x'. split; [reflexivity|]. apply (StepsS _ _ y'); assumption.
Qed.
Lemma app_tail {A} (a b u v : list A) : a ++ b = u ++ v -> zlen v <= zlen b -> exists w, b = w ++ v /\ u = a ++ w.
Proof.
  revert u. induction a as [|x a IH]; intros u E L; cbn in E.
  - exists u. split; [exact E|reflexivity].
  - destruct u as [|y u]; cbn in E.
    + exfalso. rewrite <- E in L. change (zlen (x :: (a ++ b)) <= zlen b) in L. rewrite zlen_cons, zlen_app in L. pose proof (zlen_nonneg a). lia.
    + injection E as -> E. destruct (IH _ E L) as (w & -> & ->). exists w. split; reflexivity.
Qed.
Lemma at_in_split src buf t : at_in src buf t -> exists u, src = u ++ t /\ zlen u = buf.
Proof.
  intros (H & ->). exists (firstn (Z.to_nat buf) src). split; [symmetry; apply firstn_skipn|]. unfold zlen in *. rewrite firstn_length. lia.
Qed.

(** the bytes after the first symbol are at most [t], if there was no symbol before [t] was known *)
Lemma first_symbol p z t s k : zinv p z -> (k_in (z_coder z) = [] \/ decoded p z = None) -> decoded p (morez z t) = Some (s, k) -> zlen (k_in k) <= zlen t.
Proof.
  intros I [H|H] E.
  - destruct (decoded_some _ _ _ _ (zi_good _ _ (morez_inv p z t I)) E) as (_ & _ & (u & Eu)). unfold morez, more in Eu; cbn in Eu. rewrite H in Eu. cbn in Eu. rewrite Eu, zlen_app. pose proof (zlen_nonneg u). lia.
  - destruct (Z.le_gt_cases (zlen t) (zlen (k_in k))) as [L|L]; [|lia]. destruct (decoded_less _ _ _ _ _ E L) as (k1 & E1 & _). congruence.
Qed.
Lemma steps_first_symbol p z t x s k : zinv p z -> (k_in (z_coder z) = [] \/ decoded p z = None) -> decoded p (morez z t) = Some (s, k) -> steps p (morez z t) x ->
  x = morez z t \/ zlen (k_in (z_coder x)) <= zlen t.
Proof.
  intros I H E Hs. destruct (steps_first _ _ _ Hs) as [->|(y & Hy & Hs2)]; [left; reflexivity|right].
  pose proof Hy as Hy2. rewrite step_eq, E in Hy2. destruct (decoded_some _ _ _ _ (zi_good _ _ (morez_inv p z t I)) E) as (G & N & _). destruct (apply_inv _ _ _ _ _ (morez_inv p z t I) (decoded_sym _ _ _ _ E) G N Hy2) as (Iy & Ec & _).
  destruct (steps_inv _ _ _ Iy Hs2) as (_ & _ & (u & Eu)). pose proof (first_symbol _ _ _ _ _ I H E). rewrite <- Ec, Eu, zlen_app in H0. pose proof (zlen_nonneg u). lia.
Qed.

(** ** One call: [z] knows the bytes in [d_temp], or none; the call may look at [t] as well.  It uses [u]. *)
Record Run' (lim : Z) (p p' : dec) (z z' : lz) (u : list Z) (o : list Z) : Prop := {
  rr_same : same p p'; rr_steps : steps (px (d_prop p)) (morez z u) z'; rr_st : ST p' z' o; rr_in : k_in (z_coder z') = [];
  rr_pos : d_dicPos p' = d_dicPos p + (zlen o - zlen (z_out z)); rr_more : d_dicPos p < d_dicPos p' <= lim; rr_full : d_remain p' <> 0 -> d_dicPos p' = lim; rr_pre : exists w, o = z_out z ++ w;
  rr_cross : exists y, steps (px (d_prop p)) (morez z u) y /\ step (px (d_prop p)) y = Next z' /\ zlen (z_out y) < zlen o }.
Record Mark' (lim : Z) (p p' : dec) (z z' : lz) (u : list Z) (kn : coder) : Prop := {
  mm_same : same p p'; mm_steps : steps (px (d_prop p)) (morez z u) z'; mm_step : step (px (d_prop p)) z' = Marked kn; mm_code : d_code p' = k_code kn; mm_in : k_in kn = [];
  mm_ring : Ring (p_dicSize (d_prop p)) (d_dic p') (d_dicPos p') (z_out z'); mm_pos : d_dicPos p' = d_dicPos p + (zlen (z_out z') - zlen (z_out z)); mm_lim : d_dicPos p <= d_dicPos p' <= lim; mm_remain : d_remain p' = 274;
  mm_pre : exists w, z_out z' = z_out z ++ w }.
Lemma call_ok limit bufLimit p z t : (bufLimit <= 0 \/ bufLimit + 20 <= zlen (k_in (z_coder z) ++ t)) ->
  DZ p z -> DO p (z_out z) -> (k_in (z_coder z) = [] \/ decoded (px (d_prop p)) z = None) -> d_dicPos p <= limit <= p_dicSize (d_prop p) ->
  decoded (px (d_prop p)) (morez z t) <> None -> (d_dicPos p < limit \/ forall s kn, decoded (px (d_prop p)) (morez z t) = Some (s, kn) -> bulk s) ->
  exists p' buf' ok, DecodeReal2 (k_in (z_coder z) ++ t) p limit 0 bufLimit = Ret (p', buf', ok) /\
   if ok then exists u v, t = u ++ v /\ buf' = zlen (k_in (z_coder z)) + zlen u /\
      ((exists z' o, Run' limit p p' z z' u o) \/ (exists z' kn, Mark' limit p p' z z' u kn))
   else exists z1 z2 pos, BadR limit p p' (morez z t) z1 z2 pos.
Proof.
  intros HB HZ HO HS Hlim Hdec Hbulk. set (P := px (d_prop p)) in *. pose proof (dz_inv _ _ HZ) as I. fold P in I.
  assert (at_in (k_in (z_coder z) ++ t) 0 (k_in (z_coder (morez z t)))) as Hin by (split; [pose proof (zlen_nonneg (k_in (z_coder z) ++ t)); lia|reflexivity]).
  destruct (DecodeReal2_ok (k_in (z_coder z) ++ t) limit bufLimit p (morez z t) 0 HB (morez_dz _ _ t HZ) HO Hin Hlim Hdec Hbulk) as (p' & buf' & ok & E & HX).
  exists p', buf', ok. split; [exact E|]. fold P in Hdec. destruct (decoded P (morez z t)) as [(s, k)|] eqn:Ed; [|congruence].
  destruct ok; [|exact HX]. destruct HX as [(z' & o & R & _)|(z' & kn & M & Hr)].
  - destruct R as [N1 N2 N3 N4 N5 N6 N7 N8 N9]. fold P in N2, N9. destruct (at_in_split _ _ _ N4) as (a & Ea & La).
    assert (zlen (k_in (z_coder z')) <= zlen t) as L.
    { destruct (steps_first_symbol _ _ _ _ _ _ I HS Ed N2) as [Q|Q]; [|exact Q]. exfalso. subst z'. pose proof (st_out _ _ _ N3) as Q. cbn in Q. pose proof (zlen_copy (Z.to_nat (d_remain p')) (z_rep0 z) o) as Q2. rewrite <- Q in Q2. cbn [morez z_out] in N5. lia. }
    destruct (app_tail _ _ _ _ Ea L) as (u & Et & ->). exists u, (k_in (z_coder z')). split; [exact Et|]. split; [rewrite <- La, zlen_app; reflexivity|].
    left. assert (steps P (morez (morez z u) (k_in (z_coder z'))) z') as N2' by (rewrite morez_morez, <- Et; exact N2).
    destruct (steps_less _ _ _ _ (morez_inv _ _ u I) N2' ltac:(lia)) as (x & Ex & Hx). exists x, o.
    assert (k_in (z_coder x) = []) as Kx. { pose proof (f_equal (fun z => k_in (z_coder z)) Ex) as Q. cbn [morez more z_coder k_in] in Q. destruct (k_in (z_coder x)) as [|b r]; [reflexivity|exfalso]. apply (f_equal zlen) in Q. rewrite zlen_app, zlen_cons in Q. pose proof (zlen_nonneg r). lia. }
    constructor; try assumption. { destruct N3 as [S1 S2 S3 S4 S5]. rewrite Ex in S1, S3, S5. constructor; try assumption. exact (dz_morez _ _ _ S1). } fold P.
    destruct N9 as (y & Y1 & Y2 & Y3). rewrite Et, <- morez_morez in Y1. destruct (steps_inv _ _ _ (morez_inv _ _ _ (morez_inv _ _ u I)) Y1) as (Iy & _). destruct (step_next _ _ _ Iy Y2) as (_ & _ & (uu & Eu) & _).
    destruct (steps_less _ _ _ _ (morez_inv _ _ u I) Y1 ltac:(rewrite Eu, zlen_app; pose proof (zlen_nonneg uu); lia)) as (y' & Ey & Hy). rewrite Ey in Y2, Iy, Y3. destruct (step_less _ _ _ _ (inv_morez _ _ _ Iy) Y2 ltac:(lia)) as (x2 & Ex2 & Hx2).
    exists y'. split; [exact Hy|]. split; [|exact Y3]. rewrite Hx2. f_equal. apply (morez_inj _ _ (k_in (z_coder z'))). congruence.
  - destruct M as [M1 M2 M3 M4 M5 M6 M7 M8]. fold P in M2, M3. destruct (at_in_split _ _ _ M5) as (a & Ea & La).
    assert (exists uu, k_in (z_coder z') = uu ++ k_in kn) as (uu & Eu).
    { destruct (steps_inv _ _ _ (morez_inv _ _ t I) M2) as (Iz & _). destruct (decoded_some _ _ _ _ (zi_good _ _ Iz) (step_marked _ _ _ M3)) as (_ & _ & H). exact H. }
    assert (zlen (k_in kn) <= zlen (k_in (z_coder z'))) as L0 by (rewrite Eu, zlen_app; pose proof (zlen_nonneg uu); lia).
    assert (zlen (k_in kn) <= zlen t) as L.
    { destruct (steps_first_symbol _ _ _ _ _ _ I HS Ed M2) as [Q|Q]; [|lia]. subst z'. apply step_marked in M3. assert (k = kn) as <- by congruence. exact (first_symbol _ _ _ _ _ I HS Ed). }
    destruct (app_tail _ _ _ _ Ea L) as (u & Et & ->). exists u, (k_in kn). split; [exact Et|]. split; [rewrite <- La, zlen_app; reflexivity|].
    right. assert (steps P (morez (morez z u) (k_in kn)) z') as N2' by (rewrite morez_morez, <- Et; exact M2).
    destruct (steps_less _ _ _ _ (morez_inv _ _ u I) N2' L0) as (x & Ex & Hx). rewrite Ex in M3. destruct (marked_less _ _ _ _ M3 ltac:(lia)) as (k1 & Ek & Hk). exists x, k1.
    assert (z_out x = z_out z') as Eo by (rewrite Ex; reflexivity).
    constructor; try assumption.
    + rewrite M4, Ek. reflexivity.
    + pose proof (f_equal k_in Ek) as Q. cbn [more k_in] in Q. destruct (k_in k1) as [|b r]; [reflexivity|exfalso]. apply (f_equal zlen) in Q. rewrite zlen_app, zlen_cons in Q. pose proof (zlen_nonneg r). lia.
    + rewrite Eo. exact M6.
    + rewrite Eo. exact M7.
    + destruct (steps_inv _ _ _ (morez_inv _ _ u I) Hx) as (_ & (w & Ew) & _). exists w. exact Ew.
Qed.
