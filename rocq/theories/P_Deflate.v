From Verif Require Import Base StreamSpec P_Stream M_Buffered BufferedSpec P_Buffered InflateSpec P_Inflate M_Deflate DeflateSpec.

Section P.
Context {D P : Type}.
Variables (cp : compressor D) (comp : list Z -> list Z) (EI : D -> list Z -> list Z -> bool -> Prop).
Hypothesis Hcp : compressor_ok comp cp EI.
Variables (par : ops P Z) (full : list Z) (fails : Prop) (lim : Z) (R : P -> view -> Prop).
Hypothesis HS : sim par full fails lim R.
Hypothesis Hlim : 1 <= lim.
Variable off : Z.
Let r := skipn (Z.to_nat off) full.
Let content := comp r.

Definition q_end (s : qstate D P) : Prop :=
  q_dec s = None /\ exists pv, R (q_par s) pv /\ v_pos pv = zlen full.
Definition q_alive (s : qstate D P) (c : Z) : Prop :=
  q_bad s = false /\ exists d u o fin pv, q_dec s = Some d /\ R (q_par s) pv /\ EI d u o fin /\ (fin = true -> q_win s = [] /\ v_pos pv = zlen full) /\ zlen o = c /\ prefix o content /\
    r = u ++ q_win s ++ skipn (Z.to_nat (v_pos pv)) full /\ zlen full - v_pos pv <= Z.of_nat (q_gas s).
Definition q_SR (s : qstate D P) (c : Z) : Prop := q_alive s c \/ (c = zlen content /\ q_end s).

Lemma q_step_ok p d w g u o pv sp (mu0 : nat) : w <> [] -> R p pv -> EI d u o false -> prefix o content ->
  r = u ++ w ++ skipn (Z.to_nat (v_pos pv)) full -> zlen full - v_pos pv <= Z.of_nat g -> 1 <= sp ->
  (2 * g + 3 <= mu0)%nat ->
  exists s' n e, (let '(d', k, y, rr) := e_step cp d w false sp in
      let bad := match rr with EBad => true | _ => false end in
      Ret (mkQ p (Some d') (skipn (Z.to_nat k) w) bad g, zlen y, y, bad)) = Ret (s', n, e, false) /\ zlen e <= sp /\
    ((0 < n /\ e = slice content (zlen o) n /\ zlen o + n <= zlen content /\ q_SR s' (zlen o + n) /\ (q_mu s' <= mu0)%nat) \/
     (n = 0 /\ q_SR s' (zlen o) /\ (q_mu s' < mu0)%nat)).
Proof.
  intros Hw HR HE Hp Hr Hg Hsp Hmu. destruct (e_step cp d w false sp) as [[[d' k] y] rr] eqn:E.
  destruct (ce_step _ _ _ Hcp _ _ _ _ _ _ _ _ _ HE Hw Hsp E) as (-> & Hk & Hy & Hprog & HE' & Hpre).
  assert (prefix (o ++ y) content) as Hpy by (unfold content; rewrite Hr; apply Hpre).
  destruct (prefix_slice _ _ _ Hpy) as (Hs1 & Hs2).
  assert (zlen (skipn (Z.to_nat k) w) = zlen w - k) as Zw by (apply zlen_skipn; lia).
  do 3 eexists; split; [reflexivity|]. split; [exact Hy|].
  assert (q_SR (mkQ p (Some d') (skipn (Z.to_nat k) w) false g) (zlen o + zlen y)) as HSR.
  { left. split; [reflexivity|]. exists d', (u ++ firstn (Z.to_nat k) w), (o ++ y), false, pv. cbn [q_dec q_par q_win q_gas].
    split; [reflexivity|]. split; [exact HR|]. split; [exact HE'|]. split; [discriminate|]. split; [apply zlen_app|]. split; [exact Hpy|]. split; [|exact Hg].
    rewrite Hr, <- app_assoc. f_equal. rewrite app_assoc, <- firstn_skipn_z. reflexivity. }
  unfold q_mu. cbn [q_dec q_win q_gas]. pose proof (zlen_nonneg y). destruct (Z.eqb_spec (zlen y) 0) as [Y0|Y0].
  - right. rewrite Y0, Z.add_0_r in HSR. split; [exact Y0|]. split; [exact HSR|].
    destruct Hprog as [Hk'|Hk']; [|lia]. assert (skipn (Z.to_nat k) w = []) as -> by (apply zlen_0_nil; lia). lia.
  - left. split; [lia|]. split; [exact Hs1|]. split; [exact Hs2|]. split; [exact HSR|]. set (ww := skipn _ w); clearbody ww; destruct ww; lia.
Qed.

Lemma q_SrcOK : SrcOK (q_src cp par) content fails q_SR q_end.
Proof.
  intros s c space HSR Hsp. destruct HSR as [HA|(Hc & HE)].
  2:{ exists s, (-1), [], false. unfold q_src, fill, q_fill. destruct HE as (H1 & HE). rewrite H1. split; [reflexivity|].
      split; [change (zlen (@nil Z)) with 0; lia|]. right; right; left. split; [reflexivity|]. split; [lia|]. split; [exact Hc|split; [exact H1|exact HE]]. }
  destruct HA as (Hbd & d & u & o & fin & pv & Hd & HR & HE & Hfi & Ho & Hpre & Hr & Hgas).
  cbn [fill q_src mu]. unfold q_fill. rewrite Hd.
  destruct (q_win s) as [|w0 w] eqn:Ew.
  - unfold q_read. destruct (sim_read _ _ _ _ _ (q_par s) pv 1 0 HS HR) as (p' & n & b & E & Hres); [cbn; unfold INT32_MAX, INT32_MIN; lia|]. rewrite E; cbn [bind].
    assert (V1 := sim_view _ _ _ _ _ HS _ _ HR). unfold view_ok in V1.
    destruct Hres as [[G HR']|(G1 & G2 & G3)].
    + destruct G as (G1 & G2 & G3 & G4 & [(R1 & R2 & R3 & R4 & R5)|(R1 & R2 & R3 & R4)]); cbn [observe ob_ret ob_data ob_st next_view] in *.
      * destruct (Z.ltb_spec 0 n); [|lia]. destruct (Z.ltb_spec n (-1)); [lia|]. destruct (Z.ltb_spec n 1); [lia|]. cbn [bind q_bad q_win q_par q_gas]. rewrite Hbd.
        assert (fin = false) as Hfe by (destruct fin; [destruct (Hfi eq_refl); lia|reflexivity]). rewrite Hfe in HE.
        assert (zlen b = n) as Zb by (subst b; apply zlen_slice; lia).
        assert (b <> []) as Hb by (intros ->; change (zlen (@nil Z)) with 0 in Zb; lia).
        destruct b as [|b0 b1]; [congruence|]. set (b := b0 :: b1) in *.
        destruct (q_step_ok p' d b (pred (q_gas s)) u o (mkView (v_pos pv + n) (v_pos pv) (v_pos pv + n)) space (q_mu s) Hb HR' HE Hpre) as (s' & m & e & E1 & E2 & HQ).
        { cbn [v_pos]. rewrite Hr. cbn [app]. f_equal. rewrite R2. apply skipn_slice; lia. }
        { cbn [v_pos]. lia. }
        { lia. }
        { unfold q_mu. rewrite Hd, Ew. assert (q_gas s <> 0%nat) by lia. lia. }
        exists s', m, e, false. split; [exact E1|]. split; [exact E2|]. rewrite Ho in HQ.
        destruct HQ as [(A1 & A2 & A3 & A4 & A5)|(A1 & A2 & A3)]; [left|right; left]; tauto.
      * subst n b. change (-1 <? -1) with false. change (-1 <? 1) with true. cbn iota. cbn [bind q_bad q_win q_par q_gas]. rewrite Hbd.
        change (0 <? -1) with false in HR'. cbn iota in HR'.
        assert (r = u) as Hru. { rewrite Hr. cbn [app]. rewrite skipn_all2 by (unfold zlen in *; lia). apply app_nil_r. }
        destruct (e_step cp d [] true space) as [[[d' k] y] rr] eqn:Es.
        destruct (ce_finish _ _ _ Hcp _ _ _ _ _ _ _ _ _ HE (proj1 Hsp) Es) as (Hy & Hfin).
        rewrite <- Hru in Hfin. fold content in Hfin.
        assert (prefix (o ++ y) content) as Hpy by (destruct Hfin as [(_ & Hq)|(_ & _ & _ & Hq)]; [rewrite Hq; exists []; symmetry; apply app_nil_r|exact Hq]).
        destruct (prefix_slice _ _ _ Hpy) as (Hs1 & Hs2). rewrite Ho in Hs1, Hs2. pose proof (zlen_nonneg y) as Hy0.
        destruct Hfin as [(-> & Hq)|(-> & Hf & HE' & Hq)].
        -- do 4 eexists; split; [reflexivity|]. split; [exact Hy|].
           assert (c + zlen y = zlen content) as Hlen by (rewrite <- Hq, zlen_app; lia).
           assert (q_SR (mkQ p' None [] false (q_gas s)) (c + zlen y)) as HSR'.
           { right. split; [exact Hlen|]. split; [reflexivity|]. eexists. split; [exact HR'|]. exact R3. }
           unfold q_mu; rewrite Hd; cbn [q_dec].
           destruct (Z.eqb_spec (zlen y) 0) as [Y0|Y0].
           ++ right; left. rewrite Y0, Z.add_0_r in HSR'. split; [reflexivity|]. split; [exact Y0|]. split; [exact HSR'|]. lia.
           ++ left. split; [reflexivity|]. split; [lia|]. split; [exact Hs1|]. split; [exact Hs2|]. split; [exact HSR'|]. lia.
        -- do 4 eexists; split; [reflexivity|]. split; [exact Hy|]. left. split; [reflexivity|]. split; [lia|]. split; [exact Hs1|]. split; [exact Hs2|]. split.
           ++ left. split; [reflexivity|]. exists d', u, (o ++ y), true, (mkView (v_pos pv) (v_pos pv) (v_pos pv)). cbn [q_dec q_par q_win q_gas v_pos].
              split; [reflexivity|]. split; [exact HR'|]. split; [rewrite <- Hru; exact HE'|]. split; [intros _; split; [reflexivity|exact R3]|]. split; [rewrite zlen_app; lia|]. split; [exact Hpy|]. split; [exact Hr|]. exact Hgas.
           ++ unfold q_mu. rewrite Hd, Ew. cbn [q_dec q_win q_gas]. lia.
    + cbn [observe ob_ret] in G3. subst n. change (-2 <? -1) with true. cbn iota. cbn [bind q_bad].
      do 4 eexists; split; [reflexivity|]. split; [change (zlen (@nil Z)) with 0; lia|]. right; right; right. split; [reflexivity|]. split; [exact G2|left; lia].
  - cbn [bind]. rewrite Hbd. assert (fin = false) as Hfe by (destruct fin; [destruct (Hfi eq_refl) as (Q & _); discriminate Q|reflexivity]). rewrite Hfe in HE.
    destruct (q_step_ok (q_par s) d (w0 :: w) (q_gas s) u o pv space (q_mu s)) as (s' & m & e & E1 & E2 & HQ);
      [discriminate|exact HR|exact HE|exact Hpre|exact Hr|exact Hgas|lia| |].
    { unfold q_mu. rewrite Hd, Ew. lia. }
    exists s', m, e, false. split; [exact E1|]. split; [exact E2|]. rewrite Ho in HQ.
    destruct HQ as [(A1 & A2 & A3 & A4 & A5)|(A1 & A2 & A3)]; [left|right; left]; tauto.
Qed.
End P.
