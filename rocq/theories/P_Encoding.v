From Verif Require Import Base StreamSpec P_Stream M_Buffered BufferedSpec P_Buffered P_Inflate InflateSpec EncSpec M_Encoding.

Section Enc.
Context {A St : Type}.
Variables (e : encoding A St) (maxin maxout : Z).
Hypothesis He : encoding_ok e maxin maxout.

Lemma converts_app s a o s1 : converts e s a o s1 -> forall rest us s2, converts e s (a ++ rest) us s2 -> exists t, us = o ++ t /\ converts e s1 rest t s2.
Proof.
  induction 1 as [s|s l k u s' us0 s1 Hl _ IH]; intros rest us s2 Hc; [exists us; split; [reflexivity|exact Hc]|].
  destruct (eo_char _ _ _ He _ _ _ _ _ Hl) as (Hk & _ & Hr). specialize (Hr rest).
  inversion Hc as [s3 Hs Hn|s3 l' k' u' s3' us' s4 Hl' Hc' Hs Hx Hx2 Hx3]; subst.
  - exfalso. match goal with H : [] = l ++ rest |- _ => assert (zlen (l ++ rest) = 0) as Hz by (rewrite <- H; reflexivity) end. rewrite zlen_app in Hz. pose proof (zlen_nonneg rest). lia.
  - assert (k' = k /\ u' = u /\ s3' = s') as (-> & -> & ->) by (split; [|split]; congruence).
    rewrite skipn_app in Hc'. replace (Z.to_nat k - length l)%nat with 0%nat in Hc' by (unfold zlen in Hk; lia). cbn [skipn] in Hc'.
    destruct (IH _ _ _ Hc') as (t & -> & Ht). exists t. split; [apply app_assoc|exact Ht].
Qed.
Lemma breaks_app s a o s1 : converts e s a o s1 -> forall rest us, breaks e s (a ++ rest) us -> exists t, us = o ++ t /\ breaks e s1 rest t.
Proof.
  induction 1 as [s|s l k u s' us0 s1 Hl _ IH]; intros rest us Hc; [exists us; split; [reflexivity|exact Hc]|].
  destruct (eo_char _ _ _ He _ _ _ _ _ Hl) as (Hk & _ & Hr). specialize (Hr rest).
  inversion Hc as [s3 l' Hn Hl'|s3 l' k' u' s3' us' Hl' Hc']; subst.
  - destruct Hl'; congruence.
  - assert (k' = k /\ u' = u /\ s3' = s') as (-> & -> & ->) by (split; [|split]; congruence).
    rewrite skipn_app in Hc'. replace (Z.to_nat k - length l)%nat with 0%nat in Hc' by (unfold zlen in Hk; lia). cbn [skipn] in Hc'.
    destruct (IH _ _ Hc') as (t & -> & Ht). exists t. split; [apply app_assoc|exact Ht].
Qed.
Lemma converts_trans s a o s1 : converts e s a o s1 -> forall b o2 s2, converts e s1 b o2 s2 -> converts e s (a ++ b) (o ++ o2) s2.
Proof.
  induction 1 as [s|s l k u s' us0 s1 Hl _ IH]; intros b o2 s2 Hb; [exact Hb|].
  destruct (eo_char _ _ _ He _ _ _ _ _ Hl) as (Hk & _ & Hr). rewrite <- app_assoc. apply cv_char with (k := k) (s' := s'); [apply Hr|].
  rewrite skipn_app. replace (Z.to_nat k - length l)%nat with 0%nat by (unfold zlen in Hk; lia). cbn [skipn]. apply IH; exact Hb.
Qed.
Lemma converts_breaks_trans s a o s1 : converts e s a o s1 -> forall b o2, breaks e s1 b o2 -> breaks e s (a ++ b) (o ++ o2).
Proof.
  induction 1 as [s|s l k u s' us0 s1 Hl _ IH]; intros b o2 Hb; [exact Hb|].
  destruct (eo_char _ _ _ He _ _ _ _ _ Hl) as (Hk & _ & Hr). rewrite <- app_assoc. apply br_char with (k := k) (s' := s'); [apply Hr|].
  rewrite skipn_app. replace (Z.to_nat k - length l)%nat with 0%nat by (unfold zlen in Hk; lia). cbn [skipn]. apply IH; exact Hb.
Qed.
Lemma converts_nil s us s2 : converts e s [] us s2 -> us = [] /\ s2 = s.
Proof.
  inversion 1 as [s3 Hs|s3 l k u s' us' s4 Hl]; subst; [split; reflexivity|]. rewrite (eo_nothing _ _ _ He) in Hl. discriminate.
Qed.
Lemma breaks_nil s us : ~ breaks e s [] us.
Proof.
  inversion 1 as [s3 l Hn Hl|s3 l k u s' us' Hl]; subst; [congruence|]. rewrite (eo_nothing _ _ _ He) in Hl. discriminate.
Qed.
Lemma converts_fun s l us1 us2 s1 s2 : converts e s l us1 s1 -> converts e s l us2 s2 -> us1 = us2 /\ s1 = s2.
Proof.
  intros H1 H2. destruct (converts_app _ _ _ _ H1 [] us2 s2) as (t & -> & Ht); [rewrite app_nil_r; exact H2|]. apply converts_nil in Ht as (-> & ->). split; [symmetry; apply app_nil_r|reflexivity].
Qed.
Lemma converts_not_breaks s l us1 us2 s1 : converts e s l us1 s1 -> ~ breaks e s l us2.
Proof.
  intros H1 H2. destruct (breaks_app _ _ _ _ H1 [] us2) as (t & -> & Ht); [rewrite app_nil_r; exact H2|]. apply breaks_nil in Ht. exact Ht.
Qed.
Lemma breaks_fun s l us1 : breaks e s l us1 -> forall us2, breaks e s l us2 -> us1 = us2.
Proof.
  induction 1 as [s l Hn Hl|s l k u s' us0 Hl _ IH]; intros us2 H2; inversion H2 as [s3 l' Hn' Hl'|s3 l' k' u' s3' us' Hl' Hc']; subst; try reflexivity.
  - destruct Hl; congruence.
  - destruct Hl'; congruence.
  - assert (k' = k /\ u' = u /\ s3' = s') as (-> & -> & ->) by (split; [|split]; congruence). f_equal. apply IH; exact Hc'.
Qed.
Lemma converts_or_breaks : forall n s l, (length l <= n)%nat -> (exists us s2, converts e s l us s2) \/ (exists us, breaks e s l us).
Proof.
  induction n as [|n IH]; intros s l Hl.
  - destruct l; [|cbn in Hl; lia]. left; exists [], s; constructor.
  - destruct l as [|a l]; [left; exists [], s; constructor|]. destruct (e s (a :: l)) as [k u s'| |] eqn:E.
    + destruct (eo_char _ _ _ He _ _ _ _ _ E) as (Hk & _). destruct (IH s' (skipn (Z.to_nat k) (a :: l))) as [(us & s2 & H)|(us & H)].
      * rewrite skipn_length. cbn [length] in *. lia.
      * left; exists (u ++ us), s2. econstructor; eassumption.
      * right; exists (u ++ us). econstructor; eassumption.
    + right; exists []. constructor; [congruence|tauto].
    + right; exists []. constructor; [congruence|tauto].
Qed.

Context {P : Type}.
Variable ic : converter A St.
Hypothesis Hic : converter_ok e maxout ic.
Hypothesis Hmi : maxin <= CHARBUF.
Hypothesis Hmo : maxout <= 1.
Variables (par : ops P Z) (full : list Z) (fails : Prop) (lim : Z) (R : P -> view -> Prop).
Hypothesis HS : sim par full fails lim R.
Hypothesis Hlim : 1 <= lim.
Variables (off : Z) (content : list A) (F : Prop) (c0 : St).
Let r := skipn (Z.to_nat off) full.
Hypothesis HF1 : fails -> F.
Hypothesis HC : (exists sf, converts e c0 r content sf) \/ (F /\ exists us ext, breaks e c0 r us /\ content = us ++ ext).

Definition e_SE (s : estate St P) : Prop := e_open s = false /\ exists sf, converts e c0 r content sf.
Definition e_SR (s : estate St P) (c : Z) : Prop :=
  e_open s = true /\ exists u o pv, R (e_par s) pv /\ converts e c0 u o (e_conv s) /\ zlen o = c /\
    r = u ++ e_buf s ++ skipn (Z.to_nat (v_pos pv)) full /\
    (e_off s = 0 -> e (e_conv s) (e_buf s) = Incomplete) /\ (e_off s <> 0 -> e_buf s <> []) /\ 0 <= e_off s /\
    zlen full - v_pos pv <= Z.of_nat (e_gas s).

Lemma conv_prefix u o sc rest : r = u ++ rest -> converts e c0 u o sc -> prefix o content.
Proof.
  intros Hr Hu. destruct HC as [(sf & H)|(_ & us & ext & H & ->)].
  - rewrite Hr in H. destruct (converts_app _ _ _ _ Hu _ _ _ H) as (t & -> & _). exists t; reflexivity.
  - rewrite Hr in H. destruct (breaks_app _ _ _ _ Hu _ _ H) as (t & -> & _). exists (t ++ ext). apply eq_sym, app_assoc.
Qed.
Lemma conv_break u o sc b : r = u ++ b -> b <> [] -> e sc b = Incomplete \/ e sc b = Invalid -> converts e c0 u o sc -> F.
Proof.
  intros Hr Hb Hi Hu. destruct HC as [(sf & H)|(HF & _)]; [|exact HF]. exfalso. eapply converts_not_breaks; [exact H|]. rewrite Hr.
  eapply converts_breaks_trans; [exact Hu|]. constructor; assumption.
Qed.

Lemma e_decode_ok (s : estate St P) u o pv space m0 :
  e_open s = true -> R (e_par s) pv -> converts e c0 u o (e_conv s) -> r = u ++ e_buf s ++ skipn (Z.to_nat (v_pos pv)) full -> 0 <= e_off s ->
  zlen full - v_pos pv <= Z.of_nat (e_gas s) -> 1 <= space <= INT32_MAX -> (2 * e_gas s + 2 <= m0)%nat ->
  exists s' n d err, e_decode ic s space = Ret (s', n, d, err) /\ zlen d <= space /\
    ((err = false /\ 0 < n /\ d = slice content (zlen o) n /\ zlen o + n <= zlen content /\ e_SR s' (zlen o + n) /\ (e_mu s' <= m0)%nat)
     \/ (err = false /\ n = 0 /\ e_SR s' (zlen o) /\ (e_mu s' < m0)%nat)
     \/ (err = true /\ F /\ n < 0)).
Proof.
  intros Hop HR Hu Hr Ho Hg Hsp Hm. unfold e_decode. destruct (ic (e_conv s) (e_buf s) space) as [[[k y] rs] c] eqn:E.
  assert (0 <= space) as Hsp0 by lia. destruct (Hic _ _ _ _ _ _ _ Hsp0 E) as (Hk & Hy & Hcv & Hrs).
  pose proof (zlen_nonneg y) as Hy0.
  assert (r = (u ++ firstn (Z.to_nat k) (e_buf s)) ++ skipn (Z.to_nat k) (e_buf s) ++ skipn (Z.to_nat (v_pos pv)) full) as Hr2.
  { rewrite Hr, <- app_assoc. f_equal. rewrite app_assoc, firstn_skipn. reflexivity. }
  assert (converts e c0 (u ++ firstn (Z.to_nat k) (e_buf s)) (o ++ y) c) as Hu2 by (eapply converts_trans; eassumption).
  destruct (prefix_slice _ _ _ (conv_prefix _ _ _ _ Hr2 Hu2)) as (Hs1 & Hs2).
  assert (forall s', e_open s' = true -> e_SR s' (zlen o + zlen y) ->  (e_mu s' < m0)%nat ->
     (false = false /\ 0 < zlen y /\ y = slice content (zlen o) (zlen y) /\ zlen o + zlen y <= zlen content /\ e_SR s' (zlen o + zlen y) /\ (e_mu s' <= m0)%nat)
     \/ (false = false /\ zlen y = 0 /\ e_SR s' (zlen o) /\ (e_mu s' < m0)%nat) \/ (false = true /\ F /\ zlen y < 0)) as Hfin.
  { intros s' _ HSR Hmu. destruct (Z.eqb_spec (zlen y) 0) as [Y0|Y0].
    - right; left. rewrite Y0, Z.add_0_r in HSR. split; [reflexivity|]. split; [exact Y0|]. split; [exact HSR|exact Hmu].
    - left. split; [reflexivity|]. split; [lia|]. split; [exact Hs1|]. split; [exact Hs2|]. split; [exact HSR|lia]. }
  destruct rs.
  - (* Done *) do 4 eexists; split; [reflexivity|]. split; [exact Hy|]. apply Hfin; [exact Hop| |unfold e_mu; cbn [e_gas e_off]; change (0 =? 0) with true; cbv iota; lia].
    split; [exact Hop|]. exists (u ++ firstn (Z.to_nat k) (e_buf s)), (o ++ y), pv. cbn [e_par e_buf e_off e_conv e_gas].
    split; [exact HR|]. split; [exact Hu2|]. split; [apply zlen_app|]. split; [|split; [|split; [|split; [lia|exact Hg]]]].
    + rewrite Hr2. f_equal. f_equal. apply skipn_all2. unfold zlen in *. lia.
    + intros _. exact (eo_nothing _ _ _ He c).
    + congruence.
  - (* Eilseq *) do 4 eexists; split; [reflexivity|]. split; [exact Hy|]. right; right. split; [reflexivity|]. split; [|lia].
    eapply conv_break; [exact Hr2| | |exact Hu2].
    + intros Hn. apply app_eq_nil in Hn as (Hn & _). rewrite Hn, (eo_nothing _ _ _ He) in Hrs. discriminate.
    + right. apply (eo_invalid _ _ _ He). exact Hrs.
  - (* Einval *) destruct Hrs as (Hk2 & Hin). do 4 eexists; split; [reflexivity|]. split; [exact Hy|]. apply Hfin; [exact Hop| |unfold e_mu; cbn [e_gas e_off]; change (0 =? 0) with true; cbv iota; lia].
    split; [exact Hop|]. exists (u ++ firstn (Z.to_nat k) (e_buf s)), (o ++ y), pv. cbn [e_par e_buf e_off e_conv e_gas].
    split; [exact HR|]. split; [exact Hu2|]. split; [apply zlen_app|]. split; [exact Hr2|]. split; [intros _; exact Hin|]. split; [congruence|]. split; [lia|exact Hg].
  - (* E2big *) destruct Hrs as (Hk2 & Hfull). assert (zlen y = space) as Hye by lia.
    assert (k <> 0) as Hk0.
    { intros ->. cbn [Z.to_nat firstn] in Hcv. apply converts_nil in Hcv as (-> & _). change (zlen (@nil A)) with 0 in *. lia. }
    do 4 eexists; split; [reflexivity|]. split; [exact Hy|]. left. split; [reflexivity|]. split; [lia|]. rewrite <- Hye. split; [exact Hs1|]. split; [exact Hs2|].
    split; [|unfold e_mu; cbn [e_gas e_off]; destruct (_ =? 0); lia].
    split; [exact Hop|]. exists (u ++ firstn (Z.to_nat k) (e_buf s)), (o ++ y), pv. cbn [e_par e_buf e_off e_conv e_gas].
    split; [exact HR|]. split; [exact Hu2|]. split; [apply zlen_app|]. split; [exact Hr2|]. split; [lia|]. split; [|split; [lia|exact Hg]].
    intros _ Hn. assert (zlen (skipn (Z.to_nat k) (e_buf s)) = zlen (e_buf s) - k) as Hz by (apply zlen_skipn; lia). rewrite Hn in Hz. change (zlen (@nil Z)) with 0 in Hz. lia.
Qed.

Lemma e_SrcOK : SrcOK (e_src ic par) content F e_SR e_SE.
Proof.
  intros s c space HSR Hsp. destruct HSR as (Hop & u & o & pv & HR & Hu & Ho & Hr & Hi & Hni & Hoff & Hg). subst c.
  cbn [fill e_src mu]. unfold e_fill. rewrite Hop. cbn [andb].
  destruct (Z.eqb_spec (e_off s) 0) as [Z0|Z0].
  - specialize (Hi Z0). assert (Hbl := eo_incomplete _ _ _ He _ _ Hi). pose proof (zlen_nonneg (e_buf s)) as Hb0.
    assert (Hmi' := Hmi). unfold CHARBUF in Hmi' |- *.
    destruct (sim_read _ _ _ _ _ (e_par s) pv 1 (262 - zlen (e_buf s)) HS HR) as (p' & n & d & E & Hres).
    { unfold call_ok, INT32_MAX, INT32_MIN. split; [lia|]. split; [lia|]. left. lia. }
    rewrite E; cbn [bind].
    assert (V1 := sim_view _ _ _ _ _ HS _ _ HR). assert (V2 := sim_pos _ _ _ _ _ HS _ _ HR). unfold view_ok in V1.
    destruct Hres as [[G HR']|(G1 & G2 & G3)].
    + destruct G as (G1 & G2 & G3 & G4 & [(R1 & R2 & R3 & R4 & R5)|(R1 & R2 & R3 & R4)]); cbn [observe ob_ret ob_data ob_st next_view] in *.
      * destruct (Z.ltb_spec 0 n); [|lia]. destruct (Z.ltb_spec n (-1)); [lia|]. destruct (Z.ltb_spec n 1); [lia|].
        specialize (R4 ltac:(lia)). destruct (Z.leb_spec (zlen (e_buf s) + n) 262); [|lia].
        destruct (e_decode_ok (mkE p' true (e_off s) (e_buf s ++ d) (e_conv s) (pred (e_gas s))) u o (mkView (v_pos pv + n) (v_pos pv) (v_pos pv + n)) space (e_mu s)) as (s' & n' & d' & err & E' & Hz & Hd); cbn [e_open e_par e_buf e_off e_conv e_gas v_pos]; try assumption.
        -- reflexivity.
        -- rewrite Hr. f_equal. rewrite <- app_assoc. f_equal. subst d. apply skipn_slice; lia.
        -- lia.
        -- unfold e_mu. rewrite Z0. change (0 =? 0) with true. cbv iota. lia.
        -- exists s', n', d', err. split; [exact E'|]. split; [exact Hz|]. destruct Hd as [Hd|[Hd|Hd]]; [left; exact Hd|right; left; exact Hd|right; right; right].
           destruct Hd as (D1 & D2 & D3). split; [exact D1|]. split; [exact D2|left; exact D3].
      * subst n d. cbn [Z.ltb Z.compare].
        assert (skipn (Z.to_nat (v_pos pv)) full = []) as Hsk by (apply skipn_all2; unfold zlen in *; lia). rewrite Hsk, app_nil_r in Hr.
        do 4 eexists; split; [reflexivity|]. split; [change (zlen (@nil A)) with 0; lia|].
        destruct (Z.eqb_spec (zlen (e_buf s)) 0) as [B0|B0]; cbn [negb].
        -- apply zlen_0_nil in B0. rewrite B0, app_nil_r in Hr. right; right.
           destruct HC as [(sf & H)|(HF & us & ext & H & Hc)].
           ++ left. split; [reflexivity|]. split; [lia|]. split; [|split; [reflexivity|exists sf; exact H]]. f_equal. rewrite Hr in H. eapply converts_fun; eassumption.
           ++ exfalso. rewrite Hr in H. eapply converts_not_breaks; eassumption.
        -- right; right; right. split; [reflexivity|]. split; [|left; lia]. eapply conv_break; [exact Hr| |left; exact Hi|exact Hu].
           intros Hn. rewrite Hn in B0. apply B0. reflexivity.
    + cbn [observe ob_ret] in G3. subst n. cbn [Z.ltb Z.compare].
      do 4 eexists; split; [reflexivity|]. split; [change (zlen (@nil A)) with 0; lia|]. right; right; right. split; [reflexivity|]. split; [apply HF1; assumption|left; lia].
  - destruct (e_decode_ok s u o pv space (e_mu s) Hop HR Hu Hr Hoff Hg Hsp) as (s' & n' & d' & err & E' & Hz & Hd).
    { unfold e_mu. destruct (Z.eqb_spec (e_off s) 0); lia. }
    exists s', n', d', err. split; [exact E'|]. split; [exact Hz|]. destruct Hd as [Hd|[Hd|Hd]]; [left; exact Hd|right; left; exact Hd|right; right; right].
    destruct Hd as (D1 & D2 & D3). split; [exact D1|]. split; [exact D2|left; exact D3].
Qed.
End Enc.
