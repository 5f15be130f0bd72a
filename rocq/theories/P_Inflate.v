From Verif Require Import Base StreamSpec P_Stream M_Buffered BufferedSpec P_Buffered M_Inflate InflateSpec.

Lemma prefix_slice {A} (o y c : list A) : prefix (o ++ y) c -> y = slice c (zlen o) (zlen y) /\ zlen o + zlen y <= zlen c.
Proof.
  intros (t & ->). rewrite <- app_assoc, !zlen_app. pose proof (zlen_nonneg t). split; [|lia].
  rewrite slice_app_r by lia. rewrite Z.sub_diag, slice_app_l by lia. rewrite slice_all. reflexivity.
Qed.
Lemma firstn_skipn_z {A} (l : list A) k : l = firstn (Z.to_nat k) l ++ skipn (Z.to_nat k) l.
Proof. symmetry; apply firstn_skipn. Qed.
Lemma zlen_skipn {A} (l : list A) k : 0 <= k <= zlen l -> zlen (skipn (Z.to_nat k) l) = zlen l - k.
Proof. unfold zlen; intros. rewrite skipn_length. lia. Qed.
Lemma skipn_slice {A} (l : list A) p n : 0 <= p -> 0 <= n -> skipn (Z.to_nat p) l = slice l p n ++ skipn (Z.to_nat (p + n)) l.
Proof.
  intros Hp Hn. unfold slice. replace (Z.to_nat (p + n)) with (Z.to_nat n + Z.to_nat p)%nat by lia. rewrite <- skipn_skipn'. symmetry; apply firstn_skipn.
Qed.

Section P.
Context {D P : Type}.
Variables (cd : codec D) (f : format) (DI : D -> list Z -> list Z -> Prop).
Hypothesis Hcd : codec_ok f cd DI.
Variables (par : ops P Z) (full : list Z) (fails : Prop) (lim : Z) (R : P -> view -> Prop).
Hypothesis HS : sim par full fails lim R.
Hypothesis Hlim : 1 <= lim.
Variables (off : Z) (ext : list Z) (F : Prop).
Let r := skipn (Z.to_nat off) full.
Let content := dec f (r ++ ext).
Hypothesis HF1 : fails -> F.
Hypothesis HF2 : (forall a b x, r = a ++ b -> ~ fmt f a x) -> F.
Variable bz : bool.

Definition z_end (s : zstate D P) : Prop :=
  z_open s = false /\ z_bad s = false /\ exists u, fmt f u content /\ prefix u r /\
    (fails \/ exists pv, R (z_par s) pv /\ r = u ++ skipn (Z.to_nat (v_pos pv)) full).
Definition z_alive (s : zstate D P) (c : Z) : Prop :=
  z_open s = true /\ z_bad s = false /\ exists u o pv, R (z_par s) pv /\ DI (z_dec s) u o /\ zlen o = c /\ prefix o content /\
    r = u ++ z_win s ++ skipn (Z.to_nat (v_pos pv)) full /\ zlen (z_win s) <= v_pos pv - v_lo pv /\
    (z_out s <> 0 -> z_win s = [] /\ forall x, ~ fmt f u x) /\ zlen full - v_pos pv <= Z.of_nat (z_gas s).
Definition z_SR (s : zstate D P) (c : Z) : Prop := z_alive s c \/ (c = zlen content /\ z_end s).

Lemma z_fill_bad s sp : z_open s = true -> z_bad s = true -> (exists pv, R (z_par s) pv) ->
  z_out s <> 0 -> exists s', z_fill cd par bz s sp = Ret (s', -1, [], true).
Proof.
  intros H1 H2 (pv & H3) H4. unfold z_fill. rewrite H1. cbn [negb]. destruct (Z.eqb_spec (z_out s) 0) as [Q0|Q0]; [contradiction|]. cbn [negb].
  unfold z_read. destruct (sim_read _ _ _ _ _ (z_par s) pv 1 0 HS H3) as (p' & n & d & E & _); [cbn; unfold INT32_MAX, INT32_MIN; lia|].
  rewrite E; cbn [bind]. destruct (n <? 1); cbn [bind z_out z_bad]; rewrite ?H2; (destruct (Z.eqb_spec (z_out s) 0) as [?E|?E]; [contradiction|]); cbn [negb andb]; eauto.
Qed.

Lemma z_SrcOK : SrcOK (z_src cd par bz) content F z_SR z_end.
Proof.
  intros s c space HSR Hsp. destruct HSR as [HA|(Hc & HE)].
  2:{ exists s, (-1), [], false. unfold z_src, fill, z_fill. destruct HE as (H1 & HE). rewrite H1. cbn [negb]. split; [reflexivity|].
      split; [change (zlen (@nil Z)) with 0; lia|]. right; right; left. split; [reflexivity|]. split; [lia|]. split; [exact Hc|split; [exact H1|exact HE]]. }
  destruct HA as (Hop & Hbd & u & o & pv & HR & HD & Ho & Hpre & Hr & Hwin & Hout & Hgas).
  cbn [fill z_src mu]. unfold z_fill. rewrite Hop. cbn [negb].
  (* reading phase *)
  assert ((exists s1 pv1, (if negb (z_out s =? 0) then z_read par s else Ret s) = Ret s1 /\ z_open s1 = true /\ z_bad s1 = false /\ z_dec s1 = z_dec s /\
             R (z_par s1) pv1 /\ r = u ++ z_win s1 ++ skipn (Z.to_nat (v_pos pv1)) full /\ zlen (z_win s1) <= v_pos pv1 - v_lo pv1 /\
             zlen full - v_pos pv1 <= Z.of_nat (z_gas s1) /\ (2 * z_gas s1 + 1 <= 2 * z_gas s + (if (z_out s =? 0)%Z then 1 else 0))%nat /\ v_pos pv1 <= v_hi pv1 <= zlen full /\ 0 <= v_lo pv1) \/
          (exists s1, (if negb (z_out s =? 0) then z_read par s else Ret s) = Ret s1 /\ z_out s1 <> 0 /\ z_bad s1 = true /\ F)) as [(s1 & pv1 & E1 & P1 & P2 & P3 & P4 & P5 & P6 & P7 & P8 & P9 & P10)|(s1 & E1 & P1 & P2 & P3)].
  { destruct (Z.eqb_spec (z_out s) 0) as [Z0|Z0]; cbn [negb].
    - left. exists s, pv. assert (V1 := sim_view _ _ _ _ _ HS _ _ HR). assert (V2 := sim_pos _ _ _ _ _ HS _ _ HR). unfold view_ok in V1.
      split; [reflexivity|]. do 3 (split; [assumption||reflexivity|]). split; [exact HR|]. split; [exact Hr|]. split; [exact Hwin|]. split; [exact Hgas|]. split; [lia|]. split; lia.
    - destruct (Hout Z0) as (W0 & Hnf). unfold z_read.
      destruct (sim_read _ _ _ _ _ (z_par s) pv 1 0 HS HR) as (p' & n & d & E & Hres); [cbn; unfold INT32_MAX, INT32_MIN; lia|]. rewrite E; cbn [bind].
      assert (V1 := sim_view _ _ _ _ _ HS _ _ HR). assert (V2 := sim_pos _ _ _ _ _ HS _ _ HR). unfold view_ok in V1.
      destruct Hres as [[G HR']|(G1 & G2 & G3)].
      + destruct G as (G1 & G2 & G3 & G4 & [(R1 & R2 & R3 & R4 & R5)|(R1 & R2 & R3 & R4)]); cbn [observe ob_ret ob_data ob_st next_view] in *.
        * destruct (Z.ltb_spec 0 n); [|lia]. destruct (Z.ltb_spec n 1); [lia|]. left. eexists; exists (mkView (v_pos pv + n) (v_pos pv) (v_pos pv + n)).
          split; [reflexivity|]. cbn [z_open z_bad z_dec z_par z_win z_gas v_pos v_lo v_hi]. do 3 (split; [assumption||reflexivity|]). split; [exact HR'|].
          split; [|split; [|split; [|split; [|split]]]].
          -- rewrite Hr, W0. cbn [app]. f_equal. subst d. apply skipn_slice; lia.
          -- subst d. rewrite zlen_slice by lia. lia.
          -- lia.
          -- lia.
          -- lia.
          -- lia.
        * subst n d. cbn [Z.ltb Z.compare]. right. eexists; split; [reflexivity|]. cbn [z_out z_bad]. split; [exact Z0|]. split; [reflexivity|]. apply HF2.
          intros a b x Hab Hx. assert (r = u) as Hru.
          { rewrite Hr, W0. rewrite (skipn_all2 full) by (unfold zlen in *; lia). rewrite !app_nil_r. reflexivity. }
          destruct b as [|b0 b].
          -- rewrite app_nil_r in Hab. apply (Hnf x). congruence.
          -- refine (co_unended _ _ _ Hcd _ _ _ HD a (b0 :: b) x _ _ Hx); congruence.
      + cbn [observe ob_ret] in G3. subst n. cbn [Z.ltb Z.compare]. right. eexists; split; [reflexivity|]. cbn [z_out z_bad]. auto. }
  2:{ rewrite E1; cbn [bind]. destruct (Z.eqb_spec (z_out s1) 0); [contradiction|]. rewrite P2. cbn [negb andb].
      do 4 eexists; split; [reflexivity|]. split; [change (zlen (@nil Z)) with 0; lia|]. right; right; right. split; [reflexivity|]. split; [exact P3|left; lia]. }
  rewrite E1; cbn [bind]. rewrite P2, andb_false_r.
  destruct (c_step cd (z_dec s1) (z_win s1) space) as [[[d' k] y] rc] eqn:Est. rewrite P3 in Est.
  destruct (co_step _ _ _ Hcd _ _ _ _ _ _ _ _ _ HD (proj1 Hsp) Est) as (Hk & Hy & Hpr & Hrc).
  pose proof (zlen_nonneg y) as Hy0.
  assert (prefix (o ++ y) content) as Hpy.
  { unfold content. rewrite P5. rewrite <- !app_assoc. apply Hpr. }
  destruct (prefix_slice _ _ _ Hpy) as (Hs1 & Hs2). rewrite Ho in Hs1, Hs2.
  assert (zlen (skipn (Z.to_nat k) (z_win s1)) = zlen (z_win s1) - k) as Zw by (apply zlen_skipn; lia).
  assert (r = (u ++ firstn (Z.to_nat k) (z_win s1)) ++ skipn (Z.to_nat k) (z_win s1) ++ skipn (Z.to_nat (v_pos pv1)) full) as Hr2.
  { rewrite P5, <- app_assoc. f_equal. rewrite app_assoc, <- firstn_skipn_z. reflexivity. }
  unfold z_mu. rewrite Hop.
  destruct rc.
  - (* More *)
    destruct Hrc as (HD' & Hfull).
    do 4 eexists; split; [reflexivity|]. split; [lia|]. cbn [z_open z_out z_gas].
    assert (z_SR (mkZ (z_par s1) true d' (skipn (Z.to_nat k) (z_win s1)) (space - zlen y) false (z_gas s1)) (c + zlen y)) as HSR'.
    { left. split; [reflexivity|]. split; [reflexivity|]. exists (u ++ firstn (Z.to_nat k) (z_win s1)), (o ++ y), pv1. cbn [z_par z_dec z_win z_out z_gas].
      split; [exact P4|]. split; [exact HD'|]. split; [rewrite zlen_app; lia|]. split; [exact Hpy|]. split; [exact Hr2|]. split; [lia|]. split; [|exact P7].
      intros Hn0. destruct Hfull as [Hfull|(Hfull & Hnf)]; [lia|]. split; [apply zlen_0_nil; lia|]. intros x Hx. apply (Hnf x).
      rewrite Hfull in Hx. unfold zlen in Hx. rewrite Nat2Z.id, firstn_all in Hx. exact Hx. }
    destruct (Z.eqb_spec (zlen y) 0) as [Y0|Y0].
    + right; left. split; [reflexivity|]. split; [exact Y0|]. rewrite Y0, Z.add_0_r in HSR'. rewrite Y0. split; [exact HSR'|].
      destruct (Z.eqb_spec (space - 0) 0); [lia|]. lia.
    + left. split; [reflexivity|]. split; [lia|]. split; [exact Hs1|]. split; [exact Hs2|]. split; [exact HSR'|]. destruct (space - zlen y =? 0)%Z; lia.
  - (* End *)
    assert (exists p' pv', (if zlen (skipn (Z.to_nat k) (z_win s1)) =? 0 then Ret (z_par s1)
        else let* (p, _) := o_reset par (z_par s1) (o_pos par (z_par s1) - zlen (skipn (Z.to_nat k) (z_win s1))) in Ret p) = Ret p' /\
        ((R p' pv' /\ r = (u ++ firstn (Z.to_nat k) (z_win s1)) ++ skipn (Z.to_nat (v_pos pv')) full) \/ fails)) as (p' & pv' & Ep & HRp).
    { destruct (Z.eqb_spec (zlen (skipn (Z.to_nat k) (z_win s1))) 0) as [Q|Q].
      - exists (z_par s1), pv1. split; [reflexivity|]. left. split; [exact P4|]. rewrite Hr2 at 1. apply zlen_0_nil in Q. rewrite Q. reflexivity.
      - assert (V1 := sim_view _ _ _ _ _ HS _ _ P4). assert (V2 := sim_pos _ _ _ _ _ HS _ _ P4). unfold view_ok in V1. rewrite V2.
        set (q := v_pos pv1 - zlen (skipn (Z.to_nat k) (z_win s1))).
        pose proof (zlen_nonneg (skipn (Z.to_nat k) (z_win s1))).
        destruct (sim_reset _ _ _ _ _ (z_par s1) pv1 q HS P4) as (p' & rr & E & Hres); [unfold q; lia|]. rewrite E; cbn [bind].
        destruct Hres as [[G HR']|(_ & HFl)]; [|exists p', pv1; split; [reflexivity|right; exact HFl]].
        exists p'; eexists; split; [reflexivity|]. left. split; [exact HR'|]. cbn [next_view].
        destruct (Z.leb_spec (v_lo pv1) q); [|unfold q in *; lia]. destruct (Z.leb_spec q (v_hi pv1)); [|unfold q in *; lia]. cbn [andb v_pos].
        rewrite Hr2 at 1. f_equal. set (win := skipn (Z.to_nat k) (z_win s1)) in *.
        (* the window is what lies before the position *)
        assert (win ++ skipn (Z.to_nat (v_pos pv1)) full = skipn (Z.to_nat q) full) as Hw.
        { assert (skipn (length (u ++ firstn (Z.to_nat k) (z_win s1))) r = win ++ skipn (Z.to_nat (v_pos pv1)) full) as <-.
          { rewrite Hr2. rewrite skipn_app, skipn_all2 by lia. rewrite Nat.sub_diag. reflexivity. }
          unfold r. rewrite skipn_skipn'. f_equal.
          assert (Hl := f_equal (@length Z) Hr2). rewrite !app_length in Hl. unfold r in Hl. rewrite !skipn_length in Hl. rewrite app_length. unfold q, zlen in *.
          lia. }
        exact Hw. }
    rewrite Ep; cbn [bind].
    do 4 eexists; split; [reflexivity|]. split; [lia|]. cbn [z_open].
    assert (content = o ++ y) as Hcont.
    { unfold content. rewrite Hr2, <- app_assoc. apply (fo_dec _ (co_format _ _ _ Hcd)). exact Hrc. }
    assert (c + zlen y = zlen content) as Hlen by (rewrite Hcont, zlen_app; lia).
    assert (z_SR (mkZ p' false d' [] 0 false (z_gas s1)) (c + zlen y)) as HSR'.
    { right. split; [exact Hlen|]. split; [reflexivity|]. split; [reflexivity|]. eexists. rewrite Hcont. split; [exact Hrc|]. split; [eexists; exact Hr2|]. cbn [z_par].
      destruct HRp as [(HRp & Hrp)|HFl]; [right; exists pv'; split; assumption|left; exact HFl]. }
    destruct (Z.eqb_spec (zlen y) 0) as [Y0|Y0].
    + right; left. split; [reflexivity|]. split; [exact Y0|]. rewrite Y0, Z.add_0_r in HSR'. split; [exact HSR'|]. lia.
    + left. split; [reflexivity|]. split; [lia|]. split; [exact Hs1|]. split; [exact Hs2|]. split; [exact HSR'|]. lia.
  - (* Bad *)
    destruct Hrc as (Hno & Hst).
    assert (F) as HF. { apply HF2. intros a b x Hab. apply (Hno (skipn (Z.to_nat (v_pos pv1)) full) a b x). rewrite <- P5. exact Hab. }
    do 4 eexists; split; [reflexivity|]. split; [lia|]. cbn [z_open].
    right; right; right. split; [reflexivity|]. split; [exact HF|]. destruct bz eqn:Ebz; [left; lia|].
    right; right. split; [lia|]. split; [exact Hs1|]. split; [exact Hs2|]. exists 1%nat. split; [lia|].
    assert (forall st, z_open st = true -> z_bad st = true -> R (z_par st) pv1 -> z_out st <> 0 -> dies (z_src cd par bz) 0 st) as HB0.
    { intros st Q1 Q2 Q3 Q4 sp2 Hsp2. destruct (z_fill_bad st sp2 Q1 Q2 (ex_intro _ pv1 Q3) Q4) as (s4 & E4). do 3 eexists; split; [exact E4|]. left; lia. }
    rewrite <- Ebz.
    destruct (Z.eqb_spec (space - zlen y) 0) as [O0|O0].
    + intros sp1 Hsp1. destruct (Hst (skipn (Z.to_nat k) (z_win s1)) sp1) as (d2 & k2 & E2).
      match goal with |- context [fill (z_src cd par bz) ?st sp1] => assert (exists s3, z_fill cd par bz st sp1 = Ret (s3, 0, [], true) /\
        z_open s3 = true /\ z_bad s3 = true /\ R (z_par s3) pv1 /\ z_out s3 <> 0) as (s3 & E3 & T1 & T2 & T3 & T4) end.
      { unfold z_fill. cbn [z_open negb z_out bind]. rewrite O0. cbn [Z.eqb negb bind andb z_dec z_win z_out z_open]. rewrite E2, Ebz.
        eexists; split; [reflexivity|]. cbn [z_open z_bad z_par z_out]. change (zlen (@nil Z)) with 0. repeat split; try assumption; lia. }
      do 3 eexists; split; [exact E3|]. right. split; [reflexivity|]. apply HB0; assumption.
    + intros sp1 Hsp1. match goal with |- context [fill _ ?st sp1] => destruct (HB0 st eq_refl eq_refl P4 O0 sp1 Hsp1) as (s4 & m4 & e4 & E4 & [H4|(_ & [])]) end.
      do 3 eexists; split; [exact E4|]. left; exact H4.
Qed.
End P.

(** ** end of a buffered stream: Eof only after the source has ended *)
Section Fin.
Context {S A : Type}.
Variable src : source S A.
Definition fin_inv (x : bstream S A) : Prop := bs_st x = Eof -> bs_fin x = true.
Lemma wtb_loop_st : forall fuel b s st nt mr ms nw b' s' st' nw', wtb_loop src fuel b s st nt mr ms nw = Ret (b', s', st', nw') -> st' = st \/ st' = Error.
Proof.
  induction fuel as [|f IH]; intros b s st nt mr ms nw b' s' st' nw' E; cbn [wtb_loop] in E; destruct (_ && _); try discriminate; try (injection E as _ _ <- _; auto).
  destruct (makeSpace b ms) as [[b1 sp]| | |]; cbn [bind] in E; try discriminate.
  destruct (fill src s _) as [[[[s1 n] d] err]| | |]; cbn [bind] in E; try discriminate.
  destruct (buf_write b1 d) as [b2| | |]; cbn [bind] in E; try discriminate.
  apply IH in E. destruct err; tauto.
Qed.
Lemma fin_read x mn mx x' n d : fin_inv x -> bs_read src x mn mx = Ret (x', n, d) -> fin_inv x'.
Proof.
  unfold fin_inv, bs_read. intros H E. destruct (bs_st x) eqn:Es; [|injection E as <- _ _; rewrite Es; exact H|injection E as <- _ _; congruence].
  set (mx' := if mx <? mn then 0 else mx) in E. 
  destruct (if negb (bs_fin x) && (b_avail (bs_buf x) <? mn) then writeToBuffer src x mn mx' else Ret x) as [x1| | |] eqn:E1; cbn [bind] in E; try discriminate.
  assert (bs_st x1 = Ok \/ bs_st x1 = Error) as H1.
  { destruct (_ && _); [|injection E1 as <-; left; exact Es]. unfold writeToBuffer in E1.
    destruct (wtb_loop _ _ _ _ _ _ _ _ _) as [[[[b s] st] nw]| | |] eqn:Ew; cbn [bind] in E1; try discriminate.
    injection E1 as <-. cbn [bs_st]. rewrite Es in Ew. apply wtb_loop_st in Ew. exact Ew. }
  destruct H1 as [H1|H1]; rewrite H1 in E; cbn [is_error] in E; [|injection E as <- _ _; congruence].
  destruct (buf_read (bs_buf x1) mx') as [[[b m] dd]| | |]; cbn [bind] in E; try discriminate.
  destruct ((bs_size x1 <? bs_pos x1 + m) && (0 <? bs_size x1)); [injection E as <- _ _; cbn; congruence|].
  destruct (true && (b_avail b =? 0) && bs_fin x1) eqn:Ee; injection E as <- _ _; cbn [bs_st bs_fin]; [|congruence].
  intros _. apply andb_true_iff in Ee. tauto.
Qed.
Lemma fin_skip : forall fuel x n sk x' k, fin_inv x -> bs_skip_loop src fuel x n sk = Ret (x', k) -> fin_inv x'.
Proof.
  induction fuel as [|f IH]; intros x n sk x' k H E; cbn [bs_skip_loop] in E; destruct (n =? 0); try discriminate; try (injection E as <- _; exact H).
  destruct (bs_read src x 1 _) as [[[x1 m] d]| | |] eqn:Er; cbn [bind] in E; try discriminate.
  assert (fin_inv x1) as H1 by (eapply fin_read; eassumption).
  destruct (m <=? 0); [injection E as <- _; exact H1|]. eapply IH; eassumption.
Qed.
Lemma fin_exec x c x' ob : fin_inv x -> exec (bs_ops src) x c = Ret (x', ob) -> fin_inv x'.
Proof.
  intros H E. destruct c as [mn mx|n|p]; cbn [exec bs_ops o_read o_skip o_reset] in E.
  - destruct (bs_read src x mn mx) as [[[x1 m] d]| | |] eqn:Er; cbn [bind] in E; try discriminate. injection E as <- _. eapply fin_read; eassumption.
  - unfold bs_skip in E. destruct (bs_skip_loop src _ x n 0) as [[x1 m]| | |] eqn:Er; cbn [bind] in E; try discriminate. injection E as <- _. eapply fin_skip; eassumption.
  - unfold bs_reset in E. destruct (p <? 0); [discriminate|]. destruct (bs_st x) eqn:Es; [destruct (_ && _)|destruct (_ && _)|]; cbn [bind] in E; injection E as <- _; try exact H; unfold fin_inv; cbn; congruence.
Qed.
Lemma fin_run l : forall x x' obs, fin_inv x -> run (bs_ops src) x l = Ret (x', obs) -> fin_inv x'.
Proof.
  induction l as [|c l IH]; intros x x' obs H E; cbn [run] in E; [injection E as <- _; exact H|].
  destruct (exec (bs_ops src) x c) as [[x1 ob]| | |] eqn:E1; cbn [bind] in E; try discriminate.
  assert (fin_inv x1) as H1 by (eapply fin_exec; eassumption).
  destruct (is_error (ob_st ob)); [injection E as <- _; exact H1|].
  destruct (run (bs_ops src) x1 l) as [[x2 obs2]| | |] eqn:E2; cbn [bind] in E; try discriminate. injection E as <- _. eapply IH; eassumption.
Qed.
Section End_.
Variables (content : list A) (fails : Prop) (SR : S -> Z -> Prop) (SE : S -> Prop).
Hypothesis Hsrc : SrcOK src content fails SR SE.
(** when status() is Eof the source is in a final state *)
Lemma eof_end x l x' obs : bs_R content fails SR SE x view0 -> fin_inv x -> Forall (call_ok content BUF_LIM) l ->
  run (bs_ops src) x l = Ret (x', obs) -> bs_st x' = Eof -> SE (bs_src x').
Proof.
  intros HR Hf Hl E He. assert (o_status (bs_ops src) x' <> Error) as Hne by (cbn; congruence).
  destruct (sim_run _ _ _ _ _ _ _ _ _ _ (bs_sim src content fails SR SE Hsrc) HR Hl E Hne) as (v & (_ & HC & _)).
  destruct HC as (_ & _ & _ & _ & HC & _). apply HC. eapply fin_run; eassumption.
Qed.
(** if no final state exists, no call reports Eof *)
Lemma never_eof l : (forall s, ~ SE s) -> forall x v x' obs, bs_R content fails SR SE x v -> fin_inv x -> Forall (call_ok content BUF_LIM) l ->
  run (bs_ops src) x l = Ret (x', obs) -> Forall (fun ob => ob_st ob <> Eof) obs.
Proof.
  intros HN. induction l as [|c l IH]; intros x v x' obs HR Hf Hl E; cbn [run] in E; [injection E as _ <-; constructor|].
  assert (call_ok content BUF_LIM c) as Hc by (inversion Hl; assumption). assert (Forall (call_ok content BUF_LIM) l) as Hl' by (inversion Hl; assumption).
  destruct (sim_step _ _ _ _ _ (bs_sim src content fails SR SE Hsrc) x v c HR Hc) as (x1 & ob & E1 & H1). rewrite E1 in E; cbn [bind] in E.
  assert (fin_inv x1) as Hf1 by (eapply fin_exec; eassumption).
  destruct (is_error (ob_st ob)) eqn:Ee.
  - injection E as _ <-. constructor; [|constructor]. destruct (ob_st ob); cbn in Ee; congruence.
  - destruct (run (bs_ops src) x1 l) as [[x2 obs2]| | |] eqn:E2; cbn [bind] in E; try discriminate. injection E as _ <-.
    destruct H1 as [(G & HR1)|(B & _)]; [|rewrite B in Ee; discriminate].
    constructor; [|eapply IH; eassumption].
    apply exec_status in E1 as (E1 & _). rewrite E1. cbn [bs_ops o_status]. intros He. destruct HR1 as (_ & (_ & _ & _ & _ & HC & _) & _). apply (HN (bs_src x1)). apply HC. apply Hf1. exact He.
Qed.
End End_.
End Fin.

(** ** constructors *)
Section New.
Context {D P : Type}.
Variables (cd : codec D) (f : format) (DI : D -> list Z -> list Z -> Prop).
Hypothesis Hcd : codec_ok f cd DI.
Variables (par : ops P Z) (full : list Z) (fails : Prop) (lim : Z) (R : P -> view -> Prop).
Hypothesis HS : sim par full fails lim R.
Lemma z_ready_ok bufsize p v gas ext F : 1 <= bufsize <= BUF_LIM -> R p v -> zlen full <= Z.of_nat gas ->
  exists x, z_ready cd bufsize p gas = Ret x /\ fin_inv x /\ bs_st x = Ok /\
    bs_init_ok (dec f (skipn (Z.to_nat (v_pos v)) full ++ ext)) F (z_SR f DI full fails R (v_pos v) ext) x.
Proof.
  intros Hb HR Hg. set (content := dec f _). unfold z_ready, setMinBufSize, bs_new. cbn [bs_buf].
  destruct (makeSpace_ok content (@buf0 Z) 0 bufsize) as (b & sp & E & Hrep & Ha & Hrest).
  { unfold rep, buf0, b_size; cbn [b_mem b_off b_avail]. change (zlen (@nil (option Z))) with 0. pose proof (zlen_nonneg content). unfold BUF_LIM. repeat split; try lia. }
  { lia. }
  { cbn; lia. }
  rewrite E; cbn [bind bs_fin bs_src bs_size bs_pos bs_st]. eexists; split; [reflexivity|]. split; [unfold fin_inv; cbn; congruence|]. split; [reflexivity|].
  assert (HV := sim_view _ _ _ _ _ HS _ _ HR). unfold view_ok in HV.
  unfold bs_init_ok. cbn [bs_fin bs_src bs_size bs_pos bs_st bs_buf].
  destruct Hrep as (T1 & T2 & T3 & T4 & T5 & T6 & _). change (b_avail (@buf0 Z)) with 0 in Ha.
  split; [lia|]. split; [exact Ha|]. split; [lia|]. split; [reflexivity|]. split; [|split; [reflexivity|split; [reflexivity|right; left; reflexivity]]].
  left. split; [reflexivity|]. split; [reflexivity|]. exists [], [], v. cbn [z_par z_dec z_win z_out z_gas app].
  split; [exact HR|]. split; [apply (co_init _ _ _ Hcd)|]. split; [reflexivity|]. split; [eexists; reflexivity|]. split; [reflexivity|]. change (zlen (@nil Z)) with 0. split; [lia|].
  split; [|lia]. intros _. split; [reflexivity|]. apply (fo_nonempty _ (co_format _ _ _ Hcd)).
Qed.
End New.
