From Verif Require Import Base StreamSpec P_Stream M_Buffered BufferedSpec P_Buffered P_Inflate M_Process ProcessSpec.

(** ** a buffered stream that is only read with read(1,0) reports the end with a separate read *)
Section Lazy.
Context {S : Type}.
Variable src : source S Z.
Lemma makeSpace_avail (b : buf Z) n b' sp : makeSpace b n = Ret (b', sp) -> b_avail b' = b_avail b.
Proof.
  unfold makeSpace. intros E. cbv zeta in E. destruct (negb _); [discriminate|]. destruct (n <=? b_size b - b_off b - b_avail b); [injection E as <- _; reflexivity|].
  assert (forall (c : buf Z) z b2, setSize c z = Ret b2 -> b_avail b2 = b_avail c) as Hs by (intros c z b2; unfold setSize; destruct (_ && _); [|discriminate]; intros Q; injection Q as <-; reflexivity).
  set (q := if b_avail b =? 0 then _ else _) in E. assert (b_avail (fst q) = b_avail b) as Hq.
  { unfold q. destruct (Z.eqb_spec (b_avail b) 0); [cbn; lia|]. destruct (b_off b =? 0); reflexivity. }
  destruct q as [b1 sp1]. cbn [fst] in Hq. destruct (n <=? sp1); [injection E as <- _; exact Hq|].
  destruct (chk32 (n - sp1)) as [d| | |]; cbn [bind] in E; try discriminate. destruct (d <? b_size b).
  - destruct (chk32 (sp1 + _)); cbn [bind] in E; try discriminate. destruct (chk32 (2 * _)); cbn [bind] in E; try discriminate. destruct (setSize b1 _) as [b2| | |] eqn:Q; cbn [bind] in E; try discriminate. injection E as <- _. rewrite (Hs _ _ _ Q). exact Hq.
  - destruct (chk32 (b_size b + n)); cbn [bind] in E; try discriminate. destruct (setSize b1 _) as [b2| | |] eqn:Q; cbn [bind] in E; try discriminate. injection E as <- _. rewrite (Hs _ _ _ Q). exact Hq.
Qed.
Lemma wtb_short : forall fuel b s st nt mr ms nw b' s' st' nw', wtb_loop src fuel b s st nt mr ms nw = Ret (b', s', st', nw') ->
  ms = nt - b_avail b -> (nw < 0 -> 0 < ms) -> nw' < 0 -> b_avail b' < nt.
Proof.
  induction fuel as [|f IH]; intros b s st nt mr ms nw b' s' st' nw' E Hm Hw Hn; cbn [wtb_loop] in E.
  - destruct (_ && _); [discriminate|]. injection E as <- _ _ <-. specialize (Hw Hn). lia.
  - destruct (_ && _) eqn:C; [|injection E as <- _ _ <-; specialize (Hw Hn); lia]. apply andb_true_iff in C as (C1 & C2). apply Z.ltb_lt in C1.
    destruct (makeSpace b ms) as [[b1 sp]| | |] eqn:E1; cbn [bind] in E; try discriminate. apply makeSpace_avail in E1.
    destruct (fill src s _) as [[[[s1 n] d] err]| | |]; cbn [bind] in E; try discriminate.
    destruct (buf_write b1 d) as [b2| | |] eqn:E2; cbn [bind] in E; try discriminate.
    assert (b_avail b2 = b_avail b1) as E3 by (unfold buf_write in E2; destruct (_ && _); [injection E2 as <-; reflexivity|discriminate]).
    eapply IH; [exact E| | |exact Hn]; destruct (Z.ltb_spec 0 n); cbn [b_avail]; lia.
Qed.
Variables (content : list Z) (SR : S -> Z -> Prop) (SE : S -> Prop).
Hypothesis Hsrc : SrcOK src content False SR SE.
Definition lazy_I (x : bstream S Z) (c : Z) : Prop :=
  bs_core content False SR SE x c /\ b_avail (bs_buf x) = 0 /\ bs_fin x = false /\ bs_st x = Ok.
Lemma bs_lazy : EndsSeparately (bs_ops src) content lazy_I.
Proof.
  intros x c (HC & Ha & Hf & Hst). assert (HC' := HC). destruct HC' as (HR & Hp & _ & HSR & _ & _ & Hsz). assert (HR' := HR). destruct HR' as (r1 & r2 & r3 & r4 & r5 & r6 & _).
  split; [lia|]. split; [exact Hst|].
  destruct (bs_read_core src content False SR SE Hsrc x c 1 0 HC) as (x' & n & d & E & Hres); [unfold BUF_LIM; lia|].
  exists x', n, d. split; [exact E|].
  destruct Hres as [(_ & [] & _)|[(H1 & H2 & H3 & H4 & _)|(H1 & H2 & H3 & H4 & H5 & _)]]; [|right; split; [lia|split; [exact H4|cbn; congruence]]].
  left. split; [exact H1|]. split; [exact H3|]. split; [exact H4|].
  (* fin stays false *)
  unfold bs_read in E. rewrite Hst in E. change (0 <? 1) with true in E. cbn iota in E. rewrite Hf, Ha in E. change (negb false && (0 <? 1)) with true in E. cbn iota in E. unfold writeToBuffer in E. rewrite Ha, Hst in E. change (1 - 0) with 1 in E.
  destruct (wtb_loop_ok src content False SR SE Hsrc (Z.to_nat 1 + mu src (bs_src x)) (bs_buf x) (bs_src x) Ok 1 0 1 0 c HR) as (b' & s' & st' & nw & E1 & [(_ & [])|(Q1 & Q2 & Q3 & Q4 & _)]); [apply HSR; exact Hf|reflexivity|lia|unfold BUF_LIM; lia|lia|lia|lia|].
  rewrite E1 in E. cbn [bind bs_st bs_buf bs_pos bs_size bs_fin bs_src] in E. rewrite Q1 in E. cbn [is_error] in E.
  destruct (buf_read_ok content b' c 0 Q2) as (b & m & Er & HRb & Hm & Ho & Hav & Hn & _ & Hn2). rewrite Er in E; cbn [bind] in E.
  specialize (Hn2 ltac:(lia)).
  destruct (Z.ltb_spec nw 0) as [Ln|Ln].
  { exfalso. assert (b_avail b' < 1) as Hb by (eapply wtb_short; [exact E1|lia|lia|exact Ln]).
    assert (m = 0) as -> by lia. rewrite (slice_0 content c) in E. replace (b_avail b =? 0) with true in E by (symmetry; apply Z.eqb_eq; lia). cbn [andb] in E.
    destruct ((bs_size x <? bs_pos x + 0) && (0 <? bs_size x)); injection E as _ <- _; [lia|]. change (0 =? 0) with true in H1. lia. }
  rewrite Hf, andb_false_r in E.
  destruct ((bs_size x <? bs_pos x + m) && (0 <? bs_size x)); injection E as <- <- _; [lia|]. cbn [o_status bs_ops bs_st].
  split; [reflexivity|]. split; [exact H2|]. cbn [bs_buf bs_fin bs_st]. split; [lia|]. split; reflexivity.
Qed.
Lemma lazy_init x : bs_init_ok content False SR x -> lazy_I x 0.
Proof.
  intros H. assert (HC := bs_init_R content False SR SE x H). destruct HC as (_ & HC & _). destruct H as (H1 & H2 & H3 & H4 & H5 & H6 & H7 & H8).
  split; [exact HC|]. auto.
Qed.
End Lazy.

(** ** the process *)
Section Proc.
Context {P : Type}.
Variables (par : ops P Z) (ch : child) (pp : pipes).

Section General.
Variables (full : list Z) (fails : Prop) (lim : Z).
Hypothesis Hlim : 1 <= lim.
Let R := Conforms par full fails lim.
Let HS : sim par full fails lim R := conforms_sim par full fails lim.
Definition fed_inv (start : Z) (s : proc P) : Prop :=
  exists c, start <= c <= zlen full /\ subseq (pr_fed s) (slice full start (c - start)) /\
    match pr_in s with Some p => o_status par p = Ok -> exists v, R p v /\ v_pos v = c | None => True end.
Lemma subseq_app {A} (a b c d : list A) : subseq a b -> subseq c d -> subseq (a ++ c) (b ++ d).
Proof.
  induction 1 as [b|x a b H IH|x a b H IH]; intros Hc; cbn [app].
  - induction b as [|x b IHb]; [exact Hc|]. apply ss_drop. exact IHb.
  - apply ss_take. auto.
  - apply ss_drop. auto.
Qed.
Lemma subseq_prefix {A} (a b : list A) : subseq a (a ++ b).
Proof. induction a as [|x a IH]; [apply ss_nil|apply ss_take; exact IH]. Qed.
Lemma fed_fill start s sp s' n d e : 0 <= start -> fed_inv start s -> proc_fill par ch pp s sp = Ret (s', n, d, e) -> fed_inv start s'.
Proof.
  intros Hst (c & Hc & Hs & Hp) E. unfold proc_fill in E. destruct (pr_fdout s); cbn [negb] in E; [|injection E as <- _ _ _; exists c; auto].
  match type of E with (bind ?e0 _) = _ => destruct e0 as [[s1 er]| | |] eqn:E0; cbn [bind] in E; try discriminate end.
  assert (fed_inv start s1) as H1.
  { destruct (pr_in s) as [p|] eqn:Ep; [|injection E0 as <- _; exists c; rewrite Ep; auto].
    destruct (o_status par p) eqn:Est; [|injection E0 as <- _; exists c; rewrite Ep, Est; split; [exact Hc|split; [exact Hs|discriminate]]|injection E0 as <- _; exists c; rewrite Ep, Est; split; [exact Hc|split; [exact Hs|discriminate]]].
    destruct (Hp eq_refl) as (v & HR & Hv). unfold writeToPipe in E0.
    assert (o_pos par p = c) as Epos by (rewrite <- Hv; eapply sim_pos; eassumption).
    destruct (sim_read _ _ _ _ _ p v 1 0 HS HR) as (p1 & k & b & Er & Hres); [cbn; unfold INT32_MAX, INT32_MIN; lia|].
    rewrite Er in E0; cbn [bind] in E0. destruct ((k <=? 0) || is_eof (o_status par p1)) eqn:Ee.
    { injection E0 as <- _. exists c. cbn [pr_in pr_fed]. auto. }
    apply orb_false_iff in Ee as (Ee1 & Ee2). apply Z.leb_gt in Ee1.
    destruct Hres as [[G HR1]|(_ & _ & HB)]; [|cbn in HB; lia].
    destruct G as (G1 & G2 & G3 & G4 & [(R1 & R2 & R3 & R4 & R5)|(R1 & R2 & R3 & R4)]); cbn [observe ob_ret ob_data ob_st next_view] in *; [|lia].
    destruct (Z.ltb_spec 0 k); [|lia].
    set (m := Z.min (pp_write pp (zlen (pr_fed s)) k) k) in E0. destruct (Z.ltb_spec m 0).
    { injection E0 as <- _. exists c. cbn [pr_in pr_fed]. auto. }
    assert (subseq (pr_fed s ++ slice b 0 m) (slice full start (c + k - start))) as HF.
    { replace (c + k - start) with ((c - start) + k) by lia. rewrite <- slice_app by lia. replace (start + (c - start)) with c by lia. apply subseq_app; [exact Hs|].
      subst b. rewrite Hv. rewrite slice_slice by (unfold m; lia). rewrite Z.add_0_r. replace k with (m + (k - m)) at 1 by lia. rewrite <- slice_app by (unfold m; lia). apply subseq_prefix. }
    destruct (Z.eqb_spec m k).
    - cbn [bind] in E0. injection E0 as <- _. exists (c + k). cbn [pr_in pr_fed]. split; [lia|]. split; [exact HF|]. intros _. eexists; split; [exact HR1|]. cbn [v_pos]. lia.
    - destruct (sim_reset _ _ _ _ _ p1 _ (c + k) HS HR1) as (p2 & rr & E2 & Hres2); [lia|]. rewrite Epos, E2 in E0; cbn [bind] in E0. injection E0 as <- _.
      exists (c + k). cbn [pr_in pr_fed]. split; [lia|]. split; [exact HF|]. intros Hok. destruct Hres2 as [[_ HR2]|(B & _)]; [|cbn in B; congruence].
      eexists; split; [exact HR2|]. cbn [next_view v_lo v_hi]. destruct (Z.leb_spec (v_pos v) (c + k)); [|lia]. destruct (Z.leb_spec (c + k) (v_pos v + k)); [|lia]. reflexivity. }
  destruct (readOut ch pp s1 sp) as [[[s2 k] d2]| | |] eqn:E2; cbn [bind] in E; try discriminate.
  assert (pr_in s2 = pr_in s1 /\ pr_fed s2 = pr_fed s1) as (F1 & F2).
  { unfold readOut in E2. destruct (skipn _ _); [destruct (_ && _); [discriminate|]; injection E2 as <- _ _; auto|injection E2 as <- _ _; auto]. }
  destruct H1 as (c1 & C1 & C2 & C3). destruct (k <=? 0); injection E as <- _ _ _; exists c1; cbn [pr_in pr_fed]; rewrite F1, F2; auto.
Qed.
End General.

Section Exact.
Variables (full : list Z) (LI : P -> Z -> Prop).
Hypothesis HL : EndsSeparately par full LI.
Hypothesis HA : Answers ch.
Hypothesis HB : Blocking pp.
Let content := ch_out ch full true.
(** output so far is a prefix of the final output *)
Lemma out_grows c : 0 <= c <= zlen full -> exists t, content = ch_out ch (slice full 0 c) false ++ t.
Proof.
  intros Hc. destruct HA as (A1 & A2 & _). destruct (A1 (slice full 0 c) (slice full (0 + c) (zlen full - c))) as (t & E & _). rewrite slice_app in E by lia. replace (c + (zlen full - c)) with (zlen full) in E by lia. rewrite slice_all in E.
  destruct (A2 full) as (t2 & E2). exists (t ++ t2). unfold content. rewrite E2, E, app_assoc. reflexivity.
Qed.
Definition proc_SR (s : proc P) (k : Z) : Prop :=
  0 <= k <= zlen content /\
  if pr_fdout s then
    pr_got s = k /\
    match pr_in s with
    | Some p => exists c, LI p c /\ pr_fdin s = true /\ pr_fed s = slice full 0 c /\ k <= zlen (ch_out ch (slice full 0 c) false)
    | None => pr_fdin s = false /\ pr_fed s = full
    end
  else k = zlen content /\ pr_fdin s = false /\ pr_fed s = full.
Definition proc_SE (s : proc P) : Prop := pr_fdin s = false /\ pr_fed s = full.
Lemma readOut_some (s : proc P) space k out : pr_got s = k -> ch_out ch (pr_fed s) (negb (pr_fdin s)) = out -> 0 <= k < zlen out -> 1 <= space <= INT32_MAX -> (exists t, content = out ++ t) ->
  exists n, readOut ch pp s space = Ret (mkProc (pr_in s) (pr_fdin s) (pr_fdout s) (pr_fed s) (k + n), n, slice content k n) /\ 1 <= n <= space /\ k + n <= zlen out.
Proof.
  intros Hg Ho Hk Hsp (t & Ht). unfold readOut. rewrite Hg, Ho.
  set (av := skipn (Z.to_nat k) out). assert (zlen av = zlen out - k) as Lv by (apply zlen_skipn; lia).
  set (n := Z.max 1 (Z.min (pp_read pp k (zlen av)) (Z.min space (zlen av)))). assert (1 <= n <= space /\ n <= zlen av) as Hn by (unfold n; lia).
  exists n. split; [|lia]. assert (slice av 0 n = slice content k n) as E.
  { unfold av. rewrite Ht, slice_app_l by lia. unfold slice. cbn [Z.to_nat skipn]. reflexivity. }
  destruct av as [|a av']; [change (zlen (@nil Z)) with 0 in Lv; lia|]. rewrite E. reflexivity.
Qed.
Lemma proc_SrcOK : SrcOK (proc_src par ch pp) content False proc_SR proc_SE.
Proof.
  intros s k space (Hk & HR) Hsp. destruct HA as (A1 & A2 & A3). cbn [fill proc_src mu]. unfold proc_fill.
  destruct (pr_fdout s) eqn:Efd; cbn [negb].
  2:{ do 4 eexists. split; [reflexivity|]. split; [change (zlen (@nil Z)) with 0; lia|]. right; right; left. destruct HR as (H1 & H2). split; [reflexivity|]. split; [lia|]. split; [exact H1|exact H2]. }
  destruct HR as (Hg & HR).
  (* the state in which the output is read *)
  assert (forall s1, pr_fdout s1 = true -> pr_got s1 = k -> proc_SR s1 k ->
     match pr_in s1 with Some p => k < zlen (ch_out ch (pr_fed s1) false) | None => True end ->
     exists s' n d, (let* (s, n, d) := readOut ch pp s1 space in
        if n <=? 0 then Ret (mkProc (pr_in s) (pr_fdin s) false (pr_fed s) (pr_got s), n, d, false) else Ret (s, n, d, false)) = Ret (s', n, d, false) /\ zlen d <= space /\
        ((0 < n /\ d = slice content k n /\ k + n <= zlen content /\ proc_SR s' (k + n) /\ ((if pr_fdout s' then 1 else 0) <= 1)%nat) \/
         (n = 0 /\ proc_SR s' k /\ ((if pr_fdout s' then 1 else 0) < 1)%nat))) as Hout.
  { intros s1 F1 F2 (_ & F3) F4. rewrite F1 in F3. destruct F3 as (_ & F3). destruct (pr_in s1) as [p|] eqn:Ep.
    - destruct F3 as (c & C1 & C2 & C3 & C4). destruct (HL p c C1) as (Hc & _). destruct (out_grows c Hc) as (t & Ht).
      destruct (readOut_some s1 space k (ch_out ch (slice full 0 c) false)) as (n & E & Hn1 & Hn2); [exact F2|rewrite C2, C3; reflexivity|rewrite C3 in F4; lia|lia|exists t; exact Ht|].
      rewrite E; cbn [bind]. destruct (Z.leb_spec n 0); [lia|]. do 3 eexists. split; [reflexivity|].
      assert (k + n <= zlen content) as Hkn by (rewrite Ht, zlen_app; pose proof (zlen_nonneg t); lia).
      split; [rewrite zlen_slice by lia; lia|]. left. split; [lia|]. split; [reflexivity|]. split; [lia|]. cbn [pr_fdout]. rewrite F1. split; [|lia].
      split; [lia|]. cbn [pr_fdout pr_got pr_in pr_fdin pr_fed]. rewrite Ep. split; [reflexivity|]. exists c. auto.
    - destruct F3 as (C2 & C3). destruct (Z.eq_dec k (zlen content)) as [Ek|Ek].
      + unfold readOut. rewrite F2, C2, C3. cbn [negb]. rewrite skipn_all2 by (unfold content, zlen in Ek; lia). cbn [andb bind]. change (0 <=? 0) with true. cbn iota. do 3 eexists. split; [reflexivity|]. split; [change (zlen (@nil Z)) with 0; lia|]. right. split; [reflexivity|]. cbn [pr_fdout]. split; [|lia].
        split; [lia|]. cbn [pr_fdout pr_fdin pr_fed]. auto.
      + destruct (readOut_some s1 space k content) as (n & E & Hn1 & Hn2); [exact F2|rewrite C2, C3; reflexivity|lia|lia|exists []; rewrite app_nil_r; reflexivity|].
        rewrite E; cbn [bind]. destruct (Z.leb_spec n 0); [lia|]. do 3 eexists. split; [reflexivity|]. split; [rewrite zlen_slice by lia; lia|]. left. split; [lia|]. split; [reflexivity|]. split; [lia|]. cbn [pr_fdout]. rewrite F1. split; [|lia].
        split; [lia|]. cbn [pr_fdout pr_got pr_in pr_fdin pr_fed]. rewrite Ep. auto. }
  assert (exists s1, match pr_in s with Some p => match o_status par p with Ok => writeToPipe par pp s p | _ => Ret (s, false) end | None => Ret (s, false) end = Ret (s1, false) /\
     pr_fdout s1 = true /\ pr_got s1 = k /\ proc_SR s1 k /\ match pr_in s1 with Some p => k < zlen (ch_out ch (pr_fed s1) false) | None => True end) as (s1 & E1 & F1 & F2 & F3 & F4).
  { destruct (pr_in s) as [p|] eqn:Ep.
    2:{ exists s. split; [reflexivity|]. split; [exact Efd|]. split; [exact Hg|]. rewrite Ep. split; [|exact I]. split; [exact Hk|]. rewrite Efd, Ep. auto. }
    destruct HR as (c & C1 & C2 & C3 & C4). destruct (HL p c C1) as (Hc & Hok & p' & n & d & Er & Hres). rewrite Hok. unfold writeToPipe. rewrite Er; cbn [bind].
    destruct Hres as [(H1 & H2 & H3 & H4 & H5)|(H1 & H2 & H3)].
    - destruct (Z.leb_spec n 0); [lia|]. rewrite H4. cbn [is_eof orb]. rewrite HB. rewrite Z.min_id. destruct (Z.ltb_spec n 0); [lia|]. rewrite Z.eqb_refl. cbn [bind].
      eexists; split; [reflexivity|]. cbn [pr_fdout pr_got pr_in pr_fed]. split; [exact Efd|]. split; [exact Hg|].
      assert (pr_fed s ++ slice d 0 n = slice full 0 (c + n)) as Ef.
      { rewrite C3, H2, slice_slice, Z.add_0_r by lia. rewrite <- (slice_app full 0 c n) by lia. reflexivity. }
      assert (zlen (ch_out ch (slice full 0 c) false) < zlen (ch_out ch (slice full 0 (c + n)) false)) as Hgr.
      { rewrite <- (slice_app full 0 c n) by lia. destruct (A1 (slice full 0 c) (slice full (0 + c) n)) as (t & Et & Hne). rewrite Et, zlen_app. 
        assert (t <> []) as Ht. { apply Hne. intros Q. apply (f_equal zlen) in Q. rewrite zlen_slice in Q by lia. change (zlen (@nil Z)) with 0 in Q. lia. }
        destruct t; [congruence|]. rewrite zlen_cons. pose proof (zlen_nonneg t). lia. }
      rewrite Ef. split; [|lia]. split; [exact Hk|]. cbn [pr_fdout pr_got pr_in pr_fed pr_fdin]. rewrite Efd. split; [exact Hg|]. exists (c + n). split; [exact H5|]. split; [exact C2|]. split; [reflexivity|lia].
    - destruct (Z.leb_spec n 0); [|lia]. cbn [orb]. assert (is_error (o_status par p') = false) as -> by (apply is_error_false; exact H3).
      eexists; split; [reflexivity|]. cbn [pr_fdout pr_got pr_in pr_fed]. split; [exact Efd|]. split; [exact Hg|]. split; [|exact I].
      split; [exact Hk|]. cbn [pr_fdout pr_got pr_in pr_fed pr_fdin]. rewrite Efd. split; [exact Hg|]. split; [reflexivity|]. rewrite C3, H2. apply slice_all. }
  rewrite E1; cbn [bind]. destruct (Hout s1 F1 F2 F3 F4) as (s' & n & d & E & Hd & Hres). 
  rewrite E. exists s', n, d, false. split; [reflexivity|]. split; [exact Hd|].
  destruct Hres as [(H1 & H2 & H3 & H4 & H5)|(H1 & H2 & H3)].
  - left. split; [reflexivity|]. split; [exact H1|]. split; [exact H2|]. split; [exact H3|]. split; [exact H4|exact H5].
  - right; left. split; [reflexivity|]. split; [exact H1|]. split; [exact H2|exact H3].
Qed.
End Exact.
End Proc.
