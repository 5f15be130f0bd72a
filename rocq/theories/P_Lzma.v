From Verif Require Import Base StreamSpec P_Stream M_Buffered BufferedSpec P_Buffered M_Text M_Detect InflateSpec P_Inflate M_Lzma LzmaSpec.

(** ** the shared size field *)
Section Size.
Context {D P : Type}.
Variables (cd : lzcodec D) (par : ops P Z) (content : list Z) (fails : Prop).
Variables (SR : lstate D P -> Z -> Prop) (SE : lstate D P -> Prop).
Let src := l_src cd par.
Hypothesis Hsrc : SrcOK src content fails SR SE.
Definition fine (n : Z) : Prop := (n = -1 \/ zlen content <= n) /\ (fails \/ n = -1 \/ n = zlen content).
Hypothesis HSR : forall s c, SR s c -> fine (l_size s).
Hypothesis HSE : forall s, SE s -> l_size s = zlen content.

Definition eqx (x y : bstream (lstate D P) Z) : Prop :=
  bs_buf x = bs_buf y /\ bs_fin x = bs_fin y /\ bs_src x = bs_src y /\ bs_pos x = bs_pos y /\ bs_st x = bs_st y.
Definition ycond (y : bstream (lstate D P) Z) : Prop := bs_size y = -1 \/ (bs_fin y = true /\ bs_size y = zlen content).
Definition synced (x : bstream (lstate D P) Z) : Prop := bs_size x = l_size (bs_src x).

Lemma core_fine y pos : bs_core content fails SR SE y pos -> fine (l_size (bs_src y)).
Proof.
  intros (_ & _ & _ & H1 & H2 & _). destruct (bs_fin y) eqn:E.
  - destruct (H2 eq_refl) as (H3 & _). apply HSE in H3. rewrite H3. unfold fine. split; [right; lia|right; right; reflexivity].
  - eapply HSR. apply H1. reflexivity.
Qed.

Lemma l_read_eq x y pos mn mx : eqx x y -> ycond y -> synced x -> bs_core content fails SR SE y pos -> 1 <= mn <= BUF_LIM ->
  exists x' y' n d, l_read cd par x mn mx = Ret (x', n, d) /\ bs_read src y mn mx = Ret (y', n, d) /\ eqx x' y' /\
    (bs_st y' <> Error -> ycond y' /\ synced x').
Proof.
  intros Hxy Hy Hs HC Hmn. destruct (bs_read_core src content fails SR SE Hsrc y pos mn mx HC Hmn) as (y' & n & d & E & Hres).
  assert (Hcf := core_fine y pos HC). destruct HC as (HR & Hp & Hst & HS & HE & Hf & Hsz).
  assert (Hxy' := Hxy). destruct Hxy' as (X1 & X2 & X3 & X4 & X5).
  unfold l_read. assert (E0 := E). unfold bs_read in E. rewrite X5. destruct (bs_st y) eqn:Est; [| |congruence].
  2:{ injection E as <- <- <-. exists x, y, (-1), []. split; [reflexivity|]. split; [exact E0|]. split; [exact Hxy|]. intros _. split; assumption. }
  set (mx' := if mx <? mn then 0 else mx) in *. rewrite X1, X2.
  assert (exists y1, (if negb (bs_fin y) && (b_avail (bs_buf y) <? mn) then writeToBuffer src y mn mx' else Ret y) = Ret y1) as (y1 & Ey1).
  { destruct (if negb (bs_fin y) && (b_avail (bs_buf y) <? mn) then writeToBuffer src y mn mx' else Ret y) as [y1| | |]; cbn [bind] in E; try discriminate. eexists; reflexivity. }
  rewrite Ey1 in E; cbn [bind] in E.
  assert (exists x1, (if negb (bs_fin y) && (b_avail (bs_buf y) <? mn)
       then let* x1 := writeToBuffer (l_src cd par) x mn mx' in Ret (mkBS (bs_buf x1) (bs_fin x1) (bs_src x1) (l_size (bs_src x1)) (bs_pos x1) (bs_st x1))
       else Ret x) = Ret x1 /\ eqx x1 y1 /\ synced x1 /\ bs_size y1 = bs_size y /\ (bs_fin y = true -> y1 = y)) as (x1 & Ex1 & Hx1 & Hs1 & Hz1 & Hfy).
  { destruct (bs_fin y) eqn:Ef; cbn [negb andb] in *.
    - injection Ey1 as <-. exists x. split; [reflexivity|]. split; [exact Hxy|]. split; [exact Hs|]. split; [reflexivity|reflexivity].
    - destruct (b_avail (bs_buf y) <? mn).
      + unfold writeToBuffer in *. rewrite X1, X3, X5, ?Est. fold src. rewrite ?Est in Ey1.
        destruct (wtb_loop src _ (bs_buf y) _ _ _ _ _ _) as [[[[b s] st] nw]| | |]; cbn [bind] in *; try discriminate.
        injection Ey1 as <-. eexists; split; [reflexivity|]. cbn [bs_buf bs_fin bs_src bs_pos bs_st bs_size]. unfold eqx, synced; cbn [bs_buf bs_fin bs_src bs_pos bs_st bs_size].
        rewrite X2, X4, Ef. split; [tauto|]. split; [reflexivity|]. split; [reflexivity|discriminate].
      + injection Ey1 as <-. exists x. split; [reflexivity|]. split; [exact Hxy|]. split; [exact Hs|]. split; reflexivity. }
  rewrite Ex1; cbn [bind]. destruct Hx1 as (Y1 & Y2 & Y3 & Y4 & Y5). rewrite Y5.
  destruct (is_error (bs_st y1)) eqn:Eer.
  { injection E as <- <- <-. exists x1, y1, (-2), []. split; [reflexivity|]. split; [exact E0|]. split; [split; [exact Y1|]; split; [exact Y2|]; split; [exact Y3|]; split; [exact Y4|exact Y5]|].
    intros Hne. destruct (bs_st y1); cbn in Eer; congruence. }
  rewrite Y1, Y4. destruct (buf_read (bs_buf y1) mx') as [[[b m] dd]| | |] eqn:Eb; cbn [bind] in *; try discriminate.
  (* what was read lies inside the content *)
  assert (bs_pos y1 + m <= zlen content /\ bs_pos y1 + m <= l_size (bs_src y1) \/ bs_pos y1 + m <= zlen content /\ l_size (bs_src y1) = -1) as Hin.
  { assert (bs_pos y1 + m <= zlen content /\ fine (l_size (bs_src y1))) as (Q1 & (Q2 & _)); [|lia].
    destruct (bs_fin y) eqn:Ef.
    - rewrite (Hfy eq_refl) in *. split; [|exact Hcf]. destruct (buf_read_ok content (bs_buf y) pos mx' HR) as (b2 & n2 & Er & HRb & Hm & Ho & Ha & Hn & Hn1 & Hn2).
      rewrite Er in Eb. injection Eb as _ <- _. destruct HR as (_ & _ & _ & _ & _ & Hc & _). rewrite Hp. lia.
    - assert (bs_size y1 = -1) as Q by (destruct Hy as [Hy|(Hy & _)]; congruence). rewrite Q in E.
      change (0 <? -1) with false in E. rewrite andb_false_r in E.
      assert (bs_st y' <> Error /\ bs_src y' = bs_src y1 /\ bs_pos y' = bs_pos y1 + m) as (Q1 & Q2 & Q3).
      { match type of E with (if ?c then _ else _) = _ => destruct c end; injection E as <- _ _; cbn [bs_st bs_src bs_pos]; [split; [congruence|split; reflexivity]|]. split; [|split; reflexivity]. intros Q4; rewrite Q4 in Eer; discriminate. }
      destruct Hres as [(Hres & _)|Hres]; [contradiction|].
      assert (exists q, bs_core content fails SR SE y' q) as (q & HC').
      { destruct Hres as [(_ & Hres & _)|(_ & _ & Hres & _)]; eexists; exact Hres. }
      assert (Hcf' := core_fine y' q HC'). rewrite Q2 in Hcf'. split; [|exact Hcf'].
      destruct HC' as ((_ & H0 & _ & _ & _ & Hc & _) & Hp' & _). rewrite <- Q3, Hp'. lia. }
  assert ((bs_size y1 <? bs_pos y1 + m) && (0 <? bs_size y1) = false) as Cy.
  { rewrite Hz1. destruct Hy as [-> |(_ & ->)]; [apply andb_false_r|]. destruct (Z.ltb_spec (zlen content) (bs_pos y1 + m)); [lia|reflexivity]. }
  assert ((bs_size x1 <? bs_pos y1 + m) && (0 <? bs_size x1) = false) as Cx.
  { unfold synced in Hs1. rewrite Hs1, Y3. destruct (Z.ltb_spec (l_size (bs_src y1)) (bs_pos y1 + m)); [|reflexivity]. cbn [andb]. apply Z.ltb_ge. lia. }
  rewrite Cy in E. rewrite Cx. cbn iota in *. rewrite Y2, Y3.
  assert (bs_st y1 = Ok) as Ok1.
  { clear -Ey1 Est Eer. destruct (negb _ && _); [|congruence]. unfold writeToBuffer in Ey1. destruct (wtb_loop _ _ _ _ _ _ _ _ _) as [[[[b s] st] nw]| | |] eqn:Ew; cbn [bind] in Ey1; try discriminate.
    injection Ey1 as <-. cbn [bs_st] in *. apply wtb_loop_st in Ew. destruct Ew as [->| ->]; [exact Est|discriminate]. }
  rewrite Ok1 in *. cbn [andb] in *.
  destruct ((b_avail b =? 0) && bs_fin y1) eqn:Eend.
  - injection E as <- <- <-. exists (mkBS b (bs_fin y1) (bs_src y1) (if bs_size x1 =? -1 then bs_pos y1 + m else bs_size x1) (bs_pos y1 + m) Eof),
      (mkBS b (bs_fin y1) (bs_src y1) (if bs_size y1 =? -1 then bs_pos y1 + m else bs_size y1) (bs_pos y1 + m) Eof), (if m =? 0 then -1 else m), dd.
    split; [reflexivity|]. split; [exact E0|]. split; [unfold eqx; cbn; tauto|]. intros _.
    apply andb_true_iff in Eend as (_ & Ef1).
    destruct Hres as [(Hres & _)|Hres]; [discriminate Hres|].
    assert (exists q, bs_core content fails SR SE (mkBS b (bs_fin y1) (bs_src y1) (if bs_size y1 =? -1 then bs_pos y1 + m else bs_size y1) (bs_pos y1 + m) Eof) q) as (q & HC').
    { destruct Hres as [(_ & Hres & _)|(_ & _ & Hres & _)]; eexists; exact Hres. }
    destruct HC' as (_ & P1 & _ & _ & P2 & P3 & _). cbn [bs_pos bs_fin bs_src bs_st] in *. destruct (P2 Ef1) as (P4 & _). apply HSE in P4. specialize (P3 eq_refl).
    split.
    + right. cbn [bs_fin bs_size]. split; [exact Ef1|]. rewrite Hz1. destruct Hy as [-> |(_ & ->)]; [change (-1 =? -1) with true; cbn iota; lia|].
      pose proof (zlen_nonneg content). destruct (Z.eqb_spec (zlen content) (-1)); [lia|reflexivity].
    + unfold synced in *; cbn [bs_size bs_src]. rewrite Hs1, Y3, P4. pose proof (zlen_nonneg content). destruct (Z.eqb_spec (zlen content) (-1)); [lia|reflexivity].
  - injection E as <- <- <-. exists (mkBS b (bs_fin y1) (bs_src y1) (bs_size x1) (bs_pos y1 + m) Ok), (mkBS b (bs_fin y1) (bs_src y1) (bs_size y1) (bs_pos y1 + m) Ok), m, dd.
    split; [reflexivity|]. split; [exact E0|]. split; [unfold eqx; cbn; tauto|]. intros _. split.
    + unfold ycond; cbn [bs_size bs_fin]. rewrite Hz1. destruct Hy as [Hy|(Hy1 & Hy2)]; [left; exact Hy|right]. rewrite (Hfy Hy1). split; assumption.
    + unfold synced in *; cbn [bs_size bs_src]. rewrite Hs1, Y3. reflexivity.
Qed.

Lemma l_skip_eq : forall fuel x y pos n sk, eqx x y -> ycond y -> synced x -> bs_core content fails SR SE y pos ->
  forall y' k, bs_skip_loop src fuel y n sk = Ret (y', k) ->
  exists x', l_skip_loop cd par fuel x n sk = Ret (x', k) /\ eqx x' y' /\ (bs_st y' <> Error -> ycond y' /\ synced x').
Proof.
  induction fuel as [|f IH]; intros x y pos n sk Hxy Hy Hs HC y' k E; cbn [bs_skip_loop l_skip_loop] in *; destruct (n =? 0); try discriminate;
    try (injection E as <- <-; exists x; split; [reflexivity|]; split; [exact Hxy|]; intros _; split; assumption).
  assert (bs_buf x = bs_buf y) as Eb by apply Hxy. rewrite Eb. set (st := wrap32 _) in *.
  destruct (bs_read_core src content fails SR SE Hsrc y pos 1 st HC) as (y1 & m & d & E1 & Hres); [unfold BUF_LIM; lia|].
  destruct (l_read_eq x y pos 1 st Hxy Hy Hs HC) as (x1 & y1' & m' & d' & R1 & R2 & R3 & R4); [unfold BUF_LIM; lia|].
  rewrite E1 in R2. assert (y1' = y1 /\ m' = m) as (-> & ->) by (split; congruence).
  rewrite R1; cbn [bind]. rewrite E1 in E; cbn [bind] in E. destruct (Z.leb_spec m 0).
  - injection E as <- <-. exists x1. split; [reflexivity|]. split; assumption.
  - destruct Hres as [(_ & _ & Hres)|[(_ & HC1 & _)|(Hres & _)]]; [lia| |lia].
    assert (bs_st y1 <> Error) as Hne by apply HC1. destruct (R4 Hne) as (R5 & R6).
    eapply IH; eassumption.
Qed.

Definition l_R (x : bstream (lstate D P) Z) (v : view) : Prop :=
  exists y, eqx x y /\ ycond y /\ synced x /\ bs_R content fails SR SE y v.

Lemma l_sim : sim (l_ops cd par) content fails BUF_LIM l_R.
Proof.
  split.
  - intros x v (y & _ & _ & _ & HR). apply HR.
  - intros x v (y & (_ & _ & _ & E & _) & _ & _ & HR). cbn [l_ops o_pos]. rewrite E. apply HR.
  - intros x v c (y & Hxy & Hy & Hs & HR) Hc.
    assert (HC : bs_core content fails SR SE y (v_pos v)) by apply HR.
    destruct (sim_step _ _ _ _ _ (bs_sim src content fails SR SE Hsrc) y v c HR Hc) as (y' & ob & E & Hres).
    assert (exists x', exec (l_ops cd par) x c = Ret (x', mkObs (ob_ret ob) (ob_data ob) (ob_pos ob) (bs_size x') (ob_st ob)) /\ eqx x' y' /\ (bs_st y' <> Error -> ycond y' /\ synced x')) as (x' & E' & Hxy' & Hc').
    { destruct c as [mn mx|n|p]; cbn [exec bs_ops l_ops o_read o_skip o_reset] in *; cbn [call_ok] in Hc.
      - destruct (l_read_eq x y (v_pos v) mn mx Hxy Hy Hs HC) as (x1 & y1 & m & d & R1 & R2 & R3 & R4); [lia|].
        rewrite R1. rewrite R2 in E. cbn [bind] in *. injection E as <- <-. exists x1. split; [|split; assumption].
        unfold observe; cbn. destruct R3 as (_ & _ & _ & -> & ->). reflexivity.
      - unfold bs_skip, l_skip in *. destruct (bs_skip_loop src _ y n 0) as [[y1 k]| | |] eqn:Es; cbn [bind] in E; try discriminate. injection E as <- <-.
        destruct (l_skip_eq _ _ _ _ _ _ Hxy Hy Hs HC _ _ Es) as (x1 & R1 & R3 & R4). rewrite R1; cbn [bind]. exists x1. split; [|split; assumption].
        unfold observe; cbn. destruct R3 as (_ & _ & _ & -> & ->). reflexivity.
      - unfold bs_reset in *. destruct Hxy as (X1 & X2 & X3 & X4 & X5). rewrite X1, X4, X5. destruct (p <? 0); [discriminate|].
        assert (eqx x y) as Hxy by (unfold eqx; tauto).
        destruct (bs_st y) eqn:Est.
        + destruct (_ && _); cbn [bind] in *; injection E as <- <-.
          * exists (mkBS (mkBuf (b_mem (bs_buf y)) (b_off (bs_buf y) - (bs_pos y - p)) (b_avail (bs_buf y) + wrap32 (bs_pos y - p))) (bs_fin x) (bs_src x) (bs_size x) (bs_pos y - (bs_pos y - p)) Ok). split; [reflexivity|]. split; [unfold eqx; cbn; tauto|]. intros _. unfold ycond, synced in *; cbn [bs_size bs_fin bs_src]. split; assumption.
          * exists x. split; [unfold observe; cbn; rewrite X4, X5, ?Est; reflexivity|]. split; [exact Hxy|]. intros _. split; assumption.
        + destruct (_ && _); cbn [bind] in *; injection E as <- <-.
          * exists (mkBS (mkBuf (b_mem (bs_buf y)) (b_off (bs_buf y) - (bs_pos y - p)) (b_avail (bs_buf y) + wrap32 (bs_pos y - p))) (bs_fin x) (bs_src x) (bs_size x) (bs_pos y - (bs_pos y - p)) Ok). split; [reflexivity|]. split; [unfold eqx; cbn; tauto|]. intros _. unfold ycond, synced in *; cbn [bs_size bs_fin bs_src]. split; assumption.
          * exists x. split; [unfold observe; cbn; rewrite X4, X5, ?Est; reflexivity|]. split; [exact Hxy|]. intros _. split; assumption.
        + cbn [bind] in *. injection E as <- <-. exists x. split; [unfold observe; cbn; rewrite X4, X5, ?Est; reflexivity|]. split; [exact Hxy|]. intros _. split; assumption. }
    exists x', (mkObs (ob_ret ob) (ob_data ob) (ob_pos ob) (bs_size x') (ob_st ob)). split; [exact E'|].
    destruct Hres as [(G & HR')|B].
    + left. assert (bs_st y' <> Error) as Hne by (destruct HR' as (_ & (_ & _ & Q & _) & _); exact Q).
      destruct (Hc' Hne) as (Hy' & Hs').
      assert (next_view v c (mkObs (ob_ret ob) (ob_data ob) (ob_pos ob) (bs_size x') (ob_st ob)) = next_view v c ob) as Ev by (destruct c; reflexivity).
      rewrite Ev. split; [|exists y'; split; [exact Hxy'|]; split; [exact Hy'|]; split; [exact Hs'|exact HR']].
      unfold good_obs in *. rewrite Ev. cbn [ob_st ob_pos ob_size ob_ret ob_data].
      destruct G as (G1 & G2 & G3 & G4 & G5). split; [exact G1|]. split; [exact G2|]. split; [exact G3|]. split; [|exact G5].
      rewrite Hs'. destruct Hxy' as (_ & _ & -> & _). assert (HC' : bs_core content fails SR SE y' (v_pos (next_view v c ob))) by apply HR'. apply (core_fine y' _ HC').
    + right. destruct B as (B1 & B2). split; [exact B1|]. destruct c; exact B2.
Qed.
End Size.

(** ** fillBuffer *)
Definition upto (n : Z) (l : list Z) : list Z := if n =? -1 then l else firstn (Z.to_nat n) l.
Lemma upto_le n l : -1 <= n -> zlen (upto n l) <= zlen l /\ (n <> -1 -> zlen (upto n l) <= n).
Proof. intros Hn. unfold upto. destruct (Z.eqb_spec n (-1)); [lia|]. unfold zlen. rewrite firstn_length. lia. Qed.
Lemma prefix_upto n (o l : list Z) : prefix o l -> n = -1 \/ zlen o <= n -> prefix o (upto n l).
Proof.
  intros (t & ->) Hn. unfold upto. destruct (Z.eqb_spec n (-1)); [exists t; reflexivity|]. destruct Hn as [Hn|Hn]; [lia|].
  rewrite firstn_app, firstn_all2 by (unfold zlen in *; lia). eexists; reflexivity.
Qed.
Lemma prefix_eq_len (o l : list Z) : prefix o l -> zlen l <= zlen o -> o = l.
Proof. intros (t & ->) H. rewrite zlen_app in H. assert (t = []) as -> by (apply zlen_0_nil; pose proof (zlen_nonneg t); lia). symmetry; apply app_nil_r. Qed.

Section Fill.
Context {D P : Type}.
Variables (cd : lzcodec D) (f : lzformat) (DI : D -> list Z -> list Z -> Prop).
Hypothesis Hcd : lzma_ok f cd DI.
Variables (par : ops P Z) (full : list Z) (fails : Prop) (lim : Z) (R : P -> view -> Prop).
Hypothesis HS : sim par full fails lim R.
Hypothesis Hlim : 1 <= lim.
Variables (off : Z) (ext : list Z) (n : Z) (F : Prop).
Let r := skipn (Z.to_nat off) full.
Let content := upto n (lz_dec f (r ++ ext)).
Hypothesis Hn : -1 <= n.
Hypothesis HF1 : fails -> F.
(** the input ends before the output is complete *)
Hypothesis HF2 : forall d o, DI d r o -> n = -1 \/ zlen o < n -> F.
(** the data is not valid *)
Hypothesis HF3 : (forall t c b x, r ++ t = c ++ b -> lz_valid f c x -> (n = -1 -> ~ lz_marked f c x) /\ (n <> -1 -> zlen x <> n)) -> F.
Hypothesis HF4 : n <> -1 -> zlen (lz_dec f (r ++ ext)) < n -> F.

Definition l_alive (s : lstate D P) (c : Z) : Prop :=
  l_size s = n /\ (n = -1 \/ c < n) /\ exists u o pv, R (l_par s) pv /\ DI (l_dec s) u o /\ zlen o = c /\ l_bytes s = c /\ prefix o content /\
    r = u ++ l_win s ++ skipn (Z.to_nat (v_pos pv)) full /\ zlen full - v_pos pv <= Z.of_nat (l_gas s).
Definition l_end (s : lstate D P) : Prop := l_size s = zlen content /\ l_bytes s = zlen content.
Definition l_SR (s : lstate D P) (c : Z) : Prop := l_alive s c \/ (c = zlen content /\ l_end s).

Lemma l_SR_fine s c : l_SR s c -> fine content F (l_size s).
Proof.
  intros [(H1 & H2 & _)|(_ & H1 & _)]; rewrite H1; unfold fine.
  - destruct (upto_le n (lz_dec f (r ++ ext)) Hn) as (Q1 & Q2). fold content in Q1, Q2. destruct (Z.eq_dec n (-1)) as [->|Hne].
    + split; [left; reflexivity|right; left; reflexivity].
    + specialize (Q2 Hne). split; [right; exact Q2|].
      destruct (Z.lt_ge_cases (zlen (lz_dec f (r ++ ext))) n) as [L|L]; [left; apply HF4; assumption|].
      right; right. unfold content, upto. destruct (Z.eqb_spec n (-1)); [contradiction|]. unfold zlen in *. rewrite firstn_length. lia.
  - split; [right; lia|right; right; reflexivity].
Qed.

(** one call of the decoder *)
Lemma l_step_ok p d w g u o pv sp (mu0 : nat) : w <> [] -> R p pv -> DI d u o -> prefix o content -> (n = -1 \/ zlen o < n) ->
  r = u ++ w ++ skipn (Z.to_nat (v_pos pv)) full -> zlen full - v_pos pv <= Z.of_nat g -> 1 <= sp ->
  (g + length w + 1 <= mu0)%nat ->
  let s := mkL p d w (zlen o) n g in
  exists s' m e err, (let todo := l_size s - l_bytes s in
      let fin := negb (l_size s =? -1) && (todo <? sp) in
      let '(d, k, y, r) := l_step cd (l_dec s) (l_win s) (if fin then todo else sp) fin in
      let win := skipn (Z.to_nat k) (l_win s) in
      let bytes := l_bytes s + zlen y in
      match r with
      | LBad => Ret (mkL (l_par s) d win bytes (l_size s) (l_gas s), -1, [], true)
      | LOk mark =>
        if (k =? 0) && (zlen y =? 0) then
          if negb (l_size s =? -1) || negb mark then Ret (mkL (l_par s) d win bytes (l_size s) (l_gas s), -1, [], true)
          else Ret (mkL (l_par s) d win bytes bytes (l_gas s), zlen y, y, false)
        else Ret (mkL (l_par s) d win bytes (if mark then bytes else l_size s) (l_gas s), zlen y, y, false)
      end) = Ret (s', m, e, err) /\ zlen e <= sp /\
    ((err = false /\ 0 < m /\ e = slice content (zlen o) m /\ zlen o + m <= zlen content /\ l_SR s' (zlen o + m) /\ (l_mu s' <= mu0)%nat) \/
     (err = false /\ m = 0 /\ l_SR s' (zlen o) /\ (l_mu s' < mu0)%nat) \/ (err = true /\ F /\ m < 0)).
Proof.
  intros Hw HR HD Hp Hno Hr Hg Hsp Hmu. cbn [l_size l_bytes l_dec l_win l_par l_gas].
  set (fin := negb (n =? -1) && (n - zlen o <? sp)). set (sp' := if fin then n - zlen o else sp).
  assert (1 <= sp' <= sp /\ (n = -1 -> fin = false) /\ (n <> -1 -> zlen o + sp' <= n) /\ (fin = true -> zlen o + sp' = n)) as (Hsp' & Hf1 & Hf2 & Hf3).
  { unfold sp', fin. destruct (Z.eqb_spec n (-1)) as [E1|E1]; cbn [negb andb]; [split; [lia|split; [reflexivity|split; [lia|discriminate]]]|].
    destruct (Z.ltb_spec (n - zlen o) sp).
    - split; [lia|]. split; [lia|]. split; [lia|]. lia.
    - split; [lia|]. split; [lia|]. split; [lia|]. discriminate. }
  destruct (l_step cd d w sp' fin) as [[[d' k] y] rc] eqn:E.
  destruct (lo_step _ _ _ Hcd _ _ _ _ _ _ _ _ _ _ HD Hw (proj1 Hsp') E) as (Hk & Hy & Hpre & Hrc). pose proof (zlen_nonneg y) as Hy0.
  assert (prefix (o ++ y) content) as Hpy.
  { apply prefix_upto; [rewrite Hr, <- !app_assoc; apply Hpre|]. rewrite zlen_app. destruct (Z.eq_dec n (-1)); [left; assumption|right]. specialize (Hf2 n0). lia. }
  destruct (prefix_slice _ _ _ Hpy) as (Hs1 & Hs2).
  assert (zlen (skipn (Z.to_nat k) w) = zlen w - k) as Zw by (apply zlen_skipn; lia).
  assert (length (skipn (Z.to_nat k) w) = (length w - Z.to_nat k)%nat) as Lw by apply skipn_length.
  assert (r = (u ++ firstn (Z.to_nat k) w) ++ skipn (Z.to_nat k) w ++ skipn (Z.to_nat (v_pos pv)) full) as Hr2.
  { rewrite Hr, <- app_assoc. f_equal. rewrite app_assoc, <- firstn_skipn_z. reflexivity. }
  destruct rc as [mark|].
  2:{ do 4 eexists; split; [reflexivity|]. split; [change (zlen (@nil Z)) with 0; lia|]. right; right. split; [reflexivity|]. split; [|lia].
      apply HF3. intros t c b x Hx Hv. pose proof (Hrc (skipn (Z.to_nat (v_pos pv)) full ++ t) c b x) as HQ. cbv beta in HQ. specialize (HQ ltac:(rewrite <- Hx, Hr, <- !app_assoc; reflexivity) Hv).
      split; [intros Q; rewrite (Hf1 Q) in HQ; exact (proj1 HQ)|]. intros Hne Hxn. destruct fin; [specialize (Hf3 eq_refl); lia|specialize (Hf2 Hne); destruct HQ; lia]. }
  destruct Hrc as (Hprog & Hrc).
  destruct (Z.eqb_spec k 0) as [K0|K0], (Z.eqb_spec (zlen y) 0) as [Y0|Y0]; cbn [andb]; try lia; (do 4 eexists; split; [reflexivity|]; split; [lia|]).
  all: destruct mark.
  all: try (assert (o ++ y = content) as Hcont by (apply (prefix_eq_len _ _ Hpy); destruct (lo_marked _ _ _ Hcd _ _ Hrc) as (_ & Hm); destruct (upto_le n (lz_dec f (r ++ ext)) Hn) as (Q1 & _); fold content in Q1;
       rewrite Hr2, <- !app_assoc in Q1; rewrite app_assoc, Hm in Q1; exact Q1);
    assert (zlen o + zlen y = zlen content) as Hlen by (rewrite <- Hcont, zlen_app; reflexivity);
    assert (l_SR (mkL p d' (skipn (Z.to_nat k) w) (zlen o + zlen y) (zlen o + zlen y) g) (zlen o + zlen y)) as HSR' by (right; split; [exact Hlen|split; exact Hlen]);
    unfold l_mu; cbn [l_gas l_win l_size l_bytes]; rewrite Z.eqb_refl).
  all: try (assert (l_SR (mkL p d' (skipn (Z.to_nat k) w) (zlen o + zlen y) n g) (zlen o + zlen y)) as HSR' by
     (assert (n = -1 \/ zlen o + zlen y <= n) as [Q|Q] by (destruct (Z.eq_dec n (-1)) as [Q|Q]; [left; exact Q|right; specialize (Hf2 Q); lia]);
      [|destruct (Z.eq_dec (zlen o + zlen y) n) as [Q2|Q2];
        [right; assert (zlen content = n) as Hcn by (destruct (upto_le n (lz_dec f (r ++ ext)) Hn) as (_ & Q3); fold content in Q3; specialize (Q3 ltac:(pose proof (zlen_nonneg o); lia)); lia);
          split; [lia|split; cbn [l_size l_bytes]; lia]|]];
      (left; split; [reflexivity|split; [lia|]]; exists (u ++ firstn (Z.to_nat k) w), (o ++ y), pv; cbn [l_par l_dec l_bytes l_win l_gas];
       split; [exact HR|]; split; [exact Hrc|]; split; [apply zlen_app|]; split; [reflexivity|]; split; [exact Hpy|]; split; [exact Hr2|exact Hg]));
    unfold l_mu; cbn [l_gas l_win l_size l_bytes]).
  all: first [ left; split; [reflexivity|]; split; [lia|]; split; [exact Hs1|]; split; [exact Hs2|]; split; [exact HSR'|]; rewrite ?Lw; try (destruct (n =? zlen o + zlen y)%Z); lia
             | right; left; split; [reflexivity|]; split; [exact Y0|]; rewrite Y0, Z.add_0_r in *; split; [exact HSR'|]; rewrite ?Lw; assert (length w <> 0)%nat by (destruct w; [congruence|discriminate]); assert (Z.to_nat k <> 0)%nat by lia; try (destruct (n =? zlen o)%Z); lia ].
Qed.

Lemma l_SrcOK : SrcOK (l_src cd par) content F l_SR l_end.
Proof.
  intros s c space HSR Hsp. destruct HSR as [HA|(Hc & HE)].
  2:{ exists s, (-1), [], false. unfold l_src, fill, l_fill. destruct HE as (H1 & H2). rewrite H1, H2, Z.eqb_refl. split; [reflexivity|].
      split; [change (zlen (@nil Z)) with 0; lia|]. right; right; left. split; [reflexivity|]. split; [lia|]. split; [exact Hc|split; assumption]. }
  destruct HA as (Hsz & Hno & u & o & pv & HR & HD & Ho & Hb & Hpre & Hr & Hgas).
  cbn [fill l_src mu]. unfold l_fill. pose proof (zlen_nonneg o) as Ho0.
  assert (l_mu s = (l_gas s + length (l_win s) + 1)%nat) as Hmu by (unfold l_mu; destruct (Z.eqb_spec (l_size s) (l_bytes s)); lia).
  destruct (Z.eqb_spec (l_size s) (l_bytes s)) as [Q|_]; [lia|].
  destruct (l_win s) as [|w0 w1] eqn:Ew.
  - destruct (sim_read _ _ _ _ _ (l_par s) pv 1 0 HS HR) as (p' & m & b & E & Hres); [cbn; unfold INT32_MAX, INT32_MIN; lia|]. rewrite E; cbn [bind].
    assert (V1 := sim_view _ _ _ _ _ HS _ _ HR). unfold view_ok in V1.
    destruct Hres as [[G HR']|(G1 & G2 & G3)].
    + destruct G as (G1 & G2 & G3 & G4 & [(R1 & R2 & R3 & R4 & R5)|(R1 & R2 & R3 & R4)]); cbn [observe ob_ret ob_data ob_st next_view] in *.
      * destruct (Z.ltb_spec 0 m); [|lia]. destruct (Z.ltb_spec m 1); [lia|].
        assert (zlen b = m) as Zb by (subst b; apply zlen_slice; lia).
        destruct (l_step_ok p' (l_dec s) b (l_gas s - Z.to_nat m)%nat u o (mkView (v_pos pv + m) (v_pos pv) (v_pos pv + m)) space (l_mu s)) as (s' & m' & e & err & E1 & E2 & HQ).
        { intros ->. change (zlen (@nil Z)) with 0 in Zb; lia. }
        { exact HR'. }
        { exact HD. }
        { exact Hpre. }
        { lia. }
        { cbn [v_pos]. rewrite Hr. cbn [app]. f_equal. rewrite R2. apply skipn_slice; lia. }
        { cbn [v_pos]. lia. }
        { lia. }
        { rewrite Hmu. cbn [length]. unfold zlen in Zb. lia. }
        rewrite Hsz, Hb, <- Ho. exists s', m', e, err. split; [exact E1|]. split; [exact E2|].
        destruct HQ as [HQ|[HQ|(A1 & A2 & A3)]]; [left; exact HQ|right; left; exact HQ|right; right; right]. split; [exact A1|]. split; [exact A2|left; exact A3].
      * subst m b. change (-1 <? 1) with true. cbn iota. do 4 eexists; split; [reflexivity|]. split; [change (zlen (@nil Z)) with 0; lia|].
        right; right; right. split; [reflexivity|]. split; [|left; lia].
        apply (HF2 (l_dec s) o); [|lia]. assert (r = u) as ->; [|exact HD].
        rewrite Hr. cbn [app]. rewrite skipn_all2 by (unfold zlen in *; lia). apply app_nil_r.
    + cbn [observe ob_ret] in G3. subst m. change (-2 <? 1) with true. cbn iota.
      do 4 eexists; split; [reflexivity|]. split; [change (zlen (@nil Z)) with 0; lia|]. right; right; right. split; [reflexivity|]. split; [apply HF1; exact G2|left; lia].
  - cbn [bind]. change (1 <? 1) with false. cbn iota.
    destruct (l_step_ok (l_par s) (l_dec s) (w0 :: w1) (l_gas s) u o pv space (l_mu s)) as (s' & m' & e & err & E1 & E2 & HQ).
    { discriminate. }
    { exact HR. }
    { exact HD. }
    { exact Hpre. }
    { lia. }
    { exact Hr. }
    { exact Hgas. }
    { lia. }
    { rewrite Hmu. lia. }
    rewrite Ew, Hsz, Hb, <- Ho. exists s', m', e, err. split; [exact E1|]. split; [exact E2|].
    destruct HQ as [HQ|[HQ|(A1 & A2 & A3)]]; [left; exact HQ|right; left; exact HQ|right; right; right]. split; [exact A1|]. split; [exact A2|left; exact A3].
Qed.

(** a stream whose constructor succeeded *)
Lemma l_ready_ok bufsize p v gas : 1 <= bufsize <= BUF_LIM -> R p v -> v_pos v = off -> zlen full <= Z.of_nat gas -> n <> 0 ->
  exists x, setMinBufSize (mkBS buf0 false (mkL p (l_init cd) [] 0 n gas) n 0 Ok) bufsize = Ret x /\
    Conforms (l_ops cd par) content F BUF_LIM x view0 /\ bs_st x = Ok /\ bs_size x = n.
Proof.
  intros Hb HR Hv Hg Hn0. unfold setMinBufSize. cbn [bs_buf].
  destruct (makeSpace_ok content (@buf0 Z) 0 bufsize) as (b & sp & E & Hrep & Ha & Hrest).
  { unfold rep, buf0, b_size; cbn [b_mem b_off b_avail]. change (zlen (@nil (option Z))) with 0. pose proof (zlen_nonneg content). unfold BUF_LIM. repeat split; try lia. }
  { lia. }
  { cbn; lia. }
  rewrite E; cbn [bind bs_fin bs_src bs_size bs_pos bs_st]. eexists; split; [reflexivity|]. cbn [bs_st bs_size]. split; [|split; reflexivity].
  assert (HV := sim_view _ _ _ _ _ HS _ _ HR). unfold view_ok in HV.
  eapply sim_conforms; [apply (l_sim cd par content F l_SR l_end l_SrcOK l_SR_fine); intros s Q; apply Q|].
  exists (mkBS b false (mkL p (l_init cd) [] 0 n gas) (-1) 0 Ok).
  split; [unfold eqx; cbn; tauto|]. split; [left; reflexivity|]. split; [reflexivity|].
  apply bs_init_R. unfold bs_init_ok. cbn [bs_fin bs_src bs_size bs_pos bs_st bs_buf].
  destruct Hrep as (T1 & T2 & T3 & T4 & T5 & T6 & _). change (b_avail (@buf0 Z)) with 0 in Ha.
  split; [lia|]. split; [exact Ha|]. split; [lia|]. split; [reflexivity|]. split; [|split; [reflexivity|split; [reflexivity|right; left; reflexivity]]].
  left. split; [reflexivity|]. split; [lia|]. exists [], [], v. cbn [l_par l_dec l_bytes l_win l_gas app].
  split; [exact HR|]. split; [apply (lo_init _ _ _ Hcd)|]. split; [reflexivity|]. split; [reflexivity|]. split; [eexists; reflexivity|]. split; [rewrite Hv; reflexivity|lia].
Qed.
End Fill.
