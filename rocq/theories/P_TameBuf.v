(** Safety of buffered streams over a source about whose data nothing is known. *)
From Verif Require Import Base StreamSpec P_Stream M_Buffered BufferedSpec P_Buffered M_Sub ArchiveSpec P_Tame.

(** What is needed of fillBuffer.  [J bad s c m]: the source in state [s] has delivered [c] bytes, will return 0 at
    most [m] more times; [bad]: it has set m_status to Error.  [K] holds in every state, also after the end.
    [cap] bounds the number of bytes. *)
Record TameSrc {S} (src : source S Z) (content : option (list Z)) (cap : Z) (cr : Prop) (J : bool -> S -> Z -> nat -> Prop) (K : S -> Prop) : Prop := {
  ts_K : forall b s c m, J b s c m -> K s;
  ts_mu : forall s c m, J false s c m -> (m <= mu src s)%nat;
  ts_fill : forall bad s c m space, J bad s c m -> 1 <= space <= INT32_MAX ->
    safe cr (fill src s space) (fun '(s', n, d, e) => zlen d <= space /\ K s' /\
      (0 < n -> zlen d = n /\ Forall (fun c => 0 <= c < 256) d /\ data_at content c d /\ in_content content (c + n) /\ c + n <= cap /\
         exists m', (m' <= m)%nat /\ J (bad || e) s' (c + n) m') /\
      (n = 0 -> exists m', (m' < m)%nat /\ J (bad || e) s' c m')) }.

Lemma rep_mono (acc d : list Z) b pos : rep acc b pos -> rep (acc ++ d) b pos.
Proof.
  intros (R1 & R2 & R3 & R4 & R5 & R6 & R7). unfold rep. rewrite zlen_app. pose proof (zlen_nonneg d). repeat split; try lia.
  intros i Hi. rewrite zget_app. destruct (Z.ltb_spec (pos - b_off b + i) (zlen acc)); [|lia]. apply R7; exact Hi.
Qed.
Lemma safe_ex {A} cr (x : out A) (Q : A -> Prop) : (exists a, x = Ret a /\ Q a) -> safe cr x Q.
Proof. intros (a & -> & H). exact H. Qed.
Lemma chk_any (cr : Prop) z : cr -> safe cr (chk32 z) (fun v => v = z /\ INT32_MIN <= z <= INT32_MAX).
Proof. intros H. unfold chk32. destruct (i32 z) eqn:E; [|exact H]. cbn [safe]. split; [reflexivity|]. apply i32_true; exact E. Qed.
Lemma makeSpace_any (cr : Prop) (acc : list Z) b pos needed : rep acc b pos -> 1 <= needed <= INT32_MAX -> b_avail b + needed <= BUF_LIM \/ cr ->
  safe cr (makeSpace b needed) (fun '(b', space) => rep acc b' pos /\ b_avail b' = b_avail b /\ needed <= space /\
    b_off b' + b_avail b' + space <= b_size b' /\ space <= INT32_MAX /\ (b_avail b + needed = 1 -> b_size b <= 1 -> b_size b' <= 1)).
Proof.
  intros R Hn [Hl|Hcr].
  { destruct (makeSpace_ok acc b pos needed R) as (b' & sp & E & R' & H1 & H2 & H3 & H4 & H5 & H6); [lia|lia|]. rewrite E. cbn [safe].
    split; [exact R'|]. split; [exact H1|]. split; [exact H2|]. split; [exact H3|]. split; [exact H4|]. destruct R as (? & ? & ? & _). lia. }
  destruct (Z.le_gt_cases (b_avail b + needed) BUF_LIM) as [Hl|Hl].
  { destruct (makeSpace_ok acc b pos needed R) as (b' & sp & E & R' & H1 & H2 & H3 & H4 & H5 & H6); [lia|lia|]. rewrite E. cbn [safe].
    split; [exact R'|]. split; [exact H1|]. split; [exact H2|]. split; [exact H3|]. split; [exact H4|]. destruct R as (? & ? & ? & _). lia. }
  assert (R' := R). destruct R' as (R1 & R2 & R3 & R4 & R5 & R6 & R7). unfold BUF_LIM, INT32_MAX in *. unfold makeSpace.
  replace (negb _) with false.
  2:{ symmetry. apply negb_false_iff. rewrite !andb_true_iff, !Z.leb_le. lia. }
  destruct (Z.leb_spec needed (b_size b - b_off b - b_avail b)) as [L|L].
  { cbn [safe]. split; [exact R|]. lia. }
  match goal with |- context [let '(b1, space1) := ?e in _] => set (e1 := e) end.
  assert (exists b1, e1 = (b1, b_size b - b_avail b) /\ rep acc b1 pos /\ b_off b1 = 0 /\ b_avail b1 = b_avail b /\ b_size b1 = b_size b)
    as (b1 & E1 & Rb1 & Ho1 & Ha1 & Hs1).
  { unfold e1. destruct (Z.eqb_spec (b_avail b) 0) as [E|E].
    - eexists. split; [rewrite E, Z.sub_0_r; reflexivity|]. unfold rep, BUF_LIM, b_size in *. cbn in *.
      repeat split; try lia. all: try (intros; lia).
    - destruct (Z.eqb_spec (b_off b) 0) as [E0|E0].
      + exists b. rewrite E0, Z.sub_0_r. unfold rep, BUF_LIM. repeat split; try lia; assumption.
      + eexists. split; [f_equal; lia|].
        assert (zlen (slice (b_mem b) (b_off b) (b_avail b)) = b_avail b) as Z1
          by (apply zlen_slice; unfold b_size in *; lia).
        assert (zlen (splice (b_mem b) 0 (slice (b_mem b) (b_off b) (b_avail b))) = zlen (b_mem b)) as Z2
          by (apply zlen_splice; unfold b_size in *; lia).
        unfold rep, BUF_LIM, b_size in *. cbn in *. rewrite Z2. repeat split; try lia.
        intros i Hi. rewrite zget_splice by lia. rewrite Z1.
        destruct (Z.leb_spec 0 i), (Z.ltb_spec i (0 + b_avail b)); try lia. cbn [andb].
        rewrite zget_slice by lia.
        destruct (Z.leb_spec 0 (i - 0)), (Z.ltb_spec (i - 0) (b_avail b)); try lia. cbn [andb].
        rewrite R7 by lia. f_equal. f_equal. lia. }
  rewrite E1. clear e1 E1.
  assert (Rb1' := Rb1). destruct Rb1' as (Q1 & Q2 & Q3 & Q4 & Q5 & Q6 & Q7).
  destruct (Z.leb_spec needed (b_size b - b_avail b)) as [L1|L1].
  { cbn [safe]. split; [exact Rb1|]. lia. }
  eapply safe_bind; [apply chk_any; exact Hcr|]. intros d0 (-> & _).
  destruct (Z.ltb_spec (needed - (b_size b - b_avail b)) (b_size b)) as [L2|L2].
  - eapply safe_bind; [apply chk_any; exact Hcr|]. intros d1 (-> & C1).
    eapply safe_bind; [apply chk_any; exact Hcr|]. intros d2 (-> & C2). unfold INT32_MAX in *.
    destruct (setSize_ok b1 (2 * b_size b)) as (b2 & E2 & Ho2 & Ha2 & Hs2 & Hg); try lia.
    rewrite E2. cbn [bind safe]. unfold rep, BUF_LIM in *. rewrite Ho2, Ha2, Hs2, Ha1, Ho1 in *.
    split; [|lia]. repeat split; try lia. intros i Hi. rewrite Hg by lia. apply Q7; lia.
  - eapply safe_bind; [apply chk_any; exact Hcr|]. intros d1 (-> & C1). unfold INT32_MAX in *.
    destruct (setSize_ok b1 (b_size b + needed - (b_size b - b_avail b))) as (b2 & E2 & Ho2 & Ha2 & Hs2 & Hg); try lia.
    rewrite E2. cbn [bind safe]. unfold rep, BUF_LIM in *. rewrite Ho2, Ha2, Hs2, Ha1, Ho1 in *.
    split; [|lia]. repeat split; try lia. intros i Hi. rewrite Hg by lia. apply Q7; lia.
Qed.

Section B.
Context {S : Type}.
Variables (src : source S Z) (content : option (list Z)) (cap : Z) (cr : Prop) (J : bool -> S -> Z -> nat -> Prop) (K : S -> Prop).
Hypothesis HS : TameSrc src content cap cr J K.
Variable lim : Z.
Hypothesis Hlim : lim <= INT32_MAX /\ (lim <= BUF_LIM \/ cr).

(** everything delivered so far is [acc] *)
Definition acc_ok (acc : list Z) : Prop := Forall (fun c => 0 <= c < 256) acc /\ data_at content 0 acc /\ in_content content (zlen acc) /\ zlen acc <= cap.
Definition rep' (acc : list Z) (b : buf Z) (pos : Z) : Prop := rep acc b pos /\ pos + b_avail b = zlen acc /\ acc_ok acc.
Lemma acc_app acc d : acc_ok acc -> Forall (fun c => 0 <= c < 256) d -> data_at content (zlen acc) d -> in_content content (zlen acc + zlen d) -> zlen acc + zlen d <= cap -> acc_ok (acc ++ d).
Proof.
  intros (A1 & A2 & A3 & A4) H1 H2 H3 H4. unfold acc_ok. rewrite zlen_app. split; [apply Forall_app; tauto|]. split; [|split; assumption].
  destruct content as [full|]; cbn [data_at in_content] in *; [|exact I]. rewrite zlen_app.
  pose proof (zlen_nonneg acc). pose proof (zlen_nonneg d).
  rewrite <- (slice_app full 0 (zlen acc) (zlen d)) by lia. cbn [Z.add]. congruence.
Qed.
Lemma wtb_safe fuel : forall acc b s st bad m ntoread maxread missing nwritten pos,
  rep' acc b pos -> J bad s (zlen acc) m -> bad = is_error st -> st <> Eof ->
  missing = ntoread - b_avail b -> 1 <= ntoread <= lim -> 0 <= nwritten \/ missing <= 0 -> maxread <= 0 \/ ntoread <= maxread ->
  (Z.to_nat missing + m <= fuel)%nat ->
  safe cr (wtb_loop src fuel b s st ntoread maxread missing nwritten) (fun '(b', s', st', nw) =>
    st' <> Eof /\ K s' /\ exists acc' m', rep' acc' b' pos /\ (nw < 0 \/ (ntoread <= b_avail b' /\ J (is_error st') s' (zlen acc') m')) /\ b_avail b <= b_avail b' /\
    (ntoread = 1 -> b_size b <= 1 -> b_size b' <= 1)).
Proof.
  induction fuel as [|f IH]; intros acc b s st bad m ntoread maxread missing nwritten pos HR HJ Eb Hst Hm Hnt Hnw Hmr Hf.
  - cbn [wtb_loop]. destruct (Z.ltb_spec 0 missing) as [L|L]; cbn [andb]; [lia|]. cbn [safe]. split; [exact Hst|]. split; [exact (ts_K _ _ _ _ _ _ HS _ _ _ _ HJ)|].
    exists acc, m. split; [exact HR|]. split; [right; split; [lia|]; rewrite <- Eb; exact HJ|]. split; [lia|tauto].
  - cbn [wtb_loop]. destruct (Z.ltb_spec 0 missing) as [L|L]; cbn [andb].
    2:{ cbn [safe]. split; [exact Hst|]. split; [exact (ts_K _ _ _ _ _ _ HS _ _ _ _ HJ)|].
        exists acc, m. split; [exact HR|]. split; [right; split; [lia|]; rewrite <- Eb; exact HJ|]. split; [lia|tauto]. }
    destruct (Z.leb_spec 0 nwritten); [|lia]. destruct HR as (HR & Hacc & Haok).
    eapply safe_bind; [apply (makeSpace_any cr acc b pos missing HR); [destruct HR as (_ & ? & _); lia|destruct Hlim as (_ & [?|?]); [left; lia|right; assumption]]|].
    intros (b1 & space) (R1 & A1 & Sp1 & Sp2 & Sp3 & Sp4). cbv zeta.
    set (sp := if _ && _ then maxread else space).
    assert (1 <= sp <= INT32_MAX /\ sp <= space) as Hsp.
    { destruct HR as (_ & ? & _). unfold sp. destruct (Z.leb_spec ntoread maxread), (Z.ltb_spec maxread space); cbn [andb]; lia. }
    clearbody sp.
    eapply safe_bind; [apply (ts_fill _ _ _ _ _ _ HS bad s (zlen acc) m sp HJ); lia|].
    intros (((s' & n) & d) & e) (F1 & F2 & F3 & F4).
    destruct (buf_write_ok acc b1 pos d R1) as (b2 & E2 & R2 & O2 & A2 & S2 & G2); [lia|]. rewrite E2. cbn [bind].
    assert (ntoread = 1 -> b_size b <= 1 -> b_size b2 <= 1) as Hone by (intros; rewrite S2; apply Sp4; [destruct HR as (_ & ? & _)|]; lia).
    assert (forall st', st' = (if e then Error else st) -> st' <> Eof /\ bad || e = is_error st') as Hst'.
    { intros st' ->. rewrite Eb. destruct e, st; cbn; split; congruence. }
    remember (if e then Error else st) as st' eqn:Est'. destruct (Hst' st' eq_refl) as (Q1 & Q3). clear Hst' Est'.
    destruct (Z.ltb_spec 0 n) as [Ln|Ln].
    + destruct (F3 Ln) as (D1 & D2 & D3 & D4 & D5 & m' & D6 & D7).
      assert (rep' (acc ++ d) (mkBuf (b_mem b2) (b_off b2) (b_avail b2 + n)) pos) as HR3.
      { assert (zlen acc = pos + b_avail b1) as Ha by lia. unfold rep'. split; [|split; [cbn [b_avail]; rewrite zlen_app; lia|apply acc_app; try assumption; rewrite D1; assumption]].
        apply rep_extend; [apply rep_mono; exact R2|lia|lia|rewrite zlen_app; lia|].
        intros i Hi. rewrite O2, A2, G2; [|apply buf_write_mem; exact E2|lia]. rewrite zget_app.
        destruct (Z.ltb_spec (pos + b_avail b1 + i) (zlen acc)); [lia|]. f_equal. f_equal. lia. }
      cbn [b_avail].
      eapply safe_impl; [eapply IH with (acc := acc ++ d) (m := m') (bad := bad || e); [exact HR3|rewrite zlen_app, D1; exact D7|exact Q3|exact Q1|reflexivity|exact Hnt|left; lia|exact Hmr|rewrite A2, A1; lia]|tauto|].
      intros (((b' & s2) & st2) & nw) (T1 & T2 & acc' & mm & T3 & T4 & T5 & T6). split; [exact T1|]. split; [exact T2|]. exists acc', mm.
      split; [exact T3|]. split; [exact T4|]. cbn [b_avail] in T5. split; [lia|]. intros. apply T6; [assumption|]. unfold b_size in *. cbn [b_mem]. apply Hone; assumption.
    + destruct (Z.eqb_spec n 0) as [->|Nn].
      * destruct (F4 eq_refl) as (m' & D6 & D7).
        eapply safe_impl; [eapply IH with (acc := acc) (m := m') (bad := bad || e); [split; [exact R2|split; [lia|exact Haok]]|exact D7|exact Q3|exact Q1|lia|exact Hnt|left; lia|exact Hmr|lia]|tauto|].
        intros (((b' & s2) & st2) & nw) (T1 & T2 & acc' & mm & T3 & T4 & T5 & T6). split; [exact T1|]. split; [exact T2|]. exists acc', mm.
        split; [exact T3|]. split; [exact T4|]. split; [lia|]. intros. apply T6; [assumption|]. apply Hone; assumption.
      * assert (wtb_loop src f b2 s' st' ntoread maxread missing n = Ret (b2, s', st', n)) as ->.
        { destruct f; cbn [wtb_loop]; destruct (Z.leb_spec 0 n); try lia; rewrite andb_false_r; reflexivity. }
        cbn [safe]. split; [exact Q1|]. split; [exact F2|]. exists acc, m. split; [split; [exact R2|split; [lia|exact Haok]]|]. split; [left; lia|]. split; [lia|exact Hone].
Qed.

Definition tI (x : bstream S Z) : Prop :=
  K (bs_src x) /\ exists acc, rep' acc (bs_buf x) (bs_pos x) /\
    (bs_fin x = false -> bs_st x <> Error -> exists m, J false (bs_src x) (zlen acc) m) /\ (bs_st x = Eof -> bs_fin x = true).
Lemma tI_pos x : tI x -> 0 <= bs_pos x /\ in_content content (bs_pos x) /\ bs_pos x <= cap.
Proof.
  intros (_ & acc & (R & Ha & A1 & A2 & A3 & A4) & _). destruct R as (R1 & R2 & R3 & R4 & R5 & _).
  split; [lia|]. split; [|lia]. destruct content; cbn [in_content] in *; [lia|exact I].
Qed.
Lemma bs_read_tame x mn mx : tI x -> INT32_MIN <= mn <= INT32_MAX -> mn <= lim -> INT32_MIN <= mx <= INT32_MAX ->
  safe cr (bs_read src x mn mx) (fun '(x', n, d) => tI x' /\ -2 <= n <= INT32_MAX /\ zlen d = Z.max 0 n /\ Forall (fun c => 0 <= c < 256) d /\
        data_at content (bs_pos x) d /\ bs_pos x <= bs_pos x' /\ (0 <= n -> bs_pos x' = bs_pos x + n) /\
        (1 <= mn <= mx -> n <= mx) /\ (1 <= mn -> mn <= mx \/ mx <= 0 -> n < mn -> bs_st x' <> Ok) /\
        (bs_st x' <> Error -> bs_pos x' = bs_pos x + Z.max 0 n) /\ (mn = 1 -> b_size (bs_buf x) <= 1 -> n <= 1) /\
        (1 <= mn -> n <= 0 -> bs_st x' <> Ok) /\ (1 <= n -> bs_st x' <> Error)).
Proof.
  intros HI Hmn Hml Hmx. assert (HI' := HI). destruct HI' as (HK & acc & HR & HJ & HE). unfold bs_read.
  destruct (bs_st x) eqn:Est.
  2,3: cbn [safe]; change (zlen (@nil Z)) with 0; split; [exact HI|]; split; [unfold INT32_MAX; lia|]; split; [lia|]; split; [constructor|];
    split; [destruct content; cbn [data_at]; [rewrite slice_0; reflexivity|exact I]|]; split; [lia|]; split; [lia|]; split; [lia|]; split; [congruence|]; split; [lia|]; split; [lia|]; split; [congruence|lia].
  cbv zeta. set (mx' := if mx <? mn then 0 else mx).
  assert (Hmx' : (mx' = 0 /\ mx < mn) \/ (mx' = mx /\ mn <= mx)) by (unfold mx'; destruct (Z.ltb_spec mx mn); lia).
  clearbody mx'.
  eapply safe_bind with (Q := fun x1 => K (bs_src x1) /\ bs_pos x1 = bs_pos x /\ bs_size x1 = bs_size x /\ bs_st x1 <> Eof /\
     exists acc1, rep' acc1 (bs_buf x1) (bs_pos x) /\ (bs_fin x1 = false -> bs_st x1 <> Error -> exists m, J false (bs_src x1) (zlen acc1) m) /\
       (bs_fin x1 = false -> mn <= b_avail (bs_buf x1)) /\ (mn = 1 -> b_size (bs_buf x) <= 1 -> b_size (bs_buf x1) <= 1)).
  { assert (0 <= b_avail (bs_buf x)) as Hav by (destruct HR as ((_ & ? & _) & _); assumption).
    destruct (bs_fin x) eqn:Efin; cbn [negb andb].
    { cbn [safe]. rewrite Est, Efin. split; [exact HK|]. split; [reflexivity|]. split; [reflexivity|]. split; [congruence|]. exists acc. split; [exact HR|]. split; [congruence|]. split; [congruence|tauto]. }
    destruct (Z.ltb_spec (b_avail (bs_buf x)) mn) as [L|L].
    2:{ cbn [safe]. rewrite Est, Efin. split; [exact HK|]. split; [reflexivity|]. split; [reflexivity|]. split; [congruence|]. exists acc. split; [exact HR|]. split; [intros; apply HJ; congruence|]. split; [intros _; exact L|tauto]. }
    destruct (HJ eq_refl) as (m & Hm); [congruence|].
    unfold writeToBuffer. eapply safe_bind.
    { apply (wtb_safe _ acc) with (bad := false) (m := m) (pos := bs_pos x); [exact HR|exact Hm|rewrite Est; reflexivity|congruence|reflexivity|lia|left; lia|lia|].
      pose proof (ts_mu _ _ _ _ _ _ HS _ _ _ Hm). lia. }
    intros (((b & s) & st) & nw) (T1 & T2 & acc' & m' & T3 & T4 & T5 & T6). cbn [safe bs_src bs_pos bs_size bs_st bs_buf bs_fin].
    split; [exact T2|]. split; [reflexivity|]. split; [reflexivity|]. split; [exact T1|]. exists acc'. split; [exact T3|].
    destruct (Z.ltb_spec nw 0) as [Ln|Ln]; [split; [congruence|]; split; [congruence|exact T6]|]. destruct T4 as [T4|(T4 & T7)]; [lia|].
    split; [|split; [intros _; exact T4|exact T6]]. intros _ Hne. exists m'. destruct st; cbn [is_error] in T7; try exact T7. congruence. }
  intros x1 (K1 & P1 & Z1 & E1 & acc1 & R1 & J1 & A1 & S1). rewrite P1, Z1.
  destruct (is_error (bs_st x1)) eqn:Ee.
  { cbn [safe]. change (zlen (@nil Z)) with 0. assert (bs_st x1 = Error) as Es by (destruct (bs_st x1); [discriminate|discriminate|reflexivity]). rewrite P1, Es.
    split; [split; [exact K1|]; exists acc1; rewrite P1, Es; split; [exact R1|]; split; congruence|]. split; [unfold INT32_MAX; lia|]. split; [lia|]. split; [constructor|].
    split; [destruct content; cbn [data_at]; [rewrite slice_0; reflexivity|exact I]|]. split; [lia|]. split; [lia|]. split; [lia|]. split; [congruence|]. split; [congruence|]. split; [lia|]. split; [congruence|lia]. }
  assert (bs_st x1 = Ok) as Es by (destruct (bs_st x1); [reflexivity|congruence|discriminate]).
  destruct R1 as (R1 & Hacc1 & Aok). destruct (buf_read_ok acc1 (bs_buf x1) (bs_pos x) mx' R1) as (b & n & Er & HRb & Hbm & Ho & Ha & Hn & Hn1 & Hn2). rewrite Er. cbn [bind]. rewrite Es.
  assert (Hall := R1). destruct Hall as (B1 & B2 & B3 & B4 & B5 & B6 & _). unfold BUF_LIM in B4.
  assert (zlen (slice acc1 (bs_pos x) n) = n) as Zs by (apply zlen_slice; lia).
  assert (Forall (fun c => 0 <= c < 256) (slice acc1 (bs_pos x) n)) as Hfb by (apply Forall_slice; apply Aok).
  assert (data_at content (bs_pos x) (slice acc1 (bs_pos x) n)) as Hda.
  { destruct Aok as (_ & Aok & Aok2 & _). clear - Aok Aok2 Zs B5 B1 Hn Hacc1. destruct content as [full|]; cbn [data_at in_content] in *; [|exact I]. rewrite Zs. rewrite Aok at 1. apply slice_slice; lia. }
  destruct ((bs_size x <? bs_pos x + n) && (0 <? bs_size x)).
  { cbn [safe bs_pos bs_st]. change (zlen (@nil Z)) with 0.
    split; [split; [exact K1|]; exists acc1; cbn [bs_buf bs_fin bs_st bs_pos bs_src]; split; [split; [exact HRb|]; split; [lia|exact Aok]|]; split; congruence|]. split; [unfold INT32_MAX; lia|]. split; [lia|]. split; [constructor|].
    split; [destruct content; cbn [data_at]; [rewrite slice_0; reflexivity|exact I]|]. split; [lia|]. split; [lia|]. split; [lia|]. split; [congruence|]. split; [congruence|]. split; [lia|]. split; [congruence|lia]. }
  assert (mn = 1 -> b_size (bs_buf x) <= 1 -> n <= 1) as H1 by (intros Q1 Q2; specialize (S1 Q1 Q2); lia).
  cbn [andb].
  destruct (Z.eqb_spec (b_avail b) 0) as [Ea|Ea]; cbn [andb]; [destruct (bs_fin x1) eqn:Ef|].
  - cbn [safe bs_pos bs_st]. 
    split; [split; [exact K1|]; exists acc1; cbn [bs_buf bs_fin bs_st bs_pos bs_src]; split; [split; [exact HRb|]; split; [lia|exact Aok]|]; split; congruence|].
    destruct (Z.eqb_spec n 0) as [->|N0].
    + rewrite (slice_0 acc1) in *. change (zlen (@nil Z)) with 0. split; [unfold INT32_MAX; lia|]. split; [lia|]. split; [constructor|].
      split; [destruct content; cbn [data_at]; [rewrite slice_0; reflexivity|exact I]|]. split; [lia|]. split; [lia|]. split; [lia|]. split; [congruence|]. split; [lia|]. split; [lia|]. split; [congruence|lia].
    + rewrite Zs. split; [unfold INT32_MAX; lia|]. split; [lia|]. split; [exact Hfb|]. split; [exact Hda|]. split; [lia|]. split; [lia|]. split; [lia|]. split; [congruence|]. split; [lia|]. split; [exact H1|]. split; [congruence|congruence].
  - cbn [safe bs_pos bs_st]. rewrite Zs.
    split; [split; [exact K1|]; exists acc1; cbn [bs_buf bs_fin bs_st bs_pos bs_src]; split; [split; [exact HRb|]; split; [lia|exact Aok]|]; split; [intros _ _; apply J1; congruence|congruence]|].
    specialize (A1 eq_refl). split; [unfold INT32_MAX; lia|]. split; [lia|]. split; [exact Hfb|]. split; [exact Hda|]. split; [lia|]. split; [lia|]. split; [lia|]. split; [lia|]. split; [lia|]. split; [exact H1|]. split; [lia|congruence].
  - cbn [safe bs_pos bs_st]. rewrite Zs.
    split; [split; [exact K1|]; exists acc1; cbn [bs_buf bs_fin bs_st bs_pos bs_src]; split; [split; [exact HRb|]; split; [lia|exact Aok]|]; split; [intros F _; apply J1; congruence|congruence]|].
    destruct HRb as (_ & Bb & _).
    split; [unfold INT32_MAX; lia|]. split; [lia|]. split; [exact Hfb|]. split; [exact Hda|]. split; [lia|]. split; [lia|]. split; [lia|]. split; [lia|]. split; [lia|]. split; [exact H1|]. split; [lia|congruence].
Qed.
Lemma bs_skip_tame : forall fuel x n sk, tI x -> 0 <= n -> 0 <= sk -> (Z.to_nat n <= fuel)%nat -> 1 <= lim ->
  safe cr (bs_skip_loop src fuel x n sk) (fun '(x', k) => tI x' /\ bs_pos x <= bs_pos x' /\ sk <= k <= sk + n /\
    (bs_st x' <> Error -> bs_pos x' = bs_pos x + (k - sk)) /\ (bs_st x' = Ok -> k = sk + n)).
Proof.
  induction fuel as [|f IH]; intros x n sk HI Hn Hsk Hf Hl; cbn [bs_skip_loop].
  { destruct (Z.eqb_spec n 0); [|lia]. cbn [safe]. split; [exact HI|]. lia. }
  destruct (Z.eqb_spec n 0); [cbn [safe]; split; [exact HI|]; lia|].
  assert (0 <= b_size (bs_buf x) <= INT32_MAX) as Hbs by (destruct HI as (_ & acc & ((R1 & R2 & R3 & R4 & _) & _) & _); unfold BUF_LIM, INT32_MAX in *; lia).
  set (step := wrap32 _).
  assert (0 <= step <= n /\ step <= INT32_MAX /\ (step = 0 -> b_size (bs_buf x) = 0)) as (Hs1 & Hs2 & Hs3).
  { unfold step. destruct (Z.ltb_spec (b_size (bs_buf x)) n); rewrite wrap32_id by (unfold INT32_MIN; lia); lia. }
  clearbody step. eapply safe_bind; [apply bs_read_tame; [exact HI|unfold INT32_MIN, INT32_MAX; lia|exact Hl|unfold INT32_MIN; lia]|].
  intros ((x1 & m) & d) (T1 & T2 & T3 & T4 & T5 & T6 & T7 & T8 & T9 & T10 & T11 & T12 & T13).
  destruct (Z.leb_spec m 0) as [L|L].
  { cbn [safe]. split; [exact T1|]. split; [lia|]. split; [lia|]. split; [intros H; specialize (T10 H); lia|]. intros H. exfalso. apply T12; [lia|exact L|exact H]. }
  assert (m <= n) as Hmn.
  { destruct (Z.eq_dec step 0) as [E0|E0]; [|lia]. specialize (T11 eq_refl ltac:(lia)). lia. }
  eapply safe_impl; [apply IH; [exact T1|lia|lia|lia|exact Hl]|tauto|].
  intros (x' & k) (U1 & U2 & U3 & U4 & U5). split; [exact U1|]. split; [lia|]. split; [lia|]. split; [intros H; rewrite (U4 H); rewrite T7 by lia; lia|]. intros H. specialize (U5 H). lia.
Qed.
(** a negative argument drains the stream *)
Lemma bs_skip_neg_tame : forall fuel x n sk, tI x -> n < 0 -> 0 <= sk -> cap - bs_pos x < Z.of_nat fuel -> 1 <= lim ->
  safe cr (bs_skip_loop src fuel x n sk) (fun '(x', k) => tI x' /\ bs_pos x <= bs_pos x' /\ sk <= k /\
    (bs_st x' <> Error -> bs_pos x' = bs_pos x + (k - sk)) /\ bs_st x' <> Ok).
Proof.
  induction fuel as [|f IH]; intros x n sk HI Hn Hsk Hf Hl; cbn [bs_skip_loop].
  { destruct (tI_pos x HI) as (_ & _ & Hp). lia. }
  destruct (Z.eqb_spec n 0); [lia|].
  set (step := wrap32 _). assert (INT32_MIN <= step <= INT32_MAX) as Hst by apply wrap32_range.
  clearbody step. eapply safe_bind; [apply bs_read_tame; [exact HI|unfold INT32_MIN, INT32_MAX; lia|exact Hl|exact Hst]|].
  intros ((x1 & m) & d) (T1 & T2 & T3 & T4 & T5 & T6 & T7 & T8 & T9 & T10 & T11 & T12 & T13).
  destruct (Z.leb_spec m 0) as [L|L].
  { cbn [safe]. split; [exact T1|]. split; [lia|]. split; [lia|]. split; [intros H; specialize (T10 H); lia|]. intros H. apply T12; [lia|exact L|exact H]. }
  eapply safe_impl; [apply IH; [exact T1|lia|lia|rewrite T7 by lia; lia|exact Hl]|tauto|].
  intros (x' & k) (U1 & U2 & U3 & U4 & U5). split; [exact U1|]. split; [lia|]. split; [lia|]. split; [intros H; rewrite (U4 H); rewrite T7 by lia; lia|exact U5].
Qed.
Lemma bs_reset_tame x q : tI x -> 0 <= q -> safe cr (bs_reset x q) (fun '(x', r) => tI x' /\ bs_src x' = bs_src x /\
  (r < 0 /\ bs_pos x' = bs_pos x \/ r = bs_pos x' /\ Z.min q (bs_pos x) <= r <= Z.max q (bs_pos x))).
Proof.
  intros HI Hq. assert (HI' := HI). destruct HI' as (HK & acc & (HR & Ha & Aok) & HJ & HE). unfold bs_reset. destruct (Z.ltb_spec q 0); [lia|].
  assert (HR' := HR). destruct HR' as (R1 & R2 & R3 & R4 & R5 & R6 & R7). unfold BUF_LIM in R4.
  destruct (bs_st x) eqn:Est.
  3:{ cbn [safe]. split; [exact HI|]. split; [reflexivity|]. left. lia. }
  all: destruct (Z.leb_spec (bs_pos x - q) (b_off (bs_buf x))), (Z.leb_spec (- (bs_pos x - q)) (b_avail (bs_buf x))); cbn [andb safe].
  all: try (split; [exact HI|]; split; [reflexivity|]; right; lia).
  all: split; [|split; [reflexivity|]; right; cbn [bs_pos]; lia].
  all: split; [exact HK|]; exists acc; cbn [bs_buf bs_fin bs_st bs_pos bs_src]; rewrite wrap32_id by (unfold INT32_MIN, INT32_MAX; lia).
  all: split; [|split; [intros F _; apply HJ; congruence|congruence]].
  all: split; [|split; [cbn [b_avail]; lia|exact Aok]]; unfold rep, b_size, BUF_LIM in *; cbn [b_mem b_off b_avail].
  all: split; [lia|]; split; [lia|]; split; [lia|]; split; [lia|]; split; [lia|]; split; [lia|]; intros i Hi; rewrite R7 by lia; f_equal; f_equal; lia.
Qed.
Lemma bs_tame (neg : Prop) : 1 <= lim -> (neg -> cap <= INT64_MAX) -> Tame (bs_ops src) content lim cr neg tI.
Proof.
  intros Hl Hneg. split.
  - intros x HI. destruct (tI_pos x HI) as (H1 & H2 & _). split; assumption.
  - intros x mn mx HI H1 H2 H3. eapply safe_impl; [apply bs_read_tame; assumption|tauto|]. intros ((x' & n) & d) (T1 & T2 & T3 & T4 & T5 & T6 & T7 & T8 & T9 & _).
    do 8 (split; [assumption|]). exact T9.
  - intros x n HI Hn. cbn [bs_ops o_skip o_pos o_status]. unfold bs_skip, skip_rounds. destruct (Z.ltb_spec n 0).
    { eapply safe_impl; [apply bs_skip_neg_tame; [exact HI|lia|lia| |exact Hl]|tauto|].
      - destruct Hn as [Hn|Hn]; [lia|]. specialize (Hneg Hn). destruct (tI_pos x HI) as (Hp & _). unfold INT64_MAX in *. rewrite Z2Nat.id by lia. lia.
      - intros (x' & k) (T1 & T2 & T3 & T4 & T5). split; [exact T1|]. split; [exact T2|]. split; [intros H'; rewrite (T4 H'); lia|lia]. }
    eapply safe_impl; [apply bs_skip_tame; [exact HI|lia|lia|lia|exact Hl]|tauto|].
    intros (x' & k) (T1 & T2 & T3 & T4 & T5). split; [exact T1|]. split; [exact T2|]. split; [intros H'; rewrite (T4 H'); lia|lia].
  - intros x q HI Hq. eapply safe_impl; [apply bs_reset_tame; assumption|tauto|]. intros (x' & r) (T1 & T2 & T3). split; assumption.
Qed.
(** a new stream, with or without a buffer *)
Lemma tI_init s m size bs : J false s 0 m -> 0 <= cap -> 0 <= bs <= BUF_LIM ->
  exists b, (let* (b, _) := makeSpace buf0 bs in Ret b) = Ret b /\ tI (mkBS b false s size 0 Ok).
Proof.
  intros HJ Hc Hb.
  assert (acc_ok []) as Hok by (unfold acc_ok; change (zlen (@nil Z)) with 0; split; [constructor|]; split; [destruct content; [reflexivity|exact I]|]; split; [destruct content; cbn [in_content]; [apply zlen_nonneg|exact I]|lia]).
  assert (forall b, rep [] b 0 -> b_avail b = 0 -> tI (mkBS b false s size 0 Ok)) as Hti.
  { intros b HR Ha. split; [exact (ts_K _ _ _ _ _ _ HS _ _ _ _ HJ)|]. exists []. cbn [bs_buf bs_fin bs_st bs_pos bs_src]. change (zlen (@nil Z)) with 0.
    split; [split; [exact HR|split; [change (zlen (@nil Z)) with 0; lia|exact Hok]]|]. split; [intros _ _; exists m; exact HJ|congruence]. }
  assert (rep (@nil Z) buf0 0) as R0.
  { unfold rep, buf0, b_size, BUF_LIM. cbn [b_mem b_off b_avail]. change (zlen (@nil (option Z))) with 0. change (zlen (@nil Z)) with 0. do 6 (split; [lia|]). intros i Hi; lia. }
  destruct (Z.eq_dec bs 0) as [->|Nb].
  - exists buf0. split; [reflexivity|]. apply Hti; [exact R0|reflexivity].
  - destruct (makeSpace_ok [] buf0 0 bs R0) as (b & sp & E & R' & H1 & _); [lia|cbn [buf0 b_avail]; lia|]. rewrite E. cbn [bind].
    exists b. split; [reflexivity|]. apply Hti; [exact R'|exact H1].
Qed.
End B.

(** ** sources that satisfy SrcOK (files, ...) *)
Definition srcok_J {S} (src : source S Z) (full : list Z) (SR : S -> Z -> Prop) (bad : bool) (s : S) (c : Z) (m : nat) : Prop :=
  0 <= c <= zlen full /\ (bad = false /\ SR s c /\ m = mu src s \/ bad = true /\ exists k, (k <= m)%nat /\ dies src k s).
Lemma srcok_tame {S} (src : source S Z) full fails SR SE cr : SrcOK src full fails SR SE -> Forall (fun c => 0 <= c < 256) full ->
  TameSrc src (Some full) (zlen full) cr (srcok_J src full SR) (fun _ => True).
Proof.
  intros HS Hb. split.
  - auto.
  - intros s c m (_ & [(_ & _ & ->)|(? & _)]); [lia|discriminate].
  - intros bad s c m space (Hc & [(-> & HSR & ->)|(-> & k & Hk & Hd)]) Hsp.
    + destruct (HS s c space HSR Hsp) as (s' & n & d & e & E & Hd & H). rewrite E. cbn [safe orb data_at in_content]. split; [exact Hd|]. split; [exact I|].
      assert (forall n, 0 <= n -> c + n <= zlen full -> zlen (slice full c n) = n) as Zs by (intros; apply zlen_slice; lia).
      destruct H as [(-> & Hn & Hdd & Hc2 & HS' & Hmu)|[(-> & Hn & HS' & Hmu)|[(-> & Hn & _)|(-> & _ & [Hn|[(Hn & Hdd & Hc2 & Hnx)|(Hn & Hdd & Hc2 & k & Hk & Hdie)]])]]].
      * split; [|lia]. intros _. rewrite Hdd, Zs by lia. split; [reflexivity|]. split; [apply Forall_slice; exact Hb|]. split; [reflexivity|]. split; [lia|]. split; [lia|].
        exists (mu src s'). split; [exact Hmu|]. split; [lia|]. left. tauto.
      * split; [lia|]. intros _. exists (mu src s'). split; [exact Hmu|]. split; [lia|]. left; tauto.
      * split; lia.
      * split; lia.
      * split; [|lia]. intros _. rewrite Hdd, Zs by lia. split; [reflexivity|]. split; [apply Forall_slice; exact Hb|]. split; [reflexivity|]. split; [lia|]. split; [lia|].
        exists 0%nat. split; [lia|]. split; [lia|]. right. split; [reflexivity|]. exists 0%nat. split; [lia|]. cbn [dies]. intros sp' Hsp'. destruct (Hnx sp' Hsp') as (s2 & mm & e2 & E2 & H2). exists s2, mm, e2. tauto.
      * split; intros Hn'.
        -- rewrite Hdd, Zs by lia. split; [reflexivity|]. split; [apply Forall_slice; exact Hb|]. split; [reflexivity|]. split; [lia|]. split; [lia|].
           exists k. split; [lia|]. split; [lia|]. right. split; [reflexivity|]. exists k. split; [lia|exact Hdie].
        -- exists k. split; [lia|]. split; [lia|]. right. split; [reflexivity|]. exists k. split; [lia|exact Hdie].
    + destruct k as [|k]; cbn [dies] in Hd; destruct (Hd space Hsp) as (s' & n & e & E & H); rewrite E; cbn [safe orb]; change (zlen (@nil Z)) with 0.
      * split; [lia|]. split; [exact I|]. split; lia.
      * split; [lia|]. split; [exact I|]. split; [lia|]. intros ->. destruct H as [H|(_ & H)]; [lia|]. exists k. split; [lia|]. split; [lia|]. right. split; [reflexivity|]. exists k. split; [lia|exact H].
Qed.

Lemma tame_cap {S} (src : source S Z) content cap cap' cr J K : TameSrc src content cap cr J K -> (forall b s c m, J b s c m -> c <= cap') -> TameSrc src content cap' cr J K.
Proof.
  intros [H1 H2 H3] Hc. split; [exact H1|exact H2|]. intros bad s c m space HJ Hs. eapply safe_impl; [apply (H3 bad s c m space HJ Hs)|tauto|].
  intros (((s' & n) & d) & e) (A1 & A2 & A3 & A4). split; [exact A1|]. split; [exact A2|]. split; [|exact A4]. intros Hn. destruct (A3 Hn) as (B1 & B2 & B3 & B4 & B5 & m' & B6 & B7).
  do 4 (split; [assumption|]). split; [exact (Hc _ _ _ _ B7)|]. exists m'. split; assumption.
Qed.
