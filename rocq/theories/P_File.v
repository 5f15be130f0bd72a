From Verif Require Import Base StreamSpec P_Stream M_Buffered BufferedSpec P_Buffered M_File.

Section F.
Variable bytes : list Z.
Variable fault : Z -> Z -> bool.
Definition file_fails : Prop := exists p n, fault p n = true.
Definition file_SR (f : fstate) (c : Z) : Prop :=
  0 <= c <= zlen bytes /\ (if f_open f then f_pos f = c else c = zlen bytes).

Lemma file_SrcOK : SrcOK (file_src bytes fault) bytes file_fails file_SR (fun _ => True).
Proof.
  intros [op p] c space [Hc HR] Hs. cbn [f_open f_pos] in HR. unfold file_src; cbn [fill mu f_open].
  unfold file_fill, fread; cbn [f_open f_pos].
  destruct op; cbn [negb].
  2:{ do 4 eexists. split; [reflexivity|]. split; [change (zlen (@nil Z)) with 0; lia|]. right; right; left. repeat split; lia. }
  subst p. pose proof (zlen_slice_min bytes c space ltac:(lia) ltac:(lia)) as EL.
  destruct (fault c space) eqn:Ef.
  { do 4 eexists. split; [reflexivity|]. split; [apply zlen_slice_le; lia|]. right; right; right.
    split; [reflexivity|]. split; [exists c, space; exact Ef|left; lia]. }
  do 4 eexists. split; [reflexivity|]. split; [lia|].
  rewrite wrap32_id by (unfold INT32_MIN; lia).
  destruct (Z.eq_dec (zlen (slice bytes c space)) 0) as [E0|E0].
  - right; left. rewrite E0. destruct (Z.ltb_spec 0 space); [|lia]. cbn.
    repeat split; try lia. unfold file_SR; cbn. lia.
  - left. split; [reflexivity|]. split; [pose proof (zlen_nonneg (slice bytes c space)); lia|].
    split.
    + apply zget_ext; intros i. rewrite !zget_slice by lia.
      destruct (Z.leb_spec 0 i), (Z.ltb_spec i space), (Z.ltb_spec i (zlen (slice bytes c space))); cbn [andb]; try reflexivity; try lia.
      apply zget_none_big; lia.
    + split; [lia|]. split.
      * unfold file_SR; cbn. destruct (Z.ltb_spec (zlen (slice bytes c space)) space); cbn [negb]; lia.
      * destruct (negb (zlen (slice bytes c space) <? space)); cbn; lia.
Qed.

Lemma rep_buf0 : rep bytes buf0 0.
Proof.
  pose proof (zlen_nonneg bytes). unfold rep, b_size, buf0, BUF_LIM; cbn [b_mem b_off b_avail].
  change (zlen (@nil (option Z))) with 0. repeat split; try lia.
Qed.

Lemma file_open_ok seek bs : seek = zlen bytes \/ seek = 0 \/ seek = -1 -> 1 <= bs < BUF_LIM ->
  exists x, file_open bytes seek bs = Ret x /\ forall fl : Prop, bs_init_ok bytes fl file_SR x.
Proof.
  intros Hseek Hbs. pose proof (zlen_nonneg bytes) as HL.
  unfold file_open, fread.
  set (m_size := if seek =? 0 then if zlen (slice bytes 0 1) =? 1 then -1 else 0 else seek).
  pose proof (zlen_slice_min bytes 0 1 ltac:(lia) ltac:(lia)) as E1.
  assert ((m_size = 0 /\ zlen bytes = 0 /\ seek = 0) \/ ((m_size = -1 \/ (m_size = zlen bytes /\ 0 < zlen bytes)) /\ (m_size =? 0) = false)) as Hm.
  { unfold m_size. destruct (Z.eqb_spec seek 0).
    - destruct (Z.eqb_spec (zlen (slice bytes 0 1)) 1); [right; split; [left; reflexivity|reflexivity]|left; lia].
    - right. destruct (Z.eqb_spec seek 0); [lia|]. split; [|reflexivity]. lia. }
  clearbody m_size. destruct Hm as [(Hm & Hz & ->)|(Hm & Hz)].
  - rewrite Hm. cbn [Z.eqb andb]. eexists; split; [reflexivity|]. intros fl. unfold bs_init_ok, b_size, BUF_LIM, file_SR. cbn.
    change (zlen (@nil (option Z))) with 0. repeat split; try lia.
  - rewrite Hz, andb_false_r.
    assert (exists k, (if m_size <=? bs then chk32 (wrap32 m_size + 1) else Ret bs) = Ret k /\ 0 <= k <= BUF_LIM) as (k & Ek & Hk).
    { destruct (Z.leb_spec m_size bs).
      - rewrite wrap32_id by (unfold INT32_MIN, INT32_MAX, BUF_LIM in *; lia).
        rewrite chk32_ok by (unfold INT32_MIN, INT32_MAX, BUF_LIM in *; lia). eexists; split; [reflexivity|lia].
      - eexists; split; [reflexivity|lia]. }
    rewrite Ek; cbn [bind]. unfold setMinBufSize; cbn [bs_buf].
    destruct (Z.eq_dec k 0) as [->|Hk0].
    + cbn. eexists; split; [reflexivity|]. intros fl. unfold bs_init_ok, b_size, BUF_LIM, file_SR. cbn.
      change (zlen (@nil (option Z))) with 0. repeat split; try lia.
    + destruct (makeSpace_ok bytes buf0 0 k rep_buf0) as (b' & sp & E & Hrep & Ha & _ & _ & _ & Ho & Hs); [lia|cbn; lia|].
      rewrite E. cbn [bind bs_fin bs_src bs_size bs_pos bs_st]. eexists; split; [reflexivity|]. intros fl.
      destruct Hrep as (Q1 & Q2 & Q3 & Q4 & _). cbn [buf0 b_off b_avail] in *.
      unfold bs_init_ok, file_SR. cbn. repeat split; try lia.
      exact Q4.
Qed.
Lemma file_conforms seek bs : seek = zlen bytes \/ seek = 0 \/ seek = -1 -> 1 <= bs < BUF_LIM ->
  exists x, file_open bytes seek bs = Ret x /\
    Conforms (bs_ops (file_src bytes fault)) bytes file_fails BUF_LIM x view0 /\
    (fault = (fun _ _ => false) -> Conforms (bs_ops (file_src bytes fault)) bytes False BUF_LIM x view0).
Proof.
  intros Hseek Hbs. destruct (file_open_ok seek bs Hseek Hbs) as (x & E & HI).
  exists x; split; [exact E|]. split.
    - eapply bs_conforms; [apply file_SrcOK|apply HI].
    - intros Hf. eapply bs_conforms with (SR := file_SR) (SE := fun _ => True); [|apply HI].
      intros s c sp H1 H2. destruct (file_SrcOK s c sp H1 H2) as (s' & n & d & err & E1 & E2 & [H|[H|[H|(_ & H & _)]]]);
        exists s', n, d, err; (split; [exact E1|]); (split; [exact E2|]); try tauto.
      destruct H as (p & k & H). rewrite Hf in H. discriminate.
Qed.
End F.

(** MMapFileInputStream *)
Section MM.
Variable bytes : list Z.
Hypothesis Hne : 0 < zlen bytes.
Definition mm_R (s : mmstream) (v : view) : Prop :=
  mm_buf s = bytes /\ mm_size s = zlen bytes /\ mm_pos s = v_pos v /\ view_ok bytes v /\
  mm_st s <> Error /\ (mm_st s = Eof <-> v_pos v = zlen bytes).

Lemma mm_sim : sim mm_ops bytes False INT32_MAX mm_R.
Proof.
  split.
  - intros s v H; apply H.
  - intros s v H; apply H.
  - intros s v c (H1 & H2 & H3 & H4 & H5 & H6) Hc. assert (H4' := H4). unfold view_ok in H4'. unfold step_sim.
    destruct c as [mn mx|k|p]; cbn [call_ok] in Hc.
    + cbn [exec mm_ops o_read]. unfold mm_read. rewrite H1, H2, H3.
      destruct (mm_st s) eqn:Est; [| |congruence].
      * set (n := Z.max mn mx).
        assert (v_pos v < zlen bytes) as Hlt by (destruct (Z.eq_dec (v_pos v) (zlen bytes)); [destruct H6 as [_ H6]; specialize (H6 ltac:(assumption)); discriminate|lia]).
        assert (1 <= n <= INT32_MAX) as Hn by (unfold n; lia).
        destruct (Z.leb_spec (zlen bytes - v_pos v) n).
        -- rewrite wrap32_id by (unfold INT32_MIN; lia).
           replace ((0 <=? v_pos v) && (0 <=? zlen bytes - v_pos v) && (v_pos v + (zlen bytes - v_pos v) <=? zlen bytes)) with true
             by (symmetry; rewrite !andb_true_iff, !Z.leb_le; lia).
           cbn [bind]. do 2 eexists; split; [reflexivity|]. left.
           unfold good_obs, mm_R, view_ok. cbn [observe ob_ret ob_data ob_st ob_pos ob_size next_view mm_ops o_pos o_size o_status mm_pos mm_size mm_st mm_buf].
           destruct (Z.ltb_spec 0 (zlen bytes - v_pos v)); [|lia]. cbn [v_pos v_lo v_hi].
           split; [|repeat split; try congruence; try lia].
           split; [congruence|]. split; [lia|]. split; [lia|]. split; [tauto|]. left. repeat split; try lia.
        -- replace ((0 <=? v_pos v) && (0 <=? n) && (v_pos v + n <=? zlen bytes)) with true
             by (symmetry; rewrite !andb_true_iff, !Z.leb_le; lia).
           cbn [bind]. do 2 eexists; split; [reflexivity|]. left.
           unfold good_obs, mm_R, view_ok. cbn [observe ob_ret ob_data ob_st ob_pos ob_size next_view mm_ops o_pos o_size o_status mm_pos mm_size mm_st mm_buf].
           destruct (Z.ltb_spec 0 n); [|lia]. cbn [v_pos v_lo v_hi].
           split; [|repeat split; try congruence; try lia].
           split; [congruence|]. split; [congruence|]. split; [lia|]. split; [tauto|]. left. repeat split; try lia.
      * cbn [bind]. do 2 eexists; split; [reflexivity|]. left.
        unfold good_obs, mm_R, view_ok. cbn. rewrite Est, H2, H3. destruct H6 as [H6 _]. specialize (H6 eq_refl).
        repeat split; try congruence; try lia; try (right; repeat split; lia); tauto.
    + cbn [exec mm_ops o_skip]. unfold mm_skip. rewrite H1, H2, H3.
      destruct (Z.leb_spec (zlen bytes - v_pos v) k); cbn [bind]; do 2 eexists; (split; [reflexivity|]); left;
      unfold good_obs, mm_R, view_ok; cbn [observe ob_ret ob_data ob_st ob_pos ob_size next_view mm_ops o_pos o_size o_status mm_pos mm_size mm_st mm_buf v_pos v_lo v_hi].
      * split; [|repeat split; try congruence; lia]. repeat split; try congruence; try lia; tauto.
      * rewrite Z.max_r by lia. split.
        -- split; [congruence|]. split; [|repeat split; try lia; tauto]. intros E; apply H6 in E. lia.
        -- repeat split; try congruence; try lia. intros E; apply H6 in E. lia.
    + cbn [exec mm_ops o_reset]. unfold mm_reset. rewrite H1, H2.
      destruct (mm_st s) eqn:Est; [| |congruence].
      all: destruct (Z.leb_spec (zlen bytes) p); [|destruct (Z.ltb_spec p 0); [lia|]]; cbn [bind]; do 2 eexists; (split; [reflexivity|]); left;
      unfold good_obs, mm_R, view_ok; cbn [observe ob_ret ob_data ob_st ob_pos ob_size next_view mm_ops o_pos o_size o_status mm_pos mm_size mm_st mm_buf];
      destruct (Z.leb_spec (v_lo v) p), (Z.leb_spec p (v_hi v)); cbn [andb v_pos v_lo v_hi]; repeat split; try congruence; try lia; tauto.
Qed.
Theorem mm_conforms : Conforms mm_ops bytes False INT32_MAX (mm_new bytes) view0.
Proof.
  apply (sim_conforms _ _ _ _ mm_R); [exact mm_sim|]. unfold mm_R, view_ok; cbn. repeat split; try congruence; try lia.
Qed.
End MM.

(** SkippingFileInputStream, for callers that treat a return value of 0 as the end *)
Section SK.
Variable bytes : list Z.
Definition skf_R (s : skf) (v : view) : Prop :=
  0 <= sk_bufsize s <= INT32_MAX /\ sk_fpos s = v_pos v /\ sk_pos s = v_pos v /\ view_ok bytes v /\
  sk_size s = zlen bytes /\ sk_st s <> Error /\ (sk_st s = Eof -> v_pos v = zlen bytes).

Lemma skf_sim : sim (zero_is_end (skf_ops bytes)) bytes False BUF_LIM skf_R.
Proof.
  split.
  - intros s v H; apply H.
  - intros s v H; apply H.
  - intros s v c (H1 & H2 & H3 & H4 & H5 & H6 & H7) Hc. assert (H4' := H4). unfold view_ok in H4'. unfold step_sim.
    destruct c as [mn mx|k|p]; cbn [call_ok] in Hc.
    + cbn [exec skf_ops zero_is_end o_read]. unfold skf_read. rewrite H2, H3, H5.
      set (n0 := if mx <=? 0 then Z.max 1024 (Z.max (sk_bufsize s) mn) else Z.max mn mx).
      assert (exists n b, (if sk_bufsize s <? n0 then
      if mx <=? 0 then
        let* d := chk32 (2 * sk_bufsize s) in
        Ret (if negb (zlen bytes =? -1) && (zlen bytes - v_pos v <? Z.max n0 d)
             then wrap32 (zlen bytes - v_pos v + 1) else Z.max n0 d)
      else Ret n0
    else Ret n0) = Ret n /\ (if sk_bufsize s <? n0 then n else sk_bufsize s) = b /\
       0 < n <= b /\ b <= INT32_MAX /\ (mn <= mx -> n <= mx) /\ (mn <= n \/ zlen bytes - v_pos v < n)) as (n & b & En & Eb & Hn & Hb & Hmx & Hmn).
      { unfold n0, BUF_LIM in *. destruct (Z.leb_spec mx 0).
        - destruct (Z.ltb_spec (sk_bufsize s) (Z.max 1024 (Z.max (sk_bufsize s) mn))).
          + rewrite chk32_ok by (unfold INT32_MIN, INT32_MAX; lia). cbn [bind].
            destruct (Z.eqb_spec (zlen bytes) (-1)); [lia|]. cbn [negb andb].
            set (m := Z.max (Z.max 1024 (Z.max (sk_bufsize s) mn)) (2 * sk_bufsize s)) in *.
            assert (mn <= m <= INT32_MAX /\ 1 <= m) as Hm by (unfold m, INT32_MAX in *; lia). clearbody m.
            destruct (Z.ltb_spec (zlen bytes - v_pos v) m).
            * rewrite wrap32_id by (unfold INT32_MIN, INT32_MAX in *; lia). do 2 eexists; repeat split; lia.
            * do 2 eexists; repeat split; lia.
          + do 2 eexists; repeat split; lia.
        - destruct (Z.ltb_spec (sk_bufsize s) (Z.max mn mx)); do 2 eexists; repeat split; lia. }
      cbv zeta. rewrite En. cbn [bind]. rewrite Eb.
      replace ((n <? 0) || (b <? n)) with false by (symmetry; apply orb_false_iff; rewrite !Z.ltb_ge; lia).
      pose proof (zlen_slice_min bytes (v_pos v) n ltac:(lia) ltac:(lia)) as EL.
      set (nr := zlen (slice bytes (v_pos v) n)) in *.
      assert (slice bytes (v_pos v) n = slice bytes (v_pos v) nr) as ES.
      { apply zget_ext; intros i. rewrite !zget_slice by lia.
        destruct (Z.leb_spec 0 i), (Z.ltb_spec i n), (Z.ltb_spec i nr); cbn [andb]; try reflexivity; try lia.
        apply zget_none_big; lia. }
      rewrite ES.
      match goal with |- context [if nr =? n then ?a else ?b] => set (e := if nr =? n then a else b) end.
      assert (snd e = zlen bytes /\ fst e <> Error /\ (fst e = Eof -> v_pos v + nr = zlen bytes) /\ (nr = 0 -> fst e = Eof)) as (Q1 & Q2 & Q3 & Q4).
      { unfold e. destruct (Z.eqb_spec nr n); cbn [fst snd].
        - repeat split; try assumption; try lia. intros E; specialize (H7 E). lia.
        - repeat split; try congruence; try lia. destruct (Z.eqb_spec (zlen bytes) (-1)); lia. }
      clearbody e. destruct e as [st sz]. cbn [fst snd] in *. cbn [bind].
      do 2 eexists; split; [reflexivity|]. left. subst sz.
      unfold good_obs, skf_R, view_ok; cbn [observe ob_ret ob_data ob_st ob_pos ob_size next_view skf_ops zero_is_end o_pos o_size o_status sk_pos sk_size sk_st sk_bufsize sk_fpos].
      destruct (Z.eqb_spec nr 0) as [E0|E0].
      * cbn [Z.ltb Z.compare v_pos v_lo v_hi]. rewrite E0, slice_0 in *.
        split; [|repeat split; try assumption; try lia; intros E; specialize (Q3 E); lia].
        split; [exact Q2|]. split; [intros E; specialize (Q3 E); lia|]. split; [lia|]. split; [tauto|]. right.
        specialize (Q4 eq_refl). repeat split; try assumption. lia.
      * destruct (Z.ltb_spec 0 nr); [|lia]. cbn [v_pos v_lo v_hi].
        split; [|repeat split; try assumption; try lia].
        split; [exact Q2|]. split; [exact Q3|]. split; [lia|]. split; [tauto|]. left. repeat split; try lia.
    + cbn [exec skf_ops zero_is_end o_skip]. unfold skf_skip, skf_reset. rewrite H3, H5. cbv zeta.
      destruct (Z.leb_spec 0 (zlen bytes)); [|lia]. cbn [andb].
      destruct (Z.ltb_spec (zlen bytes) (v_pos v + k)).
      * destruct (Z.ltb_spec (zlen bytes) 0); [lia|]. cbn [bind sk_pos]. destruct (Z.eqb_spec (zlen bytes) (-2)); [lia|].
        cbn [bind]. do 2 eexists; split; [reflexivity|]. left. rewrite Z.eqb_refl.
        unfold good_obs, skf_R, view_ok; cbn [observe ob_ret ob_data ob_st ob_pos ob_size next_view skf_ops zero_is_end o_pos o_size o_status sk_pos sk_size sk_st sk_bufsize sk_fpos v_pos v_lo v_hi].
        split; repeat split; try congruence; try lia; tauto.
      * destruct (Z.ltb_spec (v_pos v + k) 0); [lia|]. cbn [bind sk_pos]. destruct (Z.eqb_spec (v_pos v + k) (-2)); [lia|].
        cbn [bind]. do 2 eexists; split; [reflexivity|]. left.
        unfold good_obs, skf_R, view_ok; cbn [observe ob_ret ob_data ob_st ob_pos ob_size next_view skf_ops zero_is_end o_pos o_size o_status sk_pos sk_size sk_st sk_bufsize sk_fpos v_pos v_lo v_hi].
        destruct (Z.eqb_spec (v_pos v + k) (zlen bytes)); split; repeat split; try congruence; try lia; tauto.
    + cbn [exec skf_ops zero_is_end o_reset]. unfold skf_reset. rewrite H5. cbv zeta.
      destruct (Z.leb_spec 0 (zlen bytes)); [|lia]. cbn [andb].
      destruct (Z.ltb_spec (zlen bytes) p); [lia|]. destruct (Z.ltb_spec p 0); [lia|]. cbn [bind].
      do 2 eexists; split; [reflexivity|]. left.
      unfold good_obs, skf_R, view_ok; cbn [observe ob_ret ob_data ob_st ob_pos ob_size next_view skf_ops zero_is_end o_pos o_size o_status sk_pos sk_size sk_st sk_bufsize sk_fpos].
      destruct (Z.leb_spec (v_lo v) p), (Z.leb_spec p (v_hi v)); cbn [andb v_pos v_lo v_hi]; destruct (Z.eqb_spec p (zlen bytes)); repeat split; try congruence; try lia; tauto.
Qed.
Theorem skf_conforms : Conforms (zero_is_end (skf_ops bytes)) bytes False BUF_LIM (skf_open bytes (zlen bytes)) view0.
Proof.
  apply (sim_conforms _ _ _ _ skf_R); [exact skf_sim|]. pose proof (zlen_nonneg bytes).
  pose proof (zlen_slice_min bytes 0 1 ltac:(lia) ltac:(lia)).
  unfold skf_R, view_ok, skf_open, INT32_MAX; cbn [sk_bufsize sk_fpos sk_pos sk_size sk_st view0 v_pos v_lo v_hi]. repeat split; try congruence; try lia.
  destruct (Z.eqb_spec (zlen bytes) 0); [|lia]. destruct (Z.eqb_spec (zlen (slice bytes 0 1)) 1); lia.
Qed.
End SK.
