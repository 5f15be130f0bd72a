From Verif Require Import Base StreamSpec P_Stream M_Kmp M_Buffered BufferedSpec P_Buffered ArchiveSpec P_BufInv.
From Verif Require Import B64Spec TextSpec M_Text T_Text M_Detect DetectSpec P_Detect OleSpec M_Ole P_Ole P_Ole2 P_Ole3.

Lemma word_hdr d o : 0 <= o -> o + 4 <= 512 -> word (slice d 0 512) o = word d o.
Proof. intros. unfold word. f_equal. f_equal. rewrite slice_slice by lia. f_equal; lia. Qed.

Section L.
Context {P : Type}.
Variables (big : bool) (par : ops P Z) (D : list Z) (lim : Z) (p : P).
Hypothesis HB : Forall byte D.
Hypothesis HL : zlen D <= INT32_MAX.
Hypothesis Hlim : zlen D <= lim /\ 10000000 <= lim.
Hypothesis HC : Conforms par D False lim p view0.
Notation R := (Conforms par D False lim).

Lemma rd q v mn mx : R q v -> 1 <= mn <= lim -> mn <= mx <= INT32_MAX ->
  exists q' n d v', o_read par q mn mx = Ret (q', n, d) /\ R q' v' /\ (0 < n -> v_lo v' = v_pos v /\ v_hi v' = v_pos v' /\ d = slice D (v_pos v) n) /\
    (n = -1 /\ v_pos v = zlen D \/ 0 < n <= mx /\ v_pos v + n <= zlen D /\ (mn <= n \/ v_pos v + n = zlen D)) /\ v_lo v' <= v_pos v /\ (o_size par q' = -1 \/ o_size par q' = zlen D).
Proof.
  intros HR H1 H2. destruct (sim_read par D False lim R q v mn mx (conforms_sim _ _ _ _) HR) as (q' & n & d & E & Hres); [cbn; lia|].
  exists q', n, d. destruct Hres as [(G & HR')|(_ & F & _)]; [|tauto]. eexists. split; [exact E|]. split; [exact HR'|].
  assert (Hv := sim_view _ _ _ _ _ (conforms_sim par D False lim) _ _ HR). unfold view_ok in Hv.
  destruct G as (_ & _ & _ & G4 & G5). cbn [observe ob_ret ob_data ob_size next_view] in *.
  destruct G5 as [(Q1 & Q2 & Q3 & Q4 & Q5)|(Q1 & Q2 & Q3 & Q4)].
  - destruct (Z.ltb_spec 0 n); [|lia]. cbn [v_lo v_pos v_hi]. split; [intros _; auto|]. split; [right; lia|]. split; [lia|tauto].
  - destruct (Z.ltb_spec 0 n); [lia|]. cbn [v_lo v_pos v_hi]. split; [lia|]. split; [left; lia|]. split; [lia|tauto].
Qed.
Lemma rs q v : R q v -> v_lo v = 0 -> exists q' r v', o_reset par q 0 = Ret (q', r) /\ R q' v' /\ v_pos v' = 0 /\ v_lo v' = 0 /\ (o_size par q' = -1 \/ o_size par q' = zlen D).
Proof.
  intros HR H0. assert (Hv := sim_view _ _ _ _ _ (conforms_sim par D False lim) _ _ HR). unfold view_ok in Hv.
  destruct (sim_reset par D False lim R q v 0 (conforms_sim _ _ _ _) HR) as (q' & r & E & Hres); [pose proof (zlen_nonneg D); lia|].
  exists q', r. destruct Hres as [(G & HR')|(_ & F)]; [|tauto]. eexists. split; [exact E|]. split; [exact HR'|].
  destruct G as (_ & _ & _ & G4 & G5). cbn [observe ob_ret ob_data ob_size next_view] in *. rewrite H0.
  destruct (Z.leb_spec 0 0); [|lia]. destruct (Z.leb_spec 0 (v_hi v)); [|lia]. cbn [andb v_pos v_lo]. tauto.
Qed.

Hypothesis HT : tables_moderate D.
(** the input announces its size, or all sectors of the file are complete *)
Hypothesis Hsize : (exists k, zlen D = 512 * k) \/ (forall h q obs, run par p h = Ret (q, obs) -> o_size par q = zlen D).
Lemma load_ok : exists r, ole_load big par p = Ret r /\
  match r with None => True | Some s => odir D s /\ 512 <= zlen D end.
Proof.
  unfold ole_load. unfold INT32_MAX in *. pose proof (zlen_nonneg D) as H0.
  destruct (rd p view0 512 512 HC) as (p1 & n1 & d1 & v1 & E1 & R1 & Hd1 & Hn1 & Hlo1 & Hs1); [lia|unfold INT32_MAX; lia|].
  rewrite E1. cbn [bind]. cbn [view0 v_pos] in *. destruct (Z.eqb_spec n1 512) as [->|Hne]; cbn [negb]; [|eexists; split; [reflexivity|exact I]].
  destruct (Hd1 eq_refl) as (Hlo & Hhi & ->). clear Hd1.
  assert (512 <= zlen D) as H5 by lia.
  destruct (rs p1 v1 R1 Hlo) as (p2 & r2 & v2 & E2 & R2 & Hp2 & Hlo2 & Hs2). rewrite E2. cbn [bind].
  assert (HBh : Forall byte (slice D 0 512)) by (apply Forall_slice; exact HB).
  assert (HLh : zlen (slice D 0 512) = 512) by (apply zlen_slice; lia).
  rewrite !le32_ok by (assumption || lia). cbn [bind]. rewrite !word_hdr by lia.
  destruct (ole_check_ok (slice D 0 512)) as (ok & -> & _). cbn [bind].
  fold (h_nbat D) (h_dir D) (h_sbat D) (h_xbat D) (h_nxbat D). destruct HT as [T1 T2 T3 T4 T5 T6 T7].
  assert (moderate (h_xbat D)) as T8 by (destruct (Z.to_nat (h_nxbat D)); [exact T7|apply T7]). unfold moderate in T4, T5, T8.
  match goal with |- context [bind (if ?c then _ else _) _] => assert (exists l, (if c then Ret 0 else let* t := chk32 (128 * h_nxbat D) in chk32 (t + 109)) = Ret l) as (l & ->) end.
  { destruct (_ || _); [eauto|]. rewrite chk32_ok by (unfold INT32_MIN, INT32_MAX; lia). cbn [bind]. rewrite chk32_ok by (unfold INT32_MIN, INT32_MAX; lia). eauto. }
  cbn [bind]. match goal with |- context [if ?c then Ret None else _] => destruct c eqn:Ec end; [eexists; split; [reflexivity|exact I]|].
  rewrite !orb_false_iff in Ec. destruct Ec as (((_ & Ec1) & _) & Ec2). apply Z.ltb_ge in Ec1, Ec2.
  destruct (bats_ok big (slice D 0 512) HBh) with (nb := h_nbat D) (n := Z.to_nat (Z.min 109 (h_nbat D))) (i := 0) (max := 0) as (bat & mx & -> & HF & Hmx); [lia| |lia|lia|lia|lia|].
  { intros i Hi Hi2. unfold h_bat. rewrite word_hdr by lia. apply T3; lia. }
  cbn [bind]. cbv zeta.
  rewrite (chk32_ok (128 * (h_nbat D - 1))) by (unfold INT32_MIN, INT32_MAX; lia). cbn [bind].
  set (m1 := if mx <? h_dir D then h_dir D else mx). set (m2 := if m1 <? 128 * (h_nbat D - 1) then 128 * (h_nbat D - 1) else m1).
  assert (h_dir D <= m2 /\ 0 <= m2 <= 4194301) as Hm2 by (unfold m2, m1; destruct (Z.ltb_spec mx (h_dir D)); zdest; lia).
  rewrite (chk32_ok (m2 + 2)) by (unfold INT32_MIN, INT32_MAX; lia). cbn [bind].
  rewrite (chk32_ok ((m2 + 2) * 512)) by (unfold INT32_MIN, INT32_MAX; lia). cbn [bind].
  destruct ((0 <=? o_size par p2) && (o_size par p2 <? (m2 + 2) * 512)) eqn:Es; [eexists; split; [reflexivity|exact I]|].
  assert (o_size par p2 = zlen D -> 512 * (h_dir D + 2) <= zlen D) as Hdir.
  { intros Hs. rewrite Hs in Es. apply andb_false_iff in Es as [Es|Es]; [apply Z.leb_gt in Es; lia|apply Z.ltb_ge in Es; lia]. }
  assert ((exists k, zlen D = 512 * k) \/ o_size par p2 = zlen D) as Hcase.
  { destruct Hsize as [Hk|Hrun]; [left; exact Hk|right]. destruct R1 as (_ & _ & _).
    destruct (exec par p (Read 512 512)) as [[q ob]| | |] eqn:Ex; cbn [exec] in Ex; rewrite E1 in Ex; cbn [bind] in Ex; try discriminate. injection Ex as <- <-.
    destruct (is_error (o_status par p1)) eqn:Ers.
    - exfalso. destruct (conforms_step par D False lim p view0 (Read 512 512) HC) as (q & ob & Ex & Hob); [cbn; unfold INT32_MAX; lia|].
      cbn [exec] in Ex. rewrite E1 in Ex. cbn [bind] in Ex. injection Ex as <- <-. destruct Hob as [((G & _) & _)|(_ & (F & _))]; [|tauto].
      cbn in G. apply G. apply is_error_true. exact Ers.
    - destruct (is_error (o_status par p2)) eqn:Ers2; (eapply (Hrun [Read 512 512; Reset 0])); cbn [run exec]; rewrite E1; cbn [bind observe ob_st]; rewrite Ers; rewrite E2; cbn [bind observe ob_st]; rewrite Ers2; reflexivity. }
  set (toread := if 0 <? o_size par p2 then wrap32 (o_size par p2) else 10000000).
  assert (1 <= toread <= lim /\ toread <= 2147483647) as Ht.
  { unfold toread. destruct Hs2 as [-> | ->]; [change (0 <? -1) with false; lia|]. destruct (Z.ltb_spec 0 (zlen D)); [|lia]. rewrite wrap32_id by (unfold INT32_MIN, INT32_MAX; lia). lia. }
  destruct (rd p2 v2 toread toread R2) as (p3 & n3 & d3 & v3 & E3 & R3 & Hd3 & Hn3 & Hlo3 & Hs3); [lia|unfold INT32_MAX; lia|].
  rewrite E3. cbn [bind]. rewrite Hp2 in *. destruct Hn3 as [(_ & Hz)|Hn3]; [lia|].
  destruct Hd3 as (Hl3 & _ & ->); [lia|]. destruct (rs p3 v3 R3) as (p4 & r4 & v4 & E4 & R4 & _ & _ & Hs4); [lia|]. rewrite E4. cbn [bind].
  destruct (Z.eqb_spec n3 (o_size par p4)) as [En|En]; cbn [negb]; [|eexists; split; [reflexivity|exact I]].
  assert (n3 = zlen D) as Hn by lia. rewrite Hn, slice_all.
  rewrite (chk32_ok (512 * h_xbat D)) by (unfold INT32_MIN, INT32_MAX; lia). cbn [bind].
  rewrite (chk32_ok (512 + 512 * h_xbat D)) by (unfold INT32_MIN, INT32_MAX; lia). cbn [bind].
  destruct (xbat_ok big D HB (h_nbat D) (Z.to_nat (h_nxbat D)) (h_xbat D) bat T7 HF) as (r & -> & Hr). cbn [bind].
  destruct r as [bat2|]; [|eexists; split; [reflexivity|exact I]].
  destruct (collect_ok big D HB bat2 Hr 1000 [] (h_sbat D)) as (sbat & u1 & e1 & -> & Hsb & Hu1 & Hu1'). cbn [bind].
  rewrite (chk32_ok (1 + h_dir D)) by (unfold INT32_MIN, INT32_MAX; lia). cbn [bind].
  rewrite (chk32_ok ((1 + h_dir D) * 512)) by (unfold INT32_MIN, INT32_MAX; lia). cbn [bind].
  rewrite (chk32_ok ((1 + h_dir D) * 512 + 116)) by (unfold INT32_MIN, INT32_MAX; lia). cbn [bind].
  destruct (readInt32_ok big D HB 0 (zlen D) ((1 + h_dir D) * 512 + 116)) as (r & -> & Hrt); [unfold INT32_MIN, INT32_MAX; lia|lia|lia|]. cbn [bind].
  destruct r as [b|]; [|eexists; split; [reflexivity|exact I]]. destruct Hrt as (Hb & Hb1 & Hb2).
  destruct (collect_ok big D HB bat2 Hr 16000 u1 b) as (sbatb & u2 & e2 & -> & Hsb2 & Hu2 & Hu2'). cbn [bind].
  eexists. split; [reflexivity|]. split; [|exact H5].
  assert (-1 <= h_dir D) as Hdir0 by lia.
  assert (512 * (h_dir D + 2) <= zlen D) as Hdir2.
  { destruct Hcase as [(k & Hk)|Hk]; [lia|auto]. }
  assert (moderate b) as Hbm.
  { rewrite Hb. replace (0 + ((1 + h_dir D) * 512 + 116)) with (512 * (h_dir D + 1) + 4 * 29) by lia. apply T6; lia. }
  assert (-1 <= maxindex D) as Hmi.
  { unfold maxindex. rewrite Z.quot_div_nonneg by lia. pose proof (Z.div_le_lower_bound (zlen D) 512 1). lia. }
  split; cbn [oc_tb oc_ti oc_sbatb].
  - split; cbn [oc_data oc_bat oc_sbat oc_sbatb]; [reflexivity|exact Hr| |].
    + eapply Forall_impl; [|exact Hsb]. cbn. intros x [X1 [-> |X2]]; [exact T5|]. apply (mi_moderate D HL). lia.
    + eapply Forall_impl; [|exact Hsb2]. cbn. intros x [X1 [-> |X2]]; (split; [exact X1|]); [exact Hbm|]. apply (mi_moderate D HL). lia.
  - intros _. exact Hdir2.
  - lia.
  - pose proof (unused_max (maxindex D + 1) u1). lia.
Qed.
Lemma ole_new_ok fuel : (length D + 4 <= fuel)%nat -> exists a, ole_new big par p = Ret a /\
  bounded (ole_provider big fuel) BUF_LIM (zlen D + 64) (length D + 4) a.
Proof.
  intros Hf. unfold ole_new. destruct load_ok as (r & -> & Hr). cbn [bind].
  destruct (setMinBufSize (bs_new match r with Some s => s | None => ole_dead end) 512) as [x| | |] eqn:Ex; try (vm_compute in Ex; discriminate Ex).
  cbn [bind]. eexists. split; [reflexivity|].
  assert (bs_src x = match r with Some s => s | None => ole_dead end /\ small_buf (bs_buf x)) as (E1 & E2).
  { vm_compute in Ex. injection Ex as <-. split; [reflexivity|]. unfold small_buf. vm_compute. discriminate. }
  destruct r as [s|].
  - destruct Hr as (Hd & H5). assert (-1 <= maxindex D) as Hmi.
    { unfold maxindex. rewrite Z.quot_div_nonneg by lia. pose proof (Z.div_le_lower_bound (zlen D) 512 1). lia. }
    assert ((meas D s < length D + 4)%nat) as Hm.
    { unfold meas. pose proof (unused_max (maxindex D + 1) (oc_used s)). destruct Hd as [_ _ Hti _].
      assert (4 * (maxindex D + 1) <= zlen D).
      { unfold maxindex. rewrite Z.quot_div_nonneg by lia. pose proof (Z.mul_div_le (zlen D) 512). lia. }
      unfold zlen in *. lia. }
    apply bounded_ok; [exact HB|exact HL|exact Hmi|cbn [ol_str]; rewrite E1; exact Hd|exact E2|cbn [ol_str]; rewrite E1; lia|cbn [ol_str]; rewrite E1; lia].
  - rewrite Nat.add_comm. cbn [plus bounded ole_provider pv_next]. unfold ole_next. cbn [ol_str]. rewrite E1.
    change (oc_tb ole_dead <? 0) with true. do 2 eexists. split; [reflexivity|exact I].
Qed.
End L.
