(** Well-formed OLE files: iteration and the constructor (C41). *)
From Verif Require Import Base StreamSpec P_Stream M_Kmp M_Buffered BufferedSpec P_Buffered ArchiveSpec P_BufInv.
From Verif Require Import B64Spec TextSpec M_Text T_Text M_Detect DetectSpec P_Detect OleSpec M_Ole P_Ole P_Ole2 P_Ole3 P_Ole4 P_OleV P_OleV2.

Lemma word_max d o : Forall byte d -> word d o <= INT32_MAX.
Proof.
  intros HB. unfold word, twos. change (256 ^ 4) with 4294967296. change (4294967296 / 2) with 2147483648. unfold INT32_MAX.
  assert (HF : Forall byte (slice d o 4)) by (apply Forall_slice; exact HB).
  pose proof (zlen_slice_le d o 4) as HL. set (l := slice d o 4) in *. clearbody l.
  assert (le_value l < 4294967296).
  { destruct l as [|a [|b [|c [|e [|f l]]]]]; try (exfalso; rewrite !zlen_cons in HL; pose proof (zlen_nonneg l); lia);
    repeat match goal with H : Forall _ (_ :: _) |- _ => inversion H; clear H; subst end; unfold byte in *; cbn [le_value]; lia. }
  destruct (Z.ltb_spec (le_value l) 2147483648); lia.
Qed.
Lemma NoDup_remove_mid {A} (a b c : list A) : NoDup (a ++ b ++ c) -> NoDup (a ++ c).
Proof. induction b as [|x b IH]; [auto|]. intros H. apply IH. cbn [app] in H. apply NoDup_remove_1 in H. exact H. Qed.
Lemma firstn_firstn_app {A} n (a b : list A) : firstn n (firstn n a ++ b) = firstn n (a ++ b).
Proof.
  revert a. induction n as [|n IH]; intros a; [reflexivity|]. destruct a as [|x a]; [reflexivity|]. cbn [firstn app]. f_equal. apply IH.
Qed.
Lemma new_buf s : exists x, setMinBufSize (A := Z) (bs_new s) 512 = Ret x /\ bs_src x = (s : ocore) /\ small_buf (bs_buf x).
Proof.
  destruct (setMinBufSize (A := Z) (bs_new s) 512) as [x| | |] eqn:Ex; try (vm_compute in Ex; discriminate Ex).
  exists x. vm_compute in Ex. injection Ex as <-. split; [reflexivity|]. split; [reflexivity|]. unfold small_buf. vm_compute. discriminate.
Qed.
Section V.
Variables (big : bool) (D xb bt dirs0 sb ms : list Z) (l0 : list member) (B0 S0 : list Z).
Hypothesis HF : ole_file D xb bt dirs0 sb ms l0 B0 S0.
Hypothesis HL : zlen D <= INT32_MAX.
Hypothesis Hsmall : Forall (fun x => x <= zlen D / 512 - 2) S0.
(** no extra table sector is the last sector *)
Hypothesis Hlast : Forall (fun x => 512 * (x + 2) < zlen D) xb.
Notation mi := (maxindex D).
Notation nb := (zlen bt).
Notation lst := (lst D bt sb ms).

Lemma lists_ok fuel : forall l a dl B S, lst (bs_src (ol_str a)) dl l B S -> small_buf (bs_buf (ol_str a)) ->
  i_mtime (ol_inf a) = 0 -> i_type (ol_inf a) = 0 -> ol_st a = Ok -> (todo (bs_src (ol_str a)) dl < fuel)%nat ->
  lists (ole_provider big fuel) BUF_LIM l a.
Proof.
  induction l as [|m l IH]; intros a dl B S HS Hsm Hmt Hty Hst Hf; cbn [lists_end ole_provider pv_next pv_entry pv_status].
  - unfold ole_next. cbv zeta. destruct (Z.ltb_spec (oc_tb (bs_src (ol_str a))) 0); [do 2 eexists; reflexivity|].
    destruct (ole_entries_val big D xb bt dirs0 sb ms l0 B0 S0 HF HL Hsmall fuel _ (ol_inf a) _ _ _ _ HS Hf Hmt Hty) as (s' & inf' & b & -> & _ & _ & ->).
    cbn [bind]. do 2 eexists; reflexivity.
  - unfold ole_next. cbv zeta. destruct (Z.ltb_spec (oc_tb (bs_src (ol_str a))) 0) as [Hneg|_].
    { destruct HS as [_ _ ((Htb & _) & _) _ _ _ _ _ _ _]. lia. }
    destruct (ole_entries_val big D xb bt dirs0 sb ms l0 B0 S0 HF HL Hsmall fuel _ (ol_inf a) _ _ _ _ HS Hf Hmt Hty) as (s' & inf' & b & -> & Hm1 & Hm2 & -> & o & dl1 & bb & B1 & sm & S1 & Q).
    destruct Q as (Q1 & Q2 & Q3 & Q4 & Q5 & Q6 & Q7 & Q8 & Q9 & Q10 & Q11 & Q12 & Q13 & Q14 & Q15 & Q16).
    cbn [bind]. eexists. split; [rewrite Q1; reflexivity|]. split; [exact Hst|]. intros h Hh.
    set (data := m_data m) in *.
    unfold ole_entry. cbn [ol_str ol_inf ol_st]. match goal with |- context [run _ ?x h] => set (x0 := x) end.
    set (U := fun x => In x (oc_used s') \/ In x bb). set (US := fun x => In x (oc_usedS s') \/ In x sm).
    assert (Q8' := Q8). destruct Q8' as [L1 L2 L3 L4 L5 L6 L7 L8 L9 L10]. destruct L1 as [A1 A2 A3 A4].
    assert (Q4' := Q4). destruct Q4' as [_ _ (Y1 & Y2) _ Y3]. fold data in Y1, Y2, Y3.
    pose proof (mi0 D xb bt dirs0 sb ms l0 B0 S0 HF) as Hmi0.
    assert (vSR D bt sb ms data U US (bs_src x0) 0) as HV.
    { unfold x0. cbn [bs_src]. split; cbn [oc_done oc_msize oc_used oc_usedS].
      - split; cbn [oc_bs oc_off oc_done oc_msize oc_db].
        + eapply same_ostat; [|exact A1]. unfold same_stat; cbn; tauto.
        + destruct (_ <? _); auto.
        + destruct (_ <? _); lia.
        + rewrite Q6. lia.
        + intros _. rewrite Q5, Q6. destruct (zlen data <? 4096).
          * destruct Y3 as (_ & Hc & Hlen & _). destruct sm as [|x sm]; [exfalso; unfold blocks in Hlen; pose proof (Z.div_le_lower_bound (zlen data + 64 - 1) 64 1); change (zlen (@nil Z)) with 0 in Hlen; lia|].
            destruct Hc as (-> & _). inversion Q16; subst. split; [lia|]. intros; discriminate.
          * destruct Y3 as (_ & Hc & Hlen & _). destruct bb as [|x bb]; [exfalso; unfold blocks in Hlen; pose proof (Z.div_le_lower_bound (zlen data + 512 - 1) 512 1); change (zlen (@nil Z)) with 0 in Hlen; lia|].
            destruct Hc as (-> & _). inversion Q13 as [|? ? (Hx & _) _]; subst. pose proof (mi_ge D x Hx). destruct Hx; lia.
      - exact L2.
      - exact Q6.
      - reflexivity.
      - split; apply inset_false; apply L9.
      - unfold U, US. split; auto.
      - intros _. unfold nx, okb, usedX, bk. cbn [oc_bs oc_off oc_db oc_usedS oc_used]. rewrite Q5, Q6. destruct (zlen data <? 4096).
        + destruct Y3 as (_ & Hc & Hlen & Hdata). exists sm. change (64 =? 64) with true. cbv iota. change (0 - 0) with 0. rewrite !Z.sub_0_r, slice_all.
          split; [exact Hc|]. split; [intros ->; unfold blocks in Hlen; pose proof (Z.div_le_lower_bound (zlen data + 64 - 1) 64 1); change (zlen (@nil Z)) with 0 in Hlen; lia|].
          split; [exact Q16|]. split; [exact Q15|]. split; [intros x Hx; apply inset_false, Q10; destruct sm; [destruct Hx|right; exact Hx]|].
          split; [intros x Hx; right; exact Hx|]. split; [lia|]. split; [exact Hlen|exact Hdata].
        + destruct Y3 as (_ & Hc & Hlen & Hdata). exists bb. change (512 =? 64) with false. cbv iota. change (0 - 0) with 0. rewrite !Z.sub_0_r, slice_all.
          split; [exact Hc|]. split; [intros ->; unfold blocks in Hlen; pose proof (Z.div_le_lower_bound (zlen data + 512 - 1) 512 1); change (zlen (@nil Z)) with 0 in Hlen; lia|].
          split; [exact Q13|]. split; [exact Q14|]. split; [intros x Hx; apply inset_false, Q9; destruct bb; [destruct Hx|right; exact Hx]|].
          split; [intros x Hx; right; exact Hx|]. split; [lia|]. split; [exact Hlen|exact Hdata]. }
    pose proof (HBv D xb bt dirs0 sb ms l0 B0 S0 HF) as HB. pose proof (Hbatv D xb bt dirs0 sb ms l0 B0 S0 HF) as Hbat.
    pose proof (Hsbv D xb bt dirs0 sb ms l0 B0 S0 HF) as Hsb. pose proof (Hmsv D xb bt dirs0 sb ms l0 B0 S0 HF) as Hms. assert (-2 <= mi) as Hmi2 by lia.
    assert (bs_R data False (vSR D bt sb ms data U US) (fun _ => True) x0 view0) as HR.
    { apply bs_init_R. unfold bs_init_ok. split; [reflexivity|]. split; [reflexivity|]. split; [exact Hsm|]. split; [reflexivity|]. split; [exact HV|].
      split; [reflexivity|]. split; [reflexivity|]. right; right. unfold x0. cbn [bs_size]. exact Q6. }
    assert (Forall (any_call BUF_LIM) h) as Hany.
    { assert (zlen data <= INT32_MAX) as Hd32.
      { rewrite <- Y1. apply word_max; exact HB. }
      eapply Forall_impl; [|exact Hh]. intros [mn mx|n|p]; cbn [call_ok any_call]; unfold INT32_MIN, INT32_MAX, INT64_MAX in *; lia. }
    destruct (any_run _ _ _ _ _ (vole_SrcOK big D bt sb ms HB HL Hbat Hsb Hms Hmi2 data U US) h x0 view0 HR Hany) as (x1 & obs & E1 & Hacc). rewrite E1. cbn [bind].
    do 2 eexists. split; [reflexivity|]. split; [exact Hacc|].
    assert (binv (vJ D bt sb ms data U US (oc_tb s') (oc_ti s')) x1) as (((c & HV1) & J2 & J3) & Hsm1).
    { eapply run_inv; [| |exact Hany|exact E1].
      - intros s0 sp s1 n d e. apply vJ_fill; assumption.
      - split; [|exact Hsm]. split; [exists 0; exact HV|]. split; reflexivity. }
    destruct HV1 as [V1 V2 V3 V4 V5 V6 V7].
    apply IH with (dl := dl1) (B := B1) (S := S1); cbn [ol_str ol_inf ol_st]; [|exact Hsm1|rewrite <- Q1; exact Hm1|rewrite <- Q1; exact Hm2|exact Hst|unfold todo in *; rewrite J3; lia].
    split; rewrite ?J2, ?J3; try assumption.
    + split; rewrite ?J2, ?J3; [apply (od_stat D _ V1)|exact A2|exact A3|]. destruct V2 as (_ & _ & ->). destruct L2 as (_ & _ & <-). exact A4.
    + destruct L8 as (U1 & U2). split; intros x Hx Hin; [apply V6 in Hin as [Hin|Hin]|apply V6 in Hin as [Hin|Hin]].
      * exact (U1 x Hx Hin).
      * exact (Q11 x Hin Hx).
      * exact (U2 x Hx Hin).
      * exact (Q12 x Hin Hx).
    + split; apply inset_false; apply V5.
Qed.

(** ** the constructor *)
Context {P : Type}.
Variables (par : ops P Z) (lim : Z) (p : P).
Hypothesis Hlim : zlen D <= lim /\ 10000000 <= lim.
Hypothesis HC : Conforms par D False lim p view0.
Hypothesis Hsize : forall h q obs, run par p h = Ret (q, obs) -> o_size par q = zlen D.

Lemma file_moderate x : in_file D x -> moderate x.
Proof. intros (X1 & X2). unfold moderate, INT32_MAX in *. lia. Qed.
Lemma bats_val : 512 <= zlen D -> forall n i max, (i + n <= 109)%nat -> 0 <= max -> 512 * (max + 2) <= zlen D ->
  Forall (in_file D) (map (h_bat D) (map Z.of_nat (seq i n))) ->
  exists m, ole_bats big n (slice D 0 512) (Z.of_nat i) max = Ret (Some (map (h_bat D) (map Z.of_nat (seq i n)), m)) /\ 0 <= m /\ 512 * (m + 2) <= zlen D.
Proof.
  intros H5. pose proof (HBv D xb bt dirs0 sb ms l0 B0 S0 HF) as HB. induction n as [|n IH]; intros i max Hi H0 Hm HFm; cbn [ole_bats]; [eexists; split; [reflexivity|lia]|].
  assert (readInt32 big (slice D 0 512) 76 512 (4 * Z.of_nat i) = Ret (Some (h_bat D (Z.of_nat i)))) as ->.
  { unfold readInt32. destruct (Z.ltb_spec (4 * Z.of_nat i) 0); [lia|]. rewrite chk32_ok by (unfold INT32_MIN, INT32_MAX; lia). cbn [bind].
    destruct (Z.leb_spec 512 (4 * Z.of_nat i + 4)); [lia|]. rewrite le32_ok; [|apply Forall_slice; exact HB|lia|rewrite zlen_slice; lia]. cbn [bind].
    rewrite word_hdr by lia. reflexivity. }
  cbn [bind]. cbn [seq map] in HFm. inversion HFm as [|? ? (Hb1 & Hb2) HFm']; subst.
  replace (Z.of_nat i + 1) with (Z.of_nat (S i)) by lia.
  destruct (IH (S i) (if max <? h_bat D (Z.of_nat i) then h_bat D (Z.of_nat i) else max)) as (m & -> & Hm2);
    [lia|destruct (Z.ltb_spec max (h_bat D (Z.of_nat i))); lia|destruct (Z.ltb_spec max (h_bat D (Z.of_nat i))); lia|exact HFm'|].
  cbn [bind]. exists m. split; [|exact Hm2]. reflexivity.
Qed.
(** one extra table sector, which is not the last sector of the file *)
Lemma xblock_val nBat x : in_file D x -> 0 <= nBat ->
  forall n i bat, (i + n <= 127)%nat -> zlen bat <= nBat ->
  ole_xbat_block big n D nBat (512 + 512 * x) (Z.of_nat i) bat =
    Ret (Some (firstn (Z.to_nat nBat) (bat ++ map (sec_word D x) (map Z.of_nat (seq i n))))).
Proof.
  intros (Hx1 & Hx2) Hnb. pose proof (HBv D xb bt dirs0 sb ms l0 B0 S0 HF) as HB. unfold INT32_MAX in HL.
  induction n as [|n IH]; intros i bat Hi Hl; cbn [ole_xbat_block seq map].
  { rewrite app_nil_r, firstn_all2; [reflexivity|unfold zlen in *; lia]. }
  destruct (Z.ltb_spec (zlen bat) nBat) as [Hlt|Hge].
  2:{ f_equal. f_equal. rewrite firstn_app. unfold zlen in *. replace (Z.to_nat nBat - length bat)%nat with O by lia.
      cbn [firstn]. rewrite app_nil_r, firstn_all2 by lia. reflexivity. }
  rewrite chk32_ok by (unfold INT32_MIN, INT32_MAX; lia). cbn [bind].
  assert (readInt32 big D 0 (zlen D) (4 * Z.of_nat i + (512 + 512 * x)) = Ret (Some (sec_word D x (Z.of_nat i)))) as ->.
  { unfold readInt32. destruct (Z.ltb_spec (4 * Z.of_nat i + (512 + 512 * x)) 0); [lia|]. rewrite chk32_ok by (unfold INT32_MIN, INT32_MAX; lia). cbn [bind].
    destruct (Z.leb_spec (zlen D) (4 * Z.of_nat i + (512 + 512 * x) + 4)); [lia|]. rewrite le32_ok by (assumption || lia). cbn [bind]. unfold sec_word. do 3 f_equal. lia. }
  cbn [bind]. replace (Z.of_nat i + 1) with (Z.of_nat (S i)) by lia. rewrite IH; [|lia|rewrite zlen_app, zlen_cons; change (zlen (@nil Z)) with 0; lia].
  rewrite <- app_assoc. reflexivity.
Qed.
Lemma xbat_val nBat : 0 <= nBat -> forall l x bat, chain (fun x => sec_word D x 127) x l -> Forall (fun x => in_file D x /\ 512 * (x + 2) < zlen D) l -> zlen bat <= nBat ->
  ole_xbat big (length l) D nBat (512 + 512 * x) bat =
    Ret (Some (firstn (Z.to_nat nBat) (bat ++ concat (map (fun x => map (sec_word D x) (upto 127)) l)))).
Proof.
  intros Hnb. pose proof (HBv D xb bt dirs0 sb ms l0 B0 S0 HF) as HB. induction l as [|y l IH]; intros x bat Hc Hl Hz; cbn [length ole_xbat map concat].
  { rewrite app_nil_r, firstn_all2; [reflexivity|unfold zlen in *; lia]. }
  destruct Hc as (-> & Hc). inversion Hl as [|? ? (Hy & Hy3) Hl']; subst.
  pose proof (xblock_val nBat y Hy Hnb 127 0 bat ltac:(lia) Hz) as Exb. change (Z.of_nat 0) with 0 in Exb. fold (upto 127) in Exb. rewrite Exb. cbn [bind]. destruct Hy as (Hy1 & Hy2). unfold INT32_MAX in HL.
  rewrite chk32_ok by (unfold INT32_MIN, INT32_MAX; lia). cbn [bind].
  assert (readInt32 big D 0 (zlen D) (508 + (512 + 512 * y)) = Ret (Some (sec_word D y 127))) as ->.
  { unfold readInt32. destruct (Z.ltb_spec (508 + (512 + 512 * y)) 0); [lia|]. rewrite chk32_ok by (unfold INT32_MIN, INT32_MAX; lia). cbn [bind].
    destruct (Z.leb_spec (zlen D) (508 + (512 + 512 * y) + 4)); [lia|]. rewrite le32_ok by (assumption || lia). cbn [bind]. unfold sec_word. do 3 f_equal. lia. }
  cbn [bind]. assert (moderate (sec_word D y 127)) as Hm.
  { destruct l as [|z l]; cbn [chain] in Hc; [rewrite Hc; unfold moderate; lia|]. destruct Hc as (-> & _). inversion Hl' as [|? ? (Hq & _) _]; subst. apply file_moderate. exact Hq. }
  unfold moderate in Hm. rewrite (chk32_ok (512 * sec_word D y 127)) by (unfold INT32_MIN, INT32_MAX; lia). cbn [bind].
  rewrite (chk32_ok (512 + 512 * sec_word D y 127)) by (unfold INT32_MIN, INT32_MAX; lia). cbn [bind].
  rewrite (IH (sec_word D y 127)); [|exact Hc|exact Hl'|unfold zlen in *; rewrite firstn_length; lia].
  do 2 f_equal. rewrite firstn_firstn_app, app_assoc. reflexivity.
Qed.
Definition RS (q : P) (v : view) : Prop := Conforms par D False lim q v /\ forall h q' obs, run par q h = Ret (q', obs) -> o_size par q' = zlen D.
Lemma RS_step q v c q' ob : RS q v -> call_ok D lim c -> (forall n, c <> Skip n) -> exec par q c = Ret (q', ob) ->
  RS q' (next_view v c ob) /\ o_size par q' = zlen D /\ good_obs D False v c ob.
Proof.
  intros (H1 & H2) Hc Hns E. destruct (sim_step _ _ _ _ _ (conforms_sim par D False lim) q v c H1 Hc) as (q1 & ob1 & E1 & Hob).
  rewrite E in E1. injection E1 as <- <-. destruct Hob as [(G & HR)|(_ & F)]; [|destruct c as [mn mx|n|r]; [tauto|destruct (Hns n eq_refl)|tauto]]. assert (G' := G). destruct G' as (G1 & _).
  split; [split; [exact HR|]|split; [|exact G]].
  - intros h q2 obs Hr. apply (H2 (c :: h) q2 (ob :: obs)). cbn [run]. rewrite E. cbn [bind]. rewrite (is_error_false _ G1), Hr. reflexivity.
  - apply (H2 [c] q' [ob]). cbn [run]. rewrite E. cbn [bind]. rewrite (is_error_false _ G1). reflexivity.
Qed.
Lemma RS_read q v n : RS q v -> v_pos v = 0 -> 1 <= n <= zlen D -> exists q' v', o_read par q n n = Ret (q', n, slice D 0 n) /\ RS q' v' /\ v_lo v' = 0 /\ o_size par q' = zlen D.
Proof.
  intros HR Hv Hn. assert (call_ok D lim (Read n n)) as Hc by (cbn; lia).
  destruct (sim_step _ _ _ _ _ (conforms_sim par D False lim) q v (Read n n) (proj1 HR) Hc) as (q' & ob & E & _).
  destruct (RS_step q v _ q' ob HR Hc ltac:(discriminate) E) as (HR' & Hs & G). cbn [exec] in E. destruct (o_read par q n n) as [[[q1 k] d]| | |]; try discriminate E. cbn [bind] in E. injection E as <- <-.
  destruct G as (_ & _ & _ & _ & G5). cbn [observe ob_ret ob_data] in *. cbn [next_view observe ob_ret] in HR'. rewrite Hv in *. change (0 + k) with k in *. change (0 + n) with n in *.
  destruct G5 as [(Q1 & Q2 & Q3 & Q4 & Q5)|(Q1 & Q2 & Q3 & Q4)]; [|lia]. assert (k = n) as -> by lia.
  do 2 eexists. split; [rewrite Q2; reflexivity|]. split; [exact HR'|]. split; [|exact Hs]. destruct (Z.ltb_spec 0 n); [reflexivity|lia].
Qed.
Lemma RS_reset q v : RS q v -> v_lo v = 0 -> exists q' r v', o_reset par q 0 = Ret (q', r) /\ RS q' v' /\ v_pos v' = 0 /\ o_size par q' = zlen D.
Proof.
  intros HR Hv. assert (call_ok D lim (Reset 0)) as Hc by (cbn; pose proof (zlen_nonneg D); lia).
  pose proof (sim_view _ _ _ _ _ (conforms_sim par D False lim) q v (proj1 HR)) as Hvo. unfold view_ok in Hvo.
  destruct (sim_step _ _ _ _ _ (conforms_sim par D False lim) q v (Reset 0) (proj1 HR) Hc) as (q' & ob & E & _).
  destruct (RS_step q v _ q' ob HR Hc ltac:(discriminate) E) as (HR' & Hs & G). cbn [exec] in E. destruct (o_reset par q 0) as [[q1 k]| | |]; try discriminate E. cbn [bind] in E. injection E as <- <-.
  do 3 eexists. split; [reflexivity|]. split; [exact HR'|]. split; [|exact Hs]. cbn [next_view]. destruct (Z.leb_spec (v_lo v) 0); [|lia]. destruct (Z.leb_spec 0 (v_hi v)); [reflexivity|lia].
Qed.
Lemma load_val : exists u b0, ole_load big par p = Ret (Some (mkO D bt sb ms [] u (h_dir D) 0 b0 0 0 0 0 0)) /\
  (forall x, In x u -> In x (sb ++ ms)).
Proof.
  unfold ole_load. assert (HF' := HF). destruct HF' as [Hmag _ Hk (X1 & X2 & X3 & X4 & X5) (N2 & N3) Htb Hb Hdir Hsbc Hmsc _ _ (Hnd & _) _]. pose proof (nb_eq D xb bt dirs0 sb ms l0 B0 S0 HF) as Enb. unfold INT32_MAX in HL. pose proof (zlen_nonneg D) as H0.
  destruct (dir0 D xb bt dirs0 sb ms l0 B0 S0 HF) as (x & rr & Edirs & Ex & _ & ((Hx1 & Hx2) & Hx3)).
  pose proof (HBv D xb bt dirs0 sb ms l0 B0 S0 HF) as HB. 
  assert (1024 <= zlen D) as H5 by lia.
  destruct (RS_read p view0 512 (conj HC Hsize)) as (p1 & v1 & E1 & R1 & Hlo1 & Hs1); [reflexivity|lia|].
  rewrite E1. cbn [bind]. change (512 =? 512) with true. cbn [negb].
  destruct (RS_reset p1 v1 R1 Hlo1) as (p2 & r2 & v2 & E2 & R2 & Hp2 & Hs2). rewrite E2. cbn [bind].
  assert (HBh : Forall byte (slice D 0 512)) by (apply Forall_slice; exact HB).
  assert (HLh : zlen (slice D 0 512) = 512) by (apply zlen_slice; lia).
  rewrite !le32_ok by (assumption || lia). cbn [bind]. rewrite !word_hdr by lia.
  destruct (ole_check_ok (slice D 0 512)) as (ok & -> & Hok). cbn [bind].
  assert (ok = true) as ->.
  { apply Hok. unfold is_ole in *. destruct Hmag as (M1 & M2). split; [|rewrite HLh; lia]. apply starts_slice in M1 as (_ & M1). apply starts_slice. rewrite HLh.
    split; [vm_compute; discriminate|]. rewrite slice_slice by (vm_compute; discriminate || lia). exact M1. }
  fold (h_nbat D) (h_dir D) (h_sbat D) (h_xbat D) (h_nxbat D). cbn [negb orb]. rewrite X1.
  assert (zlen xb <= 4194304) as HX.
  { assert (incl xb (map Z.of_nat (seq 0 (Z.to_nat 4194304)))) as Hinc.
    { intros z Hz. rewrite Forall_forall in X5. destruct (X5 z Hz) as (Z1 & Z2). apply in_map_iff. exists (Z.to_nat z). split; [lia|]. apply in_seq. lia. }
    pose proof (NoDup_incl_length X4 Hinc) as Hle. rewrite map_length, seq_length in Hle. unfold zlen. lia. }
  pose proof (zlen_nonneg xb) as HX0.
  destruct (Z.ltb_spec (h_nbat D) 0); [lia|].
  rewrite (chk32_ok (128 * zlen xb)) by (unfold INT32_MIN, INT32_MAX; lia). cbn [bind].
  rewrite (chk32_ok (128 * zlen xb + 109)) by (unfold INT32_MIN, INT32_MAX; lia). cbn [bind].
  destruct (Z.ltb_spec (128 * zlen xb + 109) (h_nbat D)); [lia|]. destruct (Z.ltb_spec (zlen xb) 0); [lia|]. cbn [orb].
  set (n1 := Z.to_nat (Z.min 109 (h_nbat D))). set (hb := map (h_bat D) (map Z.of_nat (seq 0 n1))).
  assert (hb = firstn (Z.to_nat (h_nbat D)) (map (h_bat D) (upto 109))) as Ehb.
  { unfold hb, n1, upto. destruct (Z.le_ge_cases (h_nbat D) 109) as [Q|Q].
    - rewrite Z.min_r by lia. rewrite !firstn_map. f_equal. f_equal. replace 109%nat with (Z.to_nat (h_nbat D) + (109 - Z.to_nat (h_nbat D)))%nat by lia.
      rewrite seq_app, firstn_app, seq_length, Nat.sub_diag. cbn [firstn]. rewrite app_nil_r, firstn_all2; [reflexivity|rewrite seq_length; lia].
    - rewrite Z.min_l by lia. rewrite firstn_all2; [reflexivity|]. rewrite !map_length, seq_length. lia. }
  assert (zlen hb <= h_nbat D) as Hhb by (rewrite Ehb; unfold zlen; rewrite firstn_length; lia).
  assert (bt = firstn (Z.to_nat (h_nbat D)) (hb ++ concat (map (fun x => map (sec_word D x) (upto 127)) xb))) as Ebt.
  { rewrite Htb, Ehb, firstn_firstn_app. reflexivity. }
  assert (Forall (in_file D) hb) as Hhbf.
  { apply Forall_forall. intros z Hz. rewrite Forall_forall in Hb. apply Hb. rewrite Ebt, firstn_app, firstn_all2 by (unfold zlen in Hhb; lia). apply in_app_iff. left; exact Hz. }
  destruct (bats_val ltac:(lia) n1 0%nat 0) as (mx & Emx & Hmx); [unfold n1; lia|lia|lia|exact Hhbf|].
  change (Z.of_nat 0) with 0 in Emx. rewrite Emx. fold hb. cbn [bind]. cbv zeta. rewrite <- Enb in *.
  rewrite (chk32_ok (128 * (nb - 1))) by (unfold INT32_MIN, INT32_MAX; lia). cbn [bind].
  set (m1 := if mx <? h_dir D then h_dir D else mx). set (m2 := if m1 <? 128 * (nb - 1) then 128 * (nb - 1) else m1).
  assert (0 <= m2 /\ 512 * (m2 + 2) <= zlen D) as Hm2 by (unfold m2, m1; rewrite Ex; destruct (Z.ltb_spec mx x); zdest; lia).
  rewrite (chk32_ok (m2 + 2)) by (unfold INT32_MIN, INT32_MAX; lia). cbn [bind].
  rewrite (chk32_ok ((m2 + 2) * 512)) by (unfold INT32_MIN, INT32_MAX; lia). cbn [bind].
  rewrite Hs2. destruct (Z.leb_spec 0 (zlen D)); [|lia]. destruct (Z.ltb_spec (zlen D) ((m2 + 2) * 512)); [lia|]. cbn [andb].
  destruct (Z.ltb_spec 0 (zlen D)); [|lia]. rewrite wrap32_id by (unfold INT32_MIN, INT32_MAX; lia).
  destruct (RS_read p2 v2 (zlen D) R2 Hp2) as (p3 & v3 & E3 & R3 & Hlo3 & Hs3); [lia|].
  rewrite E3. cbn [bind]. destruct (RS_reset p3 v3 R3 Hlo3) as (p4 & r4 & v4 & E4 & R4 & _ & Hs4). rewrite E4. cbn [bind].
  rewrite Hs4, Z.eqb_refl, slice_all. cbn [negb]. unfold moderate in X2.
  rewrite (chk32_ok (512 * h_xbat D)) by (unfold INT32_MIN, INT32_MAX; lia). cbn [bind].
  rewrite (chk32_ok (512 + 512 * h_xbat D)) by (unfold INT32_MIN, INT32_MAX; lia). cbn [bind].
  assert (ole_xbat big (Z.to_nat (zlen xb)) D nb (512 + 512 * h_xbat D) hb = Ret (Some bt)) as ->.
  { replace (Z.to_nat (zlen xb)) with (length xb) by (unfold zlen; lia). replace (Ret (Some bt)) with (Ret (Some (firstn (Z.to_nat nb) (hb ++ concat (map (fun x => map (sec_word D x) (upto 127)) xb))))) by (rewrite <- Ebt; reflexivity).
    assert (forall q, Forall (fun x => 512 * (x + 2) < zlen D) q -> (q <> [] -> chain (fun x => sec_word D x 127) (h_xbat D) q) -> Forall (fun x => 0 <= x /\ 512 * (x + 2) <= zlen D) q ->
      ole_xbat big (length q) D nb (512 + 512 * h_xbat D) hb = Ret (Some (firstn (Z.to_nat nb) (hb ++ concat (map (fun x => map (sec_word D x) (upto 127)) q))))) as Hq; [|apply (Hq xb Hlast X3 X5)].
    clear - HF HL Hhb.
    pose proof (zlen_nonneg bt) as H0. intros [|y q] Hlast X3 X5.
    { cbn [length ole_xbat map concat]. rewrite app_nil_r, firstn_all2; [reflexivity|unfold zlen in *; lia]. }
    rewrite (xbat_val nb H0 (y :: q) (h_xbat D) hb); [reflexivity|apply X3; discriminate| |exact Hhb].
    rewrite Forall_forall in *. intros z Hz. split; [apply X5; exact Hz|apply Hlast; exact Hz]. }
  cbn [bind].
  destruct (ranges D xb bt dirs0 sb ms l0 B0 S0 HF) as (_ & R2' & R3' & _).
  pose proof (mi0 D xb bt dirs0 sb ms l0 B0 S0 HF) as Hmi0. assert (-2 <= mi) as Hmi2 by lia. pose proof (Hbatv D xb bt dirs0 sb ms l0 B0 S0 HF) as Hbat.
  assert (NoDup sb /\ NoDup ms /\ forall y, In y ms -> ~ In y sb) as (D1 & D2 & D3).
  { clear - Hnd. apply NoDup_app_remove_l in Hnd. rewrite app_assoc in Hnd. apply NoDup_app_remove_r in Hnd.
    split; [apply NoDup_app_remove_r in Hnd; exact Hnd|]. split; [apply NoDup_app_remove_l in Hnd; exact Hnd|].
    intros y Hy Hin. apply in_split in Hin as (a & b & ->). rewrite <- app_assoc in Hnd. cbn in Hnd. apply NoDup_remove_2 in Hnd. apply Hnd. rewrite !in_app_iff. auto. }
  destruct (collect_val big D bt HB HL Hbat Hmi2 1000 [] (h_sbat D) sb) as (u1 & -> & Hu1); [apply Hsbc|exact R2'|exact D1|reflexivity|reflexivity|unfold zlen in Hsbc; lia|].
  cbn [bind].
  rewrite (chk32_ok (1 + h_dir D)) by (unfold INT32_MIN, INT32_MAX; lia). cbn [bind].
  rewrite (chk32_ok ((1 + h_dir D) * 512)) by (unfold INT32_MIN, INT32_MAX; lia). cbn [bind].
  rewrite (chk32_ok ((1 + h_dir D) * 512 + 116)) by (unfold INT32_MIN, INT32_MAX; lia). cbn [bind].
  assert (readInt32 big D 0 (zlen D) ((1 + h_dir D) * 512 + 116) = Ret (Some (sec_word D (h_dir D) 29))) as ->.
  { unfold readInt32. destruct (Z.ltb_spec ((1 + h_dir D) * 512 + 116) 0); [lia|]. rewrite chk32_ok by (unfold INT32_MIN, INT32_MAX; lia). cbn [bind].
    destruct (Z.leb_spec (zlen D) ((1 + h_dir D) * 512 + 116 + 4)); [lia|]. rewrite le32_ok by (assumption || lia). cbn [bind]. unfold sec_word. do 3 f_equal. lia. }
  cbn [bind].
  assert (forall y, In y u1 -> In y sb) as Hu1' by (intros y Hy; destruct (Hu1 y Hy) as [[]|Hy2]; clear - Hy2; destruct sb; [destruct Hy2|right; exact Hy2]).
  destruct (collect_val big D bt HB HL Hbat Hmi2 16000 u1 (sec_word D (h_dir D) 29) ms) as (u2 & -> & Hu2); [apply Hmsc|exact R3'|exact D2| | |apply Nat2Z.inj_le; replace (Z.of_nat 16000) with 16000 by (vm_compute; reflexivity); apply Hmsc|].
  { intros y Hy. apply inset_false. intros Hin. apply Hu1' in Hin. apply (D3 y); [|exact Hin]. clear - Hy. destruct ms; [destruct Hy|right; exact Hy]. }
  { apply inset_false. intros Hin. apply Hu1' in Hin. rewrite Forall_forall in R2'. destruct (R2' _ Hin) as ((Hq & _) & _). lia. }
  cbn [bind]. do 2 eexists. split; [reflexivity|].
  intros y Hy. apply in_app_iff. destruct (Hu2 y Hy) as [Hq|Hq]; [left; auto|right]. clear - Hq. destruct ms; [destruct Hq|right; exact Hq].
Qed.
Lemma ole_new_val fuel : (length D <= fuel)%nat -> exists a, ole_new big par p = Ret a /\ lists (ole_provider big fuel) BUF_LIM l0 a.
Proof.
  intros Hf. unfold ole_new. destruct load_val as (u & b0 & E & Hu).
  rewrite E. cbn [bind].
  destruct (new_buf (mkO D bt sb ms [] u (h_dir D) 0 b0 0 0 0 0 0)) as (x & Ex & E1 & E2). rewrite Ex.
  cbn [bind]. eexists. split; [reflexivity|].
  destruct (dir0 D xb bt dirs0 sb ms l0 B0 S0 HF) as (y & rr & Edirs & Ey & Hch & Hy).
  destruct (ranges D xb bt dirs0 sb ms l0 B0 S0 HF) as (R1 & R2 & R3 & R4).
  assert (HF' := HF). destruct HF' as [_ _ _ _ _ _ _ _ _ _ _ Hsr (N1 & N2) Hst].
  assert (forall q, Forall (okd D bt) q -> Forall moderate q) as Hmod by (intros q Hq; eapply Forall_impl; [|exact Hq]; intros z (Hz & _); apply file_moderate; exact Hz).
  assert (NoDup ms) as Nms.
  { clear - N1. apply NoDup_app_remove_l in N1. apply NoDup_app_remove_l in N1. apply NoDup_app_remove_r in N1. exact N1. }
  pose proof (mi0 D xb bt dirs0 sb ms l0 B0 S0 HF) as Hmi0.
  assert (odir D (mkO D bt sb ms [] u (h_dir D) 0 b0 0 0 0 0 0)) as Hd.
  { split; cbn [oc_tb oc_ti oc_sbatb].
    - split; cbn [oc_data oc_bat oc_sbat oc_sbatb]; [reflexivity| |apply Hmod; exact R2|].
      + eapply Forall_impl; [|exact (Hbatv D xb bt dirs0 sb ms l0 B0 S0 HF)]. apply file_moderate.
      + eapply Forall_impl; [|exact R3]. intros z (Hz & _). split; [apply Hz|apply file_moderate; exact Hz].
    - intros _. rewrite Ey. apply Hy.
    - lia.
    - assert (incl ms (map Z.of_nat (seq 0 (Z.to_nat (mi + 1))))) as Hinc.
      { intros z Hz. rewrite Forall_forall in R3. destruct (R3 z Hz) as (Hz2 & _). pose proof (mi_ge D z Hz2). destruct Hz2 as (Hz3 & _).
        apply in_map_iff. exists (Z.to_nat z). split; [lia|]. apply in_seq. lia. }
      pose proof (NoDup_incl_length Nms Hinc) as Hle. rewrite map_length, seq_length in Hle. unfold zlen. lia. }
  rewrite Edirs in N1, R1, Hst.
  apply (lists_ok fuel l0 _ rr B0 S0); cbn [ol_str ol_inf ol_st]; [|exact E2|reflexivity|reflexivity|reflexivity|].
  - rewrite E1. split; cbn [oc_tb oc_ti oc_used oc_usedS].
    + exact Hd.
    + unfold fixed. cbn. tauto.
    + rewrite Ey. exact Hy.
    + rewrite Ey. exact Hch.
    + apply Forall_app. split; [inversion R1; assumption|exact R4].
    + rewrite Forall_forall in *. intros z Hz. split; [apply Hsr; exact Hz|]. rewrite (mi_div D). apply Hsmall. exact Hz.
    + split; [|exact N2]. cbn [app] in N1. inversion N1 as [|? ? _ N3]; subst. clear - N3.
      apply NoDup_remove_mid in N3. apply NoDup_remove_mid in N3. exact N3.
    + split; [|intros z _ []]. intros z Hz Hin. apply Hu in Hin. cbn [app] in N1. inversion N1 as [|? ? _ N3]; subst. clear - N3 Hz Hin.
      rewrite (app_assoc sb) in N3. apply in_split in Hin as (a & b & Eab). rewrite Eab in N3.
      rewrite <- (app_assoc a), (app_assoc rr) in N3. cbn [app] in N3. apply NoDup_remove_2 in N3. apply N3. rewrite !in_app_iff in *. tauto.
    + split; [|intros []]. intros Hin. apply Hu in Hin. apply in_app_iff in Hin as [Hin|Hin].
      * rewrite Forall_forall in R2. destruct (R2 _ Hin) as ((? & _) & _). lia.
      * rewrite Forall_forall in R3. destruct (R3 _ Hin) as ((? & _) & _). lia.
    + rewrite Ey. exact Hst.
  - rewrite E1. unfold todo. cbn [oc_ti].
    assert ((512 * (length rr + 1) <= length D)%nat) as Hlen.
    { assert (NoDup (y :: rr)) as Nd by (cbn [app] in N1; apply (NoDup_app_remove_r (y :: rr) (sb ++ ms ++ B0)); exact N1).
      assert (incl (y :: rr) (map Z.of_nat (seq 0 (Z.to_nat (mi + 1))))) as Hinc.
      { intros z Hz. rewrite Forall_forall in R1. destruct (R1 z Hz) as (Hz2 & _). pose proof (mi_ge D z Hz2). destruct Hz2 as (Hz3 & _).
        apply in_map_iff. exists (Z.to_nat z). split; [lia|]. apply in_seq. lia. }
      pose proof (NoDup_incl_length Nd Hinc) as Hle. rewrite map_length, seq_length in Hle. cbn [length] in Hle.
      rewrite (mi_div D) in Hle. pose proof (Z.mul_div_le (zlen D) 512). unfold zlen in *. lia. }
    lia.
Qed.
End V.
