From Verif Require Import Base StreamSpec P_Stream M_Kmp M_Buffered BufferedSpec P_Buffered ArchiveSpec P_BufInv.
From Verif Require Import B64Spec TextSpec M_Text T_Text M_Detect DetectSpec P_Detect OleSpec M_Ole P_Ole P_Ole2.

Lemma ole_name_ok n : forall d o, 0 <= o -> o + 2 * Z.of_nat n <= zlen d -> exists r, ole_name n d o = Ret r.
Proof.
  induction n as [|n IH]; intros d o Ho Hl; cbn [ole_name]; [eauto|].
  destruct (rdc_ok d o) as (c & -> & _); [lia|]. destruct (rdc_ok d (o + 1)) as (h & -> & _); [lia|]. cbn [bind].
  destruct (IH d (o + 2)) as ((l & b) & ->); [lia|lia|]. cbn [bind]. eauto.
Qed.

Section D.
Variables (big : bool) (D : list Z).
Hypothesis HB : Forall byte D.
Hypothesis HL : zlen D <= INT32_MAX.
Notation mi := (maxindex D).

Definition entry_state (s : ocore) db ss : ocore :=
  mkO (oc_data s) (oc_bat s) (oc_sbat s) (oc_sbatb s) (oc_usedS s) (oc_used s) (oc_tb s) (oc_ti s) db ss (oc_done s) (oc_off s) (oc_bs s) (oc_msize s).
Lemma readEntryInfo_ok s inf : oc_data s = D -> 0 <= oc_tb s -> 512 * (oc_tb s + 2) <= zlen D -> 0 <= oc_ti s <= 3 ->
  exists db ss inf', readEntryInfo big s inf = Ret (entry_state s db ss, inf') /\
    (db < 0 \/ 0 <= db <= mi /\ 0 < ss <= INT32_MAX /\ i_size inf' = ss).
Proof.
  intros Ed Htb Hsec Hti. unfold readEntryInfo. rewrite Ed. unfold INT32_MAX in HL.
  rewrite (chk32_ok (1 + oc_tb s)) by (unfold INT32_MIN, INT32_MAX; lia). cbn [bind].
  rewrite chk32_ok by (unfold INT32_MIN, INT32_MAX; lia). cbn [bind].
  set (d := (1 + oc_tb s) * 512 + 128 * oc_ti s). assert (0 <= d /\ d + 128 <= zlen D) as Hd by (unfold d; lia). clearbody d.
  destruct (rdc_ok D (d + 66)) as (ty & -> & _); [lia|]. cbn [bind]. rewrite <- Ed in *. fold (entry_state s (-1) (oc_ss s)).
  destruct (negb (ty =? 2)); [do 3 eexists; split; [reflexivity|left; lia]|].
  destruct (rdc_ok (oc_data s) (d + 64)) as (ns & -> & _); [lia|]. cbn [bind].
  set (m := if 64 <? (if schar ns <? 2 then 2 else schar ns) then 64 else if schar ns <? 2 then 2 else schar ns).
  assert (2 <= m <= 64) as Hm by (unfold m; destruct (Z.ltb_spec (schar ns) 2); zdest; lia).
  destruct (ole_name_ok (Z.to_nat (Z.quot m 2 - 1)) (oc_data s) d) as ((name & bad) & ->); [lia| |].
  { rewrite Z.quot_div_nonneg by lia. pose proof (Z.mul_div_le m 2). pose proof (Z.div_le_lower_bound m 2 1). lia. }
  cbn [bind]. rewrite !le32_ok by (assumption || lia). cbn [bind]. do 3 eexists. split; [reflexivity|].
  cbn [i_size]. pose proof (word_range (oc_data s) (d + 116) HB). pose proof (word_range (oc_data s) (d + 120) HB).
  destruct (Z.ltb_spec (maxindex (oc_data s)) (word (oc_data s) (d + 116))); cbn [orb]; [left; lia|].
  destruct (Z.leb_spec (word (oc_data s) (d + 120)) 0); [left; lia|].
  destruct (Z.lt_ge_cases (word (oc_data s) (d + 116)) 0); [left; lia|right]. lia.
Qed.

Record odir (s : ocore) : Prop := {
  dr_stat : ostat D s; dr_tb : 0 <= oc_tb s -> 512 * (oc_tb s + 2) <= zlen D; dr_ti : 0 <= oc_ti s <= 3;
  dr_sb : zlen (oc_sbatb s) <= mi + 2 }.
Definition meas (s : ocore) : nat := (4 * unused (mi + 1) (oc_used s) + Z.to_nat (3 - oc_ti s))%nat.
Lemma ole_entries_ok : forall fuel s inf, odir s -> 0 <= oc_tb s -> (meas s < fuel)%nat ->
  exists s' inf' b, ole_entries big fuel s inf = Ret (s', inf', b) /\
    (b = true -> odir s' /\ 0 <= oc_tb s' /\ (meas s' < meas s)%nat /\ 0 <= oc_db s' <= mi /\ 0 < oc_ss s' <= INT32_MAX /\ i_size inf' = oc_ss s').
Proof.
  induction fuel as [|f IH]; intros s inf [HS Htb Hti Hsb] Htb0 Hf; [lia|]. cbn [ole_entries]. cbv zeta.
  match goal with |- context [bind ?e _] => assert (exists s1, e = Ret s1 /\
     ((oc_ti s + 1 = 4 /\ oc_tb s1 < 0) \/ (odir s1 /\ 0 <= oc_tb s1 /\ (meas s1 < meas s)%nat))) as (s1 & E1 & H1) end.
  { destruct (Z.eqb_spec (oc_ti s + 1) 4) as [E4|E4].
    - rewrite (os_data D s HS). destruct (nextBlock_ok big D HB (oc_bat s) (oc_used s) (oc_tb s)) as (u & x & -> & Hx); [apply (os_bat D s HS)|lia|]. cbn [bind].
      eexists. split; [reflexivity|]. cbn [oc_tb]. destruct Hx as [(Hx & _)|(Hx & Hi & ->)]; [left; lia|right].
      destruct (Z.ltb_spec x 0); [lia|]. split; [|split; [lia|]].
      + split; cbn [oc_tb oc_ti oc_sbatb]; [eapply same_ostat; [|exact HS]; unfold same_stat; cbn; rewrite (os_data D s HS); tauto|intros _; apply mi_bound; lia|lia|exact Hsb].
      + unfold meas. cbn [oc_used oc_ti]. assert (0 <= x < mi + 1) as Hxr by lia. pose proof (unused_add _ _ _ Hxr Hi). lia.
    - eexists. split; [reflexivity|]. right. cbn [oc_tb]. split; [|split; [lia|]].
      + split; cbn [oc_tb oc_ti oc_sbatb]; [eapply same_ostat; [|exact HS]; unfold same_stat; cbn; tauto|assumption|lia|exact Hsb].
      + unfold meas. cbn [oc_used oc_ti]. lia. }
  rewrite E1. cbn [bind]. clear E1.
  destruct H1 as [(H1 & H2)|(Hd1 & Ht1 & Hm1)].
  { rewrite H1. change (4 =? 4) with true. destruct (Z.ltb_spec (oc_tb s1) 0); [|lia]. cbn [andb]. do 3 eexists. split; [reflexivity|]. discriminate. }
  replace ((oc_ti s + 1 =? 4) && (oc_tb s1 <? 0)) with false by (symmetry; apply andb_false_iff; right; apply Z.ltb_ge; lia).
  destruct (readEntryInfo_ok s1 inf) as (db & ss & inf' & -> & Hdb); [apply (os_data D s1), (dr_stat s1 Hd1)|lia|apply (dr_tb s1 Hd1); lia|apply (dr_ti s1 Hd1)|]. cbn [bind].
  assert (odir (entry_state s1 db ss)) as Hd2.
  { destruct Hd1 as [A1 A2 A3 A4]. split; cbn [entry_state oc_tb oc_ti oc_sbatb]; try assumption. eapply same_ostat; [|exact A1]. unfold same_stat; cbn; tauto. }
  cbn [entry_state oc_db]. destruct (Z.ltb_spec db 0).
  - fold (entry_state s1 db ss). destruct (IH (entry_state s1 db ss) inf' Hd2) as (s' & inf2 & b & E & Hb); [exact Ht1|unfold meas in *; cbn [entry_state oc_used oc_ti]; lia|].
    rewrite E. do 3 eexists. split; [reflexivity|]. intros Eb. destruct (Hb Eb) as (B1 & B2 & B3 & B4). split; [exact B1|]. split; [exact B2|].
    split; [unfold meas in *; cbn [entry_state oc_used oc_ti] in *; lia|exact B4].
  - fold (entry_state s1 db ss). do 3 eexists. split; [reflexivity|]. intros _. split; [exact Hd2|]. split; [exact Ht1|].
    split; [unfold meas in *; cbn [entry_state oc_used oc_ti]; lia|]. cbn [entry_state oc_db oc_ss]. lia.
Qed.

Hypothesis Hmi : -1 <= mi.
Lemma bounded_ok fuel : forall k a, odir (bs_src (ol_str a)) -> small_buf (bs_buf (ol_str a)) ->
  (meas (bs_src (ol_str a)) < fuel)%nat -> (meas (bs_src (ol_str a)) < k)%nat ->
  bounded (ole_provider big fuel) BUF_LIM (zlen D + 64) k a.
Proof.
  induction k as [|k IH]; intros a Hd Hsm Hf Hk; [lia|]. cbn [bounded ole_provider pv_next pv_entry]. unfold ole_next. cbv zeta.
  destruct (Z.ltb_spec (oc_tb (bs_src (ol_str a))) 0) as [Ht|Ht]; [do 2 eexists; split; [reflexivity|exact I]|].
  destruct (ole_entries_ok fuel (bs_src (ol_str a)) (ol_inf a) Hd Ht Hf) as (s & inf & b & -> & Hb). cbn [bind].
  destruct b; [|do 2 eexists; split; [reflexivity|exact I]].
  destruct (Hb eq_refl) as (Hd2 & Ht2 & Hm & Hdb & Hss & Hsz). clear Hb.
  do 2 eexists. split; [reflexivity|]. cbn beta iota.
  set (bsz := if oc_ss s <? 4096 then 64 else 512). assert (bsz = 64 \/ bsz = 512) as Hbs by (unfold bsz; destruct (_ <? _); auto).
  set (s' := mkO (oc_data s) (oc_bat s) (oc_sbat s) (oc_sbatb s) (oc_usedS s) (oc_used s) (oc_tb s) (oc_ti s) (oc_db s) (oc_ss s) 0 0 bsz (oc_ss s)).
  assert (same_stat s s') as Hsame by (unfold same_stat, s'; cbn; tauto).
  assert (odyn D s') as Hdy.
  { split; unfold s'; cbn [oc_bs oc_off oc_done oc_msize oc_db]; try lia. eapply same_ostat; [exact Hsame|apply (dr_stat s Hd2)]. }
  set (kk := (uu D s' + 2)%nat).
  exists (rest big kk s'). split; [|split].
  { pose proof (rest_blocks big D HB HL kk s' Hdy) as H1. pose proof (vv_bound D s' Hdy Hmi) as H2. change (oc_sbatb s') with (oc_sbatb s) in H2.
    specialize (H2 (dr_sb s Hd2)). change (oc_off s') with 0 in H1. destruct (_ && _); lia. }
  { pose proof (rest_size big D HB HL kk s' Hdy) as H1. change (oc_msize s') with (oc_ss s) in H1. change (oc_done s') with 0 in H1. lia. }
  intros h Hh. unfold ole_entry. cbn [ol_str ol_inf ol_st].
  match goal with |- context [run _ ?x h] => set (x0 := x) end.
  assert (bs_R (rest big kk s') True (oSR big D (rest big kk s')) (fun _ => True) x0 view0) as HR.
  { apply bs_init_R. unfold bs_init_ok, x0. cbn [bs_buf bs_fin bs_src bs_size bs_pos bs_st resetBuffer b_off b_avail b_mem].
    split; [reflexivity|]. split; [reflexivity|]. split; [exact Hsm|]. split; [reflexivity|]. split; [|split; [reflexivity|split; [reflexivity|left; exact I]]].
    split; [exact Hdy|]. split; [reflexivity|]. exists kk. split; [unfold kk; lia|]. split; [intros _; unfold kk; lia|]. split; [apply zlen_nonneg|reflexivity]. }
  destruct (any_run _ _ _ _ _ (ole_SrcOK big D HB HL (rest big kk s')) h x0 view0 HR Hh) as (x1 & obs & E1 & Hacc). rewrite E1. cbn [bind].
  do 2 eexists. split; [reflexivity|]. split; [exact Hacc|].
  assert (binv (oJ D s') x1) as (HJ1 & HJ2).
  { eapply run_inv; [|  |exact Hh|exact E1].
    - intros s0 sp s1 n d e. apply oJ_fill.
    - split; [apply oJ_refl|exact Hsm]. }
  destruct HJ1 as (J1 & J2 & J3 & J4). cbn [ol_str].
  assert (odir (bs_src x1) /\ (meas (bs_src x1) <= meas s)%nat) as (Hd3 & Hm3).
  { destruct Hd2 as [A1 A2 A3 A4]. split.
    - split.
      + eapply same_ostat; [exact J1|]. eapply same_ostat; [exact Hsame|exact A1].
      + rewrite J2. exact A2.
      + rewrite J3. exact A3.
      + destruct J1 as (_ & _ & _ & ->). exact A4.
    - unfold meas. rewrite J3. change (oc_ti s') with (oc_ti s). change (oc_used s') with (oc_used s) in J4. lia. }
  apply IH; cbn [ol_str]; [exact Hd3|exact HJ2|lia|lia].
Qed.

(** ** the constructor *)
Lemma collect_ok bat : Forall moderate bat -> forall n used b,
  exists l u e, ole_collect big n D bat used b = Ret (l, u, e) /\ Forall (fun x => 0 <= x /\ (x = b \/ x <= mi)) l /\
    (zlen l + Z.of_nat (unused (mi + 1) u) <= Z.of_nat (unused (mi + 1) used) + 1) /\ (unused (mi + 1) u <= unused (mi + 1) used)%nat.
Proof.
  intros HM. induction n as [|n IH]; intros used b; cbn [ole_collect]; [exists [], used, b; split; [reflexivity|]; change (zlen (@nil Z)) with 0; split; [constructor|lia]|].
  destruct (Z.leb_spec 0 b); [|exists [], used, b; split; [reflexivity|]; change (zlen (@nil Z)) with 0; split; [constructor|lia]].
  destruct (nextBlock_ok big D HB bat used b HM) as (u & x & -> & Hx); [lia|]. cbn [bind].
  destruct (IH u x) as (l & u2 & e & E & HF & H1 & H2). rewrite E. cbn [bind]. do 3 eexists. split; [reflexivity|].
  rewrite zlen_cons. destruct Hx as [(Hx & ->)|(Hx & Hi & ->)].
  - assert (l = [] /\ u2 = used) as (-> & ->).
    { destruct n; cbn [ole_collect] in E; [injection E as <- <- _; auto|]. destruct (Z.leb_spec 0 x); [lia|]. injection E as <- <- _; auto. }
    change (zlen (@nil Z)) with 0. split; [constructor; [split; [lia|auto]|constructor]|lia].
  - assert (0 <= x < mi + 1) as Hxr by lia. pose proof (unused_add _ _ _ Hxr Hi). split; [|lia].
    constructor; [split; [lia|auto]|]. eapply Forall_impl; [|exact HF]. cbn. intros y [Y1 Y2]. split; [exact Y1|]. right. destruct Y2; lia.
Qed.
Lemma mi_moderate x : 0 <= x <= mi -> moderate x.
Proof. intros H. pose proof (mi_bound D x H). unfold moderate, INT32_MAX in *. lia. Qed.

Lemma readInt32_ok base size o : INT32_MIN <= o + 4 <= INT32_MAX -> 0 <= base -> base + size <= zlen D \/ (size = 512 /\ base + o + 4 <= zlen D) ->
  exists r, readInt32 big D base size o = Ret r /\ match r with None => True | Some v => v = word D (base + o) /\ 0 <= o /\ o + 4 < size end.
Proof.
  intros Ho Hb Hs. unfold readInt32. destruct (Z.ltb_spec o 0); [eexists; split; [reflexivity|exact I]|].
  rewrite chk32_ok by exact Ho. cbn [bind]. destruct (Z.leb_spec size (o + 4)); [eexists; split; [reflexivity|exact I]|].
  rewrite le32_ok by (assumption || lia). cbn [bind]. eexists. split; [reflexivity|]. cbn. split; [reflexivity|lia].
Qed.
Lemma xblock_ok nBat x : moderate x ->
  (forall i, 0 <= i < 127 -> 0 <= 512 * (x + 1) + 4 * i -> 512 * (x + 1) + 4 * i + 4 <= zlen D -> moderate (sec_word D x i)) ->
  forall n i bat, 0 <= i -> i + Z.of_nat n <= 127 -> Forall moderate bat ->
  exists r, ole_xbat_block big n D nBat (512 + 512 * x) i bat = Ret r /\ match r with None => True | Some b => Forall moderate b end.
Proof.
  intros Hx Hw. induction n as [|n IH]; intros i bat Hi Hn HF; cbn [ole_xbat_block]; [eexists; split; [reflexivity|exact HF]|].
  destruct (zlen bat <? nBat); [|eexists; split; [reflexivity|exact HF]]. unfold moderate in Hx.
  rewrite chk32_ok by (unfold INT32_MIN, INT32_MAX; lia). cbn [bind].
  destruct (readInt32_ok 0 (zlen D) (4 * i + (512 + 512 * x))) as (r & -> & Hr); [unfold INT32_MIN, INT32_MAX; lia|lia|lia|]. cbn [bind].
  destruct r as [v|]; [|eexists; split; [reflexivity|exact I]]. destruct Hr as (-> & H1 & H2).
  apply IH; [lia|lia|]. apply Forall_app. split; [exact HF|]. constructor; [|constructor].
  specialize (Hw i). unfold sec_word in Hw. replace (0 + (4 * i + (512 + 512 * x))) with (512 * (x + 1) + 4 * i) by lia. apply Hw; lia.
Qed.
Lemma xbat_ok nBat : forall n x bat, xbat_moderate n D x -> Forall moderate bat ->
  exists r, ole_xbat big n D nBat (512 + 512 * x) bat = Ret r /\ match r with None => True | Some b => Forall moderate b end.
Proof.
  induction n as [|n IH]; intros x bat HX HF; cbn [ole_xbat]; [eexists; split; [reflexivity|exact HF]|].
  cbn [xbat_moderate] in HX. destruct HX as (Hx & Hw & Hn).
  destruct (xblock_ok nBat x Hx Hw 127 0 bat) as (r & -> & Hr); [lia|lia|exact HF|]. cbn [bind].
  destruct r as [b|]; [|eexists; split; [reflexivity|exact I]]. unfold moderate in Hx.
  rewrite chk32_ok by (unfold INT32_MIN, INT32_MAX; lia). cbn [bind].
  destruct (readInt32_ok 0 (zlen D) (508 + (512 + 512 * x))) as (r & -> & Hv); [unfold INT32_MIN, INT32_MAX; lia|lia|lia|]. cbn [bind].
  destruct r as [v|]; [|eexists; split; [reflexivity|exact I]]. destruct Hv as (Hv & H1 & H2).
  assert (v = sec_word D x 127) as Ev by (unfold sec_word; rewrite Hv; f_equal; lia).
  assert (xbat_moderate n D v) as HXv by (rewrite Ev; apply Hn; lia).
  assert (moderate v) as Hvm by (destruct n; [exact HXv|apply HXv]). unfold moderate in Hvm.
  rewrite chk32_ok by (unfold INT32_MIN, INT32_MAX; lia). cbn [bind].
  rewrite chk32_ok by (unfold INT32_MIN, INT32_MAX; lia). cbn [bind]. apply IH; assumption.
Qed.
Lemma bats_ok nb : 512 <= zlen D -> (forall i, 0 <= i < 109 -> i < nb -> moderate (h_bat D i)) -> forall n i max, 0 <= i -> i + Z.of_nat n <= 109 -> i + Z.of_nat n <= nb -> 0 <= max <= 4194301 ->
  exists l m, ole_bats big n D i max = Ret (Some (l, m)) /\ Forall moderate l /\ max <= m <= 4194301.
Proof.
  intros H5 Hw. induction n as [|n IH]; intros i max Hi Hn Hnb Hm; cbn [ole_bats]; [do 2 eexists; split; [reflexivity|]; split; [constructor|lia]|].
  destruct (readInt32_ok 76 512 (4 * i)) as (r & E & Hr); [unfold INT32_MIN, INT32_MAX; lia|lia|right; lia|].
  assert (r <> None) as Hnn.
  { intros ->. unfold readInt32 in E. destruct (Z.ltb_spec (4 * i) 0); [lia|]. rewrite chk32_ok in E by (unfold INT32_MIN, INT32_MAX; lia). cbn [bind] in E.
    destruct (Z.leb_spec 512 (4 * i + 4)); [lia|]. rewrite le32_ok in E by (assumption || lia). discriminate E. }
  rewrite E. cbn [bind]. destruct r as [v|]; [|congruence]. destruct Hr as (Hv & _).
  assert (moderate v) as Hmv by (rewrite Hv; apply (Hw i); lia). unfold moderate in Hmv.
  destruct (IH (i + 1) (if max <? v then v else max)) as (l & m & -> & HF & Hm2); [lia|lia|lia|destruct (Z.ltb_spec max v); lia|]. cbn [bind].
  do 2 eexists. split; [reflexivity|]. split; [constructor; [exact Hmv|exact HF]|]. destruct (Z.ltb_spec max v); lia.
Qed.
End D.
