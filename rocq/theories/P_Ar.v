From Verif Require Import Base StreamSpec P_Stream M_Sub P_Sub ArchiveSpec P_Archive M_Ar ArSpec.

Lemma slice_mid {A} (a b c : list A) o n : o = zlen a -> n = zlen b -> slice (a ++ b ++ c) o n = b.
Proof. intros -> ->. rewrite slice_app_r by lia. rewrite Z.sub_diag. rewrite slice_app_l by lia. apply slice_all. Qed.
Lemma slice_pre {A} (b c : list A) n : n = zlen b -> slice (b ++ c) 0 n = b.
Proof. intros ->. rewrite slice_app_l by lia. apply slice_all. Qed.
Lemma slice_post {A} (a b : list A) o n : o = zlen a -> n = zlen b -> slice (a ++ b) o n = b.
Proof. intros. rewrite <- (app_nil_r b) at 1. apply slice_mid; assumption. Qed.

(** numbers *)
Lemma dig_val_app ds : Forall (fun c => 48 <= c <= 57) ds -> forall acc r, (match r with [] => True | x :: _ => is_dig x = false end) ->
  dig_val acc (ds ++ r) = fold_left (fun a c => a * 10 + (c - 48)) ds acc.
Proof.
  induction 1 as [|c ds Hc Hds IH]; intros acc r Hr; cbn [app dig_val fold_left].
  - destruct r as [|x r]; [reflexivity|]. cbn. rewrite Hr. reflexivity.
  - assert (is_dig c = true) as -> by (unfold is_dig; rewrite andb_true_iff, !Z.leb_le; lia). apply IH. exact Hr.
Qed.
Lemma c_str_app ds r : Forall (fun c => c <> 0) ds -> c_str (ds ++ r) = ds ++ c_str r.
Proof. induction 1 as [|c ds Hc _ IH]; [reflexivity|]. cbn. destruct (Z.eqb_spec c 0); [lia|]. rewrite IH. reflexivity. Qed.
Lemma decval_nonneg ds : Forall (fun c => 48 <= c <= 57) ds -> 0 <= decval ds.
Proof.
  unfold decval. assert (forall acc, 0 <= acc -> Forall (fun c => 48 <= c <= 57) ds -> 0 <= fold_left (fun a c => a * 10 + (c - 48)) ds acc) as H; [|intros; apply H; [lia|assumption]].
  induction ds as [|c ds IH]; intros acc Ha Hd; cbn; [lia|]. inversion Hd; subst. apply IH; [lia|assumption].
Qed.
Lemma atoi_field ds x r : digits ds -> is_dig x = false -> decval ds <= INT32_MAX -> atoi (c_str (ds ++ x :: r)) = decval ds.
Proof.
  intros (Hne & Hd) Hx Hb. pose proof (decval_nonneg ds Hd). rewrite c_str_app by (eapply Forall_impl; [|exact Hd]; cbn; intros; lia).
  assert (match c_str (x :: r) with [] => True | y :: _ => is_dig y = false end) as Hr by (cbn; destruct (x =? 0); [exact I|exact Hx]).
  destruct ds as [|d ds]; [congruence|]. unfold atoi. cbn [app skip_ws].
  assert (48 <= d <= 57) as Hd0 by (inversion Hd; assumption).
  assert (is_ws d = false) as -> by (unfold is_ws; rewrite orb_false_iff, andb_false_iff, Z.eqb_neq, !Z.leb_gt; lia).
  destruct (Z.eqb_spec d 45); [lia|]. destruct (Z.eqb_spec d 43); [lia|].
  change (d :: ds ++ c_str (x :: r)) with ((d :: ds) ++ c_str (x :: r)). rewrite dig_val_app by assumption.
  change (fold_left _ (d :: ds) 0) with (decval (d :: ds)). unfold INT64_MAX. unfold INT32_MAX in Hb. rewrite Z.min_r by lia. apply wrap32_id. unfold INT32_MIN, INT32_MAX. lia.
Qed.
Lemma name_len_app name r : Forall (fun c => c <> 32 /\ c <> 47 /\ c <> 0) name -> zlen name <= 16 ->
  match r with [] => zlen name = 16 | c :: _ => c = 32 \/ c = 47 \/ c = 0 \/ zlen name = 16 end -> Z.of_nat (name_len (name ++ r) 16) = zlen name.
Proof.
  intros Hn Hl Hr. unfold zlen in *. assert (exists k, k = 16%nat /\ (length name <= k)%nat /\ (match r with [] => length name = k | c :: _ => c = 32 \/ c = 47 \/ c = 0 \/ length name = k end)) as (k & Ek & Hk & Hr').
  { exists 16%nat. split; [reflexivity|]. split; [lia|]. destruct r; [lia|]. destruct Hr as [?|[?|[?|?]]]; auto. do 3 right. lia. }
  rewrite <- Ek. clear Ek Hl Hr. f_equal. revert k Hk Hr'. induction Hn as [|c name Hc Hn IH]; intros k Hk Hr.
  - cbn [app length]. destruct k; [destruct r; reflexivity|]. destruct r as [|c r]; [reflexivity|]. cbn [name_len]. cbn [length] in Hr.
    destruct (Z.eqb_spec c 32), (Z.eqb_spec c 47), (Z.eqb_spec c 0); cbn [orb]; try reflexivity. lia.
  - cbn [length] in *. destruct k; [lia|]. cbn [app name_len].
    destruct (Z.eqb_spec c 32), (Z.eqb_spec c 47), (Z.eqb_spec c 0); cbn [orb]; try lia. f_equal. apply IH; [lia|]. destruct r; lia.
Qed.
Lemma before_slash_app name after : Forall (fun c => c <> 47 /\ c <> 0) name -> before_slash (c_str (name ++ 47 :: after)) = name.
Proof.
  intros Hn. rewrite c_str_app by (eapply Forall_impl; [|exact Hn]; cbn; tauto). induction Hn as [|c name Hc Hn IH]; [reflexivity|].
  cbn [app before_slash]. destruct (Z.eqb_spec c 47); [lia|]. rewrite IH. reflexivity.
Qed.

(** the fields of a header *)
Lemma hdr_fields namef mtime size h : ar_hdr namef mtime size h ->
  zlen h = 60 /\ atoi (c_str (slice h 48 12)) = size /\ atoi (c_str (slice h 16 44)) = mtime /\ 0 <= size <= INT32_MAX /\
  zlen namef = 16 /\ exists r, h = namef ++ r.
Proof.
  intros (mt & ids & sz & E & Z1 & Z2 & Z3 & Z4 & D1 & D2 & B1 & B2).
  assert (zlen [96;10] = 2) as Z5 by reflexivity.
  split; [rewrite E, !zlen_app; lia|]. split.
  - assert (slice h 48 12 = sz ++ [96;10]) as ->.
    { rewrite E. replace (namef ++ mt ++ ids ++ sz ++ [96;10]) with ((namef ++ mt ++ ids) ++ sz ++ [96;10]) by (rewrite <- !app_assoc; reflexivity).
      apply slice_post; rewrite !zlen_app; lia. }
    destruct D2 as (ds & k & Hd & Hv & ->). rewrite <- app_assoc. destruct k as [|k]; cbn [repeat app].
    + rewrite atoi_field; [exact Hv|exact Hd|reflexivity|lia].
    + rewrite atoi_field; [exact Hv|exact Hd|reflexivity|lia].
  - split; [|split; [exact B2|split; [exact Z1|eexists; exact E]]].
    assert (slice h 16 44 = mt ++ ids ++ sz ++ [96;10]) as ->.
    { rewrite E. apply slice_post; rewrite ?zlen_app; lia. }
    destruct D1 as (ds & k & Hd & Hv & ->). rewrite <- app_assoc. cbn [app]. rewrite atoi_field; [exact Hv|exact Hd|reflexivity|lia].
Qed.

Lemma ar_type lim names bytes m ms : ar_members lim names bytes (m :: ms) -> i_type (m_info m) = 2.
Proof.
  intros H. remember (m :: ms) as mm eqn:E. revert m ms E. induction H as [| | ? ? ? ? ? ? ? ? ? ? ? IH| ? ? ? ? ? ? ? ? ? ? ? ? ? IH|]; intros m0 ms0 E;
    [discriminate|injection E as <- <-; reflexivity|eapply IH; exact E|eapply IH; exact E|injection E as <- <-; reflexivity].
Qed.
Section Ar.
Context {P : Type}.
Variables (par : ops P Z) (full : list Z) (lim : Z).
Hypothesis Hlim : 60 <= lim.
Let R := Conforms par full False lim.

(** after [pre], with at most one padding byte before the next even offset *)
Lemma ar_header_ok fuel : forall names bytes ms pre pad p v inf,
  ar_members lim names bytes ms -> full = pre ++ pad ++ bytes -> zlen pad = zlen pre mod 2 -> R p v -> v_pos v = zlen pre -> (length bytes < fuel)%nat ->
  exists p' names' st' inf', ar_header par fuel p names inf = Ret (p', names', st', inf') /\
    match ms with
    | [] => st' = Eof
    | m :: ms' => st' = Ok /\ inf' = m_info m /\ i_size inf' = zlen (m_data m) /\
        exists pre2 pad2 rest v', full = pre2 ++ m_data m ++ pad2 ++ rest /\ zlen pre2 mod 2 = 0 /\ zlen pad2 = zlen (m_data m) mod 2 /\ zlen (m_data m) <= INT32_MAX /\
          ar_members lim names' rest ms' /\ R p' v' /\ v_pos v' = zlen pre2 /\ (length rest < length bytes)%nat
    end.
Proof.
  induction fuel as [|fuel IH]; intros names bytes ms pre pad p v inf HM Hfull Hpad HR Hv Hf; [lia|].
  cbn [ar_header]. pose proof (zlen_nonneg pre) as Hpre0.
  assert (o_pos par p = zlen pre) as Hpos by (destruct HR as (_ & H1 & _); lia). rewrite Hpos.
  rewrite Z.rem_mod_nonneg by lia.
  assert (0 <= zlen pre mod 2 < 2) as Hm2 by (apply Z.mod_pos_bound; lia).
  set (pre1 := pre ++ pad). assert (full = pre1 ++ bytes) as Hfull1 by (unfold pre1; rewrite <- app_assoc; exact Hfull).
  assert (zlen pre1 = zlen pre + zlen pad) as Hz1 by (unfold pre1; apply zlen_app).
  assert (zlen pre1 mod 2 = 0) as Heven.
  { rewrite Hz1, Hpad. pose proof (Z.div_mod (zlen pre) 2 ltac:(lia)). set (k := zlen pre / 2) in *. 
    assert (zlen pre mod 2 = 0 \/ zlen pre mod 2 = 1) as [Em|Em] by lia; rewrite Em in *.
    - symmetry. apply Z.mod_unique with k; lia.
    - symmetry. apply Z.mod_unique with (k + 1); lia. }
  match goal with |- context [bind ?e _] => assert (exists p1 v1, e = Ret p1 /\ R p1 v1 /\ v_pos v1 = zlen pre1) as (p1 & v1 & -> & HR1 & Hv1) end.
  { destruct (Z.eqb_spec (zlen pre mod 2) 0) as [E0|N0]; cbn [negb].
    - exists p, v. split; [reflexivity|]. split; [exact HR|lia].
    - destruct (skip_exact par full lim p v 1 HR) as (p1 & r & E & _ & _ & HR1); [unfold INT32_MAX; lia| |lia|].
      { rewrite Hv, Hfull, !zlen_app. pose proof (zlen_nonneg bytes). lia. }
      rewrite E; cbn [bind]. eexists _, _. split; [reflexivity|]. split; [exact HR1|]. cbn [v_pos]. lia. }
  cbn [bind]. clear p v HR Hv Hpos. clearbody pre1. clear Hfull Hpad Hpre0 Hm2 Hz1 pre pad.
  assert (forall h data pad rest namef mtime, bytes = h ++ data ++ pad ++ rest -> ar_hdr namef mtime (zlen data) h -> zlen pad = zlen data mod 2 ->
     exists p2, o_read par p1 60 60 = Ret (p2, 60, h) /\ is_error (o_status par p2) = false /\ R p2 (mkView (zlen (pre1 ++ h)) (zlen pre1) (zlen (pre1 ++ h))) /\ zlen h = 60 /\
       full = (pre1 ++ h) ++ data ++ pad ++ rest /\ zlen (pre1 ++ h) mod 2 = 0) as Hrd.
  { intros h data pad rest namef mtime Eb Hh Hp. destruct (hdr_fields _ _ _ _ Hh) as (H60 & _).
    pose proof (zlen_nonneg data). pose proof (zlen_nonneg pad). pose proof (zlen_nonneg rest).
    destruct (read_exact par full lim p1 v1 60 HR1) as (p2 & E & Hs & HR2); [lia|unfold INT32_MAX; lia| |].
    { rewrite Hv1, Hfull1, Eb, !zlen_app. lia. }
    exists p2. rewrite E. split; [f_equal; f_equal; rewrite Hv1, Hfull1, Eb; apply slice_mid; lia|]. split; [apply is_error_false; exact Hs|].
    rewrite Hv1 in HR2. rewrite zlen_app, H60. split; [exact HR2|]. split; [reflexivity|]. split; [rewrite Hfull1, Eb, <- !app_assoc; reflexivity|].
    rewrite <- Zplus_mod_idemp_l, Heven. reflexivity. }
  inversion HM as [nm En Eb Em|nm namef name mtime h data pad rest ms' Hh Hn Hp HM' En Eb Em|nm r mtime h data pad rest ms' Hh Hp HM' En Eb Em
     |nm r mtime h table pad rest ms' Hh Ht Htl Hp HM' En Eb Em|nm before name after f mtime h data pad rest ms' Hh Hd Enm Hnm Hbf Hp HM' En Eb Em].
  - rewrite <- Eb, app_nil_r in Hfull1. destruct (at_end_read par full lim p1 v1 60 60 HR1) as (p2 & E & Hs); [cbn; unfold INT32_MAX; lia|rewrite Hfull1; exact Hv1|].
    rewrite E; cbn [bind]. rewrite Hs. cbn. eauto 10.
  - subst nm. destruct (Hrd _ _ _ _ _ _ (eq_sym Eb) Hh Hp) as (p2 & Er2 & Es2 & HR2 & H60 & Hfull2 & Hev2). rewrite Er2; cbn [bind]. rewrite Es2, H60. cbn [Z.leb Z.eqb Z.compare Pos.compare Pos.compare_cont Pos.eqb negb].
    destruct (hdr_fields _ _ _ _ Hh) as (_ & -> & -> & Hsz & H16 & (r0 & Eh)). destruct (Z.ltb_spec (zlen data) 0); [lia|].
    destruct Hn as (Hne & Hnm & r & Enf & Hr).
    assert (zlen name <= 16) as Hnl by (rewrite Enf, zlen_app in H16; pose proof (zlen_nonneg r); lia).
    assert (Z.of_nat (name_len h 16) = zlen name) as Hlen.
    { rewrite Eh, Enf, <- app_assoc. apply name_len_app; [exact Hnm|exact Hnl|]. destruct r as [|c r]; cbn [app].
      - rewrite app_nil_r in Enf. subst namef. destruct r0; [exact H16|]. do 3 right. exact H16.
      - destruct Hr as [->|[->| ->]]; auto. }
    rewrite Hlen. destruct (Z.eqb_spec (zlen name) 0) as [E0|_]; [apply zlen_0_nil in E0; congruence|].
    do 4 eexists; split; [reflexivity|]. cbn [m_info m_data i_size]. split; [reflexivity|]. split.
    { f_equal. rewrite Eh, Enf, <- app_assoc. apply slice_pre. reflexivity. }
    split; [reflexivity|]. exists (pre1 ++ h), pad, rest, (mkView (zlen (pre1 ++ h)) (zlen pre1) (zlen (pre1 ++ h))). split; [exact Hfull2|]. split; [exact Hev2|]. split; [exact Hp|]. split; [lia|].
    split; [exact HM'|]. split; [exact HR2|]. split; [reflexivity|]. rewrite !app_length. unfold zlen in H60. lia.
  - subst nm. destruct (Hrd _ _ _ _ _ _ (eq_sym Eb) Hh Hp) as (p2 & Er2 & Es2 & HR2 & H60 & Hfull2 & Hev2). rewrite Er2; cbn [bind]. rewrite Es2, H60. cbn [Z.leb Z.eqb Z.compare Pos.compare Pos.compare_cont Pos.eqb negb].
    destruct (hdr_fields _ _ _ _ Hh) as (_ & -> & -> & Hsz & H16 & (r0 & Eh)). destruct (Z.ltb_spec (zlen data) 0); [lia|].
    assert (name_len h 16 = O) as -> by (rewrite Eh; reflexivity). cbn [Z.of_nat Z.eqb].
    assert (zget h 1 = Some 32) as -> by (rewrite Eh; reflexivity). cbn [Z.eqb Pos.eqb].
    destruct (skip_exact par full lim p2 _ (zlen data) HR2) as (p3 & k & E & _ & _ & HR3); [lia| |lia|].
    { cbn [v_pos]. rewrite Hfull2, !zlen_app. pose proof (zlen_nonneg pad). pose proof (zlen_nonneg rest). lia. }
    rewrite E; cbn [bind].
    assert (full = (pre1 ++ h ++ data) ++ pad ++ rest) as A1 by (rewrite Hfull2, <- !app_assoc; reflexivity).
    assert (zlen pad = zlen (pre1 ++ h ++ data) mod 2) as A2 by (rewrite (app_assoc pre1), zlen_app, Hp; rewrite <- Zplus_mod_idemp_l, Hev2; reflexivity).
    cbn [v_pos] in HR3. assert (zlen (pre1 ++ h) + zlen data = zlen (pre1 ++ h ++ data)) as A3 by (rewrite !zlen_app; lia).
    assert (length rest < fuel)%nat as A4 by (rewrite <- Eb, !app_length in Hf; unfold zlen in H60; lia).
    match goal with |- context [ar_header par fuel p3 names ?i] => destruct (IH names rest ms (pre1 ++ h ++ data) pad p3 _ i HM' A1 A2 HR3 A3 A4) as (p' & names' & st' & inf' & E4 & Hres) end.
    rewrite E4; cbn [bind]. do 4 eexists; split; [reflexivity|]. destruct ms as [|m ms1]; [exact Hres|].
    destruct Hres as (Q1 & Q2 & Q3 & pre2 & pad2 & rest2 & v2 & Q4 & Q5 & Q6 & Q7 & Q8 & Q9 & Q10 & Q11). split; [exact Q1|]. 
    assert (i_type inf' = 2) as Hty by (rewrite Q2; eapply ar_type; exact HM').
    split; [rewrite <- Q2; destruct inf'; cbn in *; subst; reflexivity|]. split; [exact Q3|].
    exists pre2, pad2, rest2, v2. repeat (split; [assumption|]). rewrite !app_length. unfold zlen in H60. lia.
  - subst nm. destruct (Hrd _ _ _ _ _ _ (eq_sym Eb) Hh Hp) as (p2 & Er2 & Es2 & HR2 & H60 & Hfull2 & Hev2). rewrite Er2; cbn [bind]. rewrite Es2, H60. cbn [Z.leb Z.eqb Z.compare Pos.compare Pos.compare_cont Pos.eqb negb].
    destruct (hdr_fields _ _ _ _ Hh) as (_ & -> & -> & Hsz & H16 & (r0 & Eh)). destruct (Z.ltb_spec (zlen table) 0); [lia|].
    assert (name_len h 16 = O) as -> by (rewrite Eh; reflexivity). cbn [Z.of_nat Z.eqb].
    assert (zget h 1 = Some 47) as -> by (rewrite Eh; reflexivity). cbn [Z.eqb Pos.eqb].
    assert (0 < zlen table) as Ht0 by (destruct table; [congruence|rewrite zlen_cons; pose proof (zlen_nonneg table); lia]).
    destruct (read_exact par full lim p2 _ (zlen table) HR2) as (p3 & E & _ & HR3); [lia|lia| |].
    { cbn [v_pos]. rewrite Hfull2, !zlen_app. pose proof (zlen_nonneg pad). pose proof (zlen_nonneg rest). lia. }
    rewrite E; cbn [bind v_pos]. rewrite Z.eqb_refl; cbn [negb].
    assert (slice full (zlen (pre1 ++ h)) (zlen table) = table) as Etb by (rewrite Hfull2; apply slice_mid; reflexivity).
    rewrite Etb. rewrite Z.leb_refl; cbn [negb]. rewrite slice_all.
    assert (full = (pre1 ++ h ++ table) ++ pad ++ rest) as A1 by (rewrite Hfull2, <- !app_assoc; reflexivity).
    assert (zlen pad = zlen (pre1 ++ h ++ table) mod 2) as A2 by (rewrite (app_assoc pre1), zlen_app, Hp; rewrite <- Zplus_mod_idemp_l, Hev2; reflexivity).
    cbn [v_pos] in HR3. assert (zlen (pre1 ++ h) + zlen table = zlen (pre1 ++ h ++ table)) as A3 by (rewrite !zlen_app; lia).
    assert (length rest < fuel)%nat as A4 by (rewrite <- Eb, !app_length in Hf; unfold zlen in H60; lia).
    match goal with |- context [ar_header par fuel p3 table ?i] => destruct (IH table rest ms (pre1 ++ h ++ table) pad p3 _ i HM' A1 A2 HR3 A3 A4) as (p' & names' & st' & inf' & E4 & Hres) end.
    rewrite E4; cbn [bind]. do 4 eexists; split; [reflexivity|]. destruct ms as [|m ms1]; [exact Hres|].
    destruct Hres as (Q1 & Q2 & Q3 & pre2 & pad2 & rest2 & v2 & Q4 & Q5 & Q6 & Q7 & Q8 & Q9 & Q10 & Q11). split; [exact Q1|]. 
    assert (i_type inf' = 2) as Hty by (rewrite Q2; eapply ar_type; exact HM').
    split; [rewrite <- Q2; destruct inf'; cbn in *; subst; reflexivity|]. split; [exact Q3|].
    exists pre2, pad2, rest2, v2. repeat (split; [assumption|]). rewrite !app_length. unfold zlen in H60. lia.
  - destruct (Hrd _ _ _ _ _ _ (eq_sym Eb) Hh Hp) as (p2 & Er2 & Es2 & HR2 & H60 & Hfull2 & Hev2). rewrite Er2; cbn [bind]. rewrite Es2, H60. cbn [Z.leb Z.eqb Z.compare Pos.compare Pos.compare_cont Pos.eqb negb].
    destruct (hdr_fields _ _ _ _ Hh) as (_ & -> & -> & Hsz & H16 & (r0 & Eh)). destruct (Z.ltb_spec (zlen data) 0); [lia|].
    assert (name_len h 16 = O) as -> by (rewrite Eh; reflexivity). cbn [Z.of_nat Z.eqb].
    destruct Hd as (ds & k & Hds & Hdv & Ef). assert (Hds' := Hds). destruct Hds' as (Hdne & Hdd).
    destruct ds as [|d0 ds]; [congruence|]. assert (48 <= d0 <= 57) as Hd0 by (inversion Hdd; assumption).
    assert (zget h 1 = Some d0) as -> by (rewrite Eh, Ef; reflexivity). destruct (Z.eqb_spec d0 47) as [?|_]; [lia|]. destruct (Z.eqb_spec d0 32) as [?|_]; [lia|].
    assert (atoi (c_str (slice h 1 59)) = zlen before) as ->.
    { assert (slice h 1 59 = (d0 :: ds) ++ 32 :: (repeat 32 k ++ r0)) as ->.
      { rewrite Eh in *. cbn [app] in *. rewrite Ef in *. cbn [app] in *. change (47 :: d0 :: (ds ++ 32 :: repeat 32 k) ++ r0) with ([47] ++ (d0 :: (ds ++ 32 :: repeat 32 k) ++ r0)). 
        change (zlen (47 :: d0 :: (ds ++ 32 :: repeat 32 k) ++ r0)) with (zlen ([47] ++ (d0 :: (ds ++ 32 :: repeat 32 k) ++ r0))) in H60. rewrite zlen_app in H60. change (zlen [47]) with 1 in H60.
        rewrite slice_post; [|reflexivity|lia]. rewrite <- app_assoc. reflexivity. }
      rewrite atoi_field; [exact Hdv|exact Hds|reflexivity|lia]. }
    pose proof (zlen_nonneg before). rewrite Z.mod_small by (unfold INT32_MAX in *; lia).
    subst names. pose proof (zlen_nonneg name). pose proof (zlen_nonneg after).
    rewrite !zlen_app, zlen_cons. destruct (Z.leb_spec (zlen before + (zlen name + (1 + zlen after))) (zlen before)) as [?|_]; [lia|].
    do 4 eexists; split; [reflexivity|]. cbn [m_info m_data i_size]. split; [reflexivity|]. split.
    { f_equal. rewrite slice_post; [|reflexivity|rewrite zlen_app, zlen_cons; lia]. apply before_slash_app. exact Hnm. }
    split; [reflexivity|]. exists (pre1 ++ h), pad, rest, (mkView (zlen (pre1 ++ h)) (zlen pre1) (zlen (pre1 ++ h))). split; [exact Hfull2|]. split; [exact Hev2|]. split; [exact Hp|]. split; [lia|].
    split; [exact HM'|]. split; [exact HR2|]. split; [reflexivity|]. rewrite !app_length. unfold zlen in H60. lia.
Qed.

Definition ar_ready (a : ar P) (pre : list Z) : Prop :=
  a_st a = Ok /\
  match a_cur a with
  | inl p => exists v, R p v /\ v_pos v = zlen pre
  | inr s => exists off n v, 0 <= off /\ 0 <= n <= INT32_MAX /\ off + n <= zlen full /\ off + n = zlen pre /\ sub_R full R off n s v
  end.
Lemma ar_lists fuel ms : forall names bytes pre pad a,
  ar_members lim names bytes ms -> full = pre ++ pad ++ bytes -> zlen pad = zlen pre mod 2 -> ar_ready a pre -> a_names a = names -> (length bytes < fuel)%nat ->
  lists (ar_provider par fuel) lim ms a.
Proof.
  induction ms as [|m ms IH]; intros names bytes pre pad a HM Hfull Hpad (Hst & Hcur) Hnames Hf.
  all: cbn [lists_end pv_next pv_entry pv_status ar_provider]; unfold ar_next; rewrite Hst.
  all: match goal with |- context [bind ?e _] => assert (exists p v, e = Ret p /\ R p v /\ v_pos v = zlen pre) as (p & v & -> & HR & Hv) end.
  1,3: destruct (a_cur a) as [p|s]; [destruct Hcur as (v & HR & Hv); eauto|].
  1,2: destruct Hcur as (off & n & v & H1 & H2 & H3 & H4 & HRs);
    destruct (entry_finish par full lim off n H1 H2 H3 s v HRs) as (s' & k & E & HRs' & _); rewrite E; cbn [bind];
    destruct (entry_parent par full lim off n H1 H2 H3 s' _ HRs') as (HRp & _); do 2 eexists; (split; [reflexivity|]); (split; [exact HRp|]); cbn [v_pos]; lia.
  all: cbn [bind]; rewrite Hnames; destruct (ar_header_ok fuel names bytes _ pre pad p v (a_info a) HM Hfull Hpad HR Hv Hf) as (p' & names' & st' & inf' & E & Hres); rewrite E; cbn [bind].
  - rewrite Hres. eexists; split; [reflexivity|reflexivity].
  - destruct Hres as (-> & Q2 & Q3 & pre2 & pad2 & rest & v2 & Q4 & Q5 & Q6 & Q7 & Q8 & Q9 & Q10 & Q11). rewrite Q3. pose proof (zlen_nonneg pre2). pose proof (zlen_nonneg (m_data m)).
    assert (zlen pre2 + zlen (m_data m) <= zlen full) as Hfit by (rewrite Q4, !zlen_app; pose proof (zlen_nonneg pad2); pose proof (zlen_nonneg rest); lia).
    assert (slice full (zlen pre2) (zlen (m_data m)) = m_data m) as Hdata by (rewrite Q4; apply slice_mid; reflexivity).
    destruct (entry_new par full lim (zlen pre2) (zlen (m_data m)) ltac:(lia) p' v2 Q9 Q10) as (s & En & HRs). rewrite En; cbn [bind].
    rewrite Q2. eexists; split; [reflexivity|]. split; [reflexivity|]. intros h Hh. unfold ar_entry. cbn [a_cur].
    destruct (entry_run par full lim (zlen pre2) (zlen (m_data m)) ltac:(lia) ltac:(lia) ltac:(lia) h s view0 HRs) as (s' & obs & v' & Er & Ha & HRs'); [rewrite Hdata; exact Hh|].
    rewrite Er; cbn [bind]. rewrite Hdata in Ha. do 2 eexists; split; [reflexivity|]. split; [exact Ha|].
    apply (IH names' rest (pre2 ++ m_data m) pad2); [exact Q8|rewrite Q4, <- app_assoc; reflexivity| | |reflexivity|lia].
    + rewrite zlen_app, <- Zplus_mod_idemp_l, Q5. exact Q6.
    + split; [reflexivity|]. cbn [a_cur]. exists (zlen pre2), (zlen (m_data m)), v'. rewrite zlen_app. do 4 (split; [lia|]). exact HRs'.
Qed.
End Ar.
