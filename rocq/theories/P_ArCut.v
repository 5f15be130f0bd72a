(** C59: ar archives that were cut off. *)
From Verif Require Import Base StreamSpec P_Stream M_Sub P_Sub P_Sub2 ArchiveSpec ArSpec M_Ar P_Archive P_Ar CpioCutSpec P_CpioCut ArCutSpec.

Lemma ar_cut_short lim k names bytes ms last fin : ar_cut lim k names bytes ms last fin -> k < 60 -> ms = [] /\ last = None /\ (fin = Eof /\ bytes = [] \/ fin = (if k <=? 1 then Eof else Error) /\ k <= zlen bytes).
Proof.
  intros H. induction H as [| | |k names name mtime h data pad rest ms last fin Hh Hk Hp HM IH| | |]; intros Hs; auto 6; try lia; try (pose proof (zlen_nonneg data); lia); try (pose proof (zlen_nonneg table); lia).
Qed.
Lemma ar_cut_type lim k names bytes ms last fin : ar_cut lim k names bytes ms last fin ->
  match ms, last with m :: _, _ => i_type (m_info m) = 2 | [], Some (i, _) => i_type i = 2 | [], None => True end.
Proof. intros H. induction H; cbn; auto. Qed.

Section Cut.
Context {P : Type}.
Variables (par : ops P Z) (full : list Z) (lim : Z).
Hypothesis Hlim : 60 <= lim.
Hypothesis HQ : quiet par full lim.
Let R := Conforms par full False lim.
Let HS : sim par full False lim R := conforms_sim par full False lim.

(** readHeader() after the padding *)
Definition hdr1 fuel (p : P) (names : list Z) (inf : info) : out (P * list Z * status * info) :=
    let* (p, nread, b) := o_read par p 60 60 in
    if is_error (o_status par p) then Ret (p, names, Error, inf)
    else if nread <=? 1 then Ret (p, names, Eof, inf)
    else if negb (nread =? 60) then Ret (p, names, Error, inf)
    else if negb (60 <=? zlen b) then UB
    else
      let len := Z.of_nat (name_len b 16) in
      let size := atoi (c_str (slice b 48 12)) in
      let inf := mkInfo (i_name inf) size (i_mtime inf) (i_type inf) in
      if size <? 0 then Ret (p, names, Error, inf)
      else
      let inf := mkInfo (i_name inf) size (atoi (c_str (slice b 16 44))) (i_type inf) in
      if len =? 0 then
        match zget b 1 with
        | None => UB
        | Some b1 =>
          if b1 =? 47 then
            let* (p, nread, t) := o_read par p size size in
            if negb (nread =? size) then Ret (p, names, Error, inf)
            else if negb (size <=? zlen t) then UB
            else let* (p, names, st, inf) := ar_header par fuel p (slice t 0 size) inf in
                 Ret (p, names, st, mkInfo (i_name inf) (i_size inf) (i_mtime inf) 2)
          else if b1 =? 32 then
            let* (p, _) := o_skip par p size in
            let* (p, names, st, inf) := ar_header par fuel p names inf in
            Ret (p, names, st, mkInfo (i_name inf) (i_size inf) (i_mtime inf) 2)
          else
            let q := atoi (c_str (slice b 1 59)) mod 4294967296 in
            if zlen names <=? q then Ret (p, names, Error, inf)
            else Ret (p, names, Ok, mkInfo (before_slash (c_str (slice names q (zlen names - q)))) (i_size inf) (i_mtime inf) 2)
        end
      else Ret (p, names, Ok, mkInfo (slice b 0 len) (i_size inf) (i_mtime inf) 2).
Lemma header_hdr1 fuel p names inf : ar_header par (S fuel) p names inf =
  let* p := (if negb (Z.rem (o_pos par p) 2 =? 0) then let* (p, _) := o_skip par p 1 in Ret p else Ret p) in hdr1 fuel p names inf.
Proof. reflexivity. Qed.
Lemma hdr1_short fuel p v names inf : R p v -> zlen full - v_pos v < 60 -> exists p', hdr1 fuel p names inf = Ret (p', names, (if zlen full - v_pos v <=? 1 then Eof else Error), inf).
Proof.
  intros HR Hk. unfold hdr1. destruct (quiet_read par full lim HQ p v 60 60 HR) as (p1 & r & d & v1 & E1 & Hs1 & R1 & L1 & He & Hr); [lia|unfold INT32_MAX; lia|].
  rewrite E1; cbn [bind]. assert (HV := HR). apply (sim_view _ _ _ _ _ HS) in HV. unfold view_ok in HV. rewrite (is_error_false _ Hs1).
  destruct (Z.leb_spec r 1), (Z.leb_spec (zlen full - v_pos v) 1); try lia; [eexists; reflexivity|]. destruct (Z.eqb_spec r 60); [lia|]. cbn [negb]. eexists; reflexivity.
Qed.
Lemma hdr1_read namef mtime size h pre more p v : ar_hdr namef mtime size h -> full = pre ++ h ++ more -> R p v -> v_pos v = zlen pre ->
  exists p2 v2, o_read par p 60 60 = Ret (p2, 60, h) /\ is_error (o_status par p2) = false /\ R p2 v2 /\ v_pos v2 = zlen pre + 60.
Proof.
  intros Hh Hfull HR Hv. destruct (hdr_fields _ _ _ _ Hh) as (H60 & _). pose proof (zlen_nonneg more).
  destruct (read_exact par full lim p v 60 HR) as (p2 & E & Hs & HR2); [lia|unfold INT32_MAX; lia|rewrite Hfull, !zlen_app; lia|].
  exists p2. eexists. rewrite E. split; [f_equal; f_equal; rewrite Hv, Hfull; apply slice_mid; lia|]. split; [apply is_error_false; exact Hs|]. split; [exact HR2|]. cbn [v_pos]. lia.
Qed.
Lemma hdr1_named fuel names name mtime size h pre more p v inf : ar_named names name mtime size h -> full = pre ++ h ++ more -> R p v -> v_pos v = zlen pre ->
  exists p2 v2, hdr1 fuel p names inf = Ret (p2, names, Ok, mkInfo name size mtime 2) /\ R p2 v2 /\ v_pos v2 = zlen pre + 60 /\ 0 <= size <= INT32_MAX /\ zlen h = 60.
Proof.
  intros [(namef & Hh & Hn)|(f & before & after & Hh & Hd & Enm & Hnm & Hbf)] Hfull HR Hv; unfold hdr1.
  - destruct (hdr1_read _ _ _ _ _ _ _ _ Hh Hfull HR Hv) as (p2 & v2 & Er2 & Es2 & HR2 & Hv2). rewrite Er2; cbn [bind]. rewrite Es2.
    destruct (hdr_fields _ _ _ _ Hh) as (H60 & -> & -> & Hsz & H16 & (r0 & Eh)). rewrite H60. cbn [Z.leb Z.eqb Z.compare Pos.compare Pos.compare_cont Pos.eqb negb]. destruct (Z.ltb_spec size 0); [lia|].
    destruct Hn as (Hne & Hnm & r & Enf & Hr).
    assert (zlen name <= 16) as Hnl by (rewrite Enf, zlen_app in H16; pose proof (zlen_nonneg r); lia).
    assert (Z.of_nat (name_len h 16) = zlen name) as Hlen.
    { rewrite Eh, Enf, <- app_assoc. apply name_len_app; [exact Hnm|exact Hnl|]. destruct r as [|c r]; cbn [app].
      - rewrite app_nil_r in Enf. subst namef. destruct r0; [exact H16|]. do 3 right. exact H16.
      - destruct Hr as [->|[->| ->]]; auto. }
    rewrite Hlen. destruct (Z.eqb_spec (zlen name) 0) as [E0|_]; [apply zlen_0_nil in E0; congruence|].
    exists p2, v2. cbn [i_size i_mtime]. split; [|auto]. do 2 f_equal. rewrite Eh, Enf, <- app_assoc. f_equal. apply slice_pre. reflexivity.
  - destruct (hdr1_read _ _ _ _ _ _ _ _ Hh Hfull HR Hv) as (p2 & v2 & Er2 & Es2 & HR2 & Hv2). rewrite Er2; cbn [bind]. rewrite Es2.
    destruct (hdr_fields _ _ _ _ Hh) as (H60 & -> & -> & Hsz & H16 & (r0 & Eh)). rewrite H60. cbn [Z.leb Z.eqb Z.compare Pos.compare Pos.compare_cont Pos.eqb negb]. destruct (Z.ltb_spec size 0); [lia|].
    assert (name_len h 16 = O) as -> by (rewrite Eh; reflexivity). cbn [Z.of_nat Z.eqb].
    destruct Hd as (ds & k & Hds & Hdv & Ef). assert (Hds' := Hds). destruct Hds' as (Hdne & Hdd).
    destruct ds as [|d0 ds]; [congruence|]. assert (48 <= d0 <= 57) as Hd0 by (inversion Hdd; assumption).
    assert (zget h 1 = Some d0) as -> by (rewrite Eh, Ef; reflexivity). destruct (Z.eqb_spec d0 47) as [?|_]; [lia|]. destruct (Z.eqb_spec d0 32) as [?|_]; [lia|].
    assert (atoi (c_str (slice h 1 59)) = zlen before) as ->.
    { assert (slice h 1 59 = (d0 :: ds) ++ 32 :: (repeat 32 k ++ r0)) as ->.
      { rewrite Eh in *. cbn [app] in *. rewrite Ef in *. cbn [app] in *. change (47 :: d0 :: (ds ++ 32 :: repeat 32 k) ++ r0) with ([47] ++ (d0 :: (ds ++ 32 :: repeat 32 k) ++ r0)). 
        change (zlen (47 :: d0 :: (ds ++ 32 :: repeat 32 k) ++ r0)) with (zlen ([47] ++ (d0 :: (ds ++ 32 :: repeat 32 k) ++ r0))) in H60. rewrite zlen_app in H60. change (zlen [47]) with 1 in H60.
        rewrite slice_post; [|reflexivity|lia]. rewrite <- app_assoc. reflexivity. }
      rewrite atoi_field; [exact Hdv|exact Hds|reflexivity|lia]. }
    pose proof (zlen_nonneg before). rewrite Z.mod_small by (unfold INT32_MAX in *; lia).
    subst names. pose proof (zlen_nonneg name). pose proof (zlen_nonneg after).
    assert (zlen (before ++ name ++ 47 :: after) = zlen before + (zlen name + (1 + zlen after))) as Ez by (rewrite !zlen_app, zlen_cons; lia).
    rewrite Ez. destruct (Z.leb_spec (zlen before + (zlen name + (1 + zlen after))) (zlen before)) as [?|_]; [lia|].
    exists p2, v2. cbn [i_size i_mtime]. split; [|auto]. do 3 f_equal. rewrite slice_post; [|reflexivity|rewrite zlen_app, zlen_cons; lia]. apply before_slash_app. exact Hnm.
Qed.

(** where reading goes on: in front of (the padding before) what is left of [bytes], or at the end *)
Definition left_of (bytes : list Z) (k q : Z) : Prop :=
  0 <= k /\ (exists pre pad, full = pre ++ pad ++ slice bytes 0 k /\ zlen pad = zlen pre mod 2 /\ q = zlen pre) \/ k <= 0 /\ q = zlen full.
Lemma left_next pre data pad rest k : 0 <= k -> full = pre ++ data ++ slice (pad ++ rest) 0 k -> zlen pre mod 2 = 0 -> zlen pad = zlen data mod 2 ->
  left_of rest (k - zlen pad) (zlen pre + zlen data).
Proof.
  intros Hk Hf Hpre Hpad. assert (0 <= zlen data mod 2 < 2) as Hm by (apply Z.mod_pos_bound; lia). pose proof (zlen_nonneg pad).
  destruct (Z.lt_ge_cases k (zlen pad)) as [Hs|Hs].
  - right. split; [lia|]. rewrite Hf, !zlen_app. rewrite slice_app_l by lia. rewrite zlen_slice by lia. assert (k = 0) as -> by lia. lia.
  - left. split; [lia|]. exists (pre ++ data), pad. split; [rewrite Hf, cut_app by lia; rewrite <- !app_assoc; reflexivity|]. split; [|rewrite zlen_app; reflexivity].
    rewrite zlen_app, <- Zplus_mod_idemp_l, Hpre. exact Hpad.
Qed.
Lemma ar_header_cut fuel : forall k names bytes ms last fin p v inf,
  ar_cut lim k names bytes ms last fin -> left_of bytes k (v_pos v) -> R p v -> (length bytes < fuel)%nat ->
  exists p' names' st' inf', ar_header par fuel p names inf = Ret (p', names', st', inf') /\
    match ms, last with
    | [], None => st' = fin /\ st' <> Ok
    | [], Some (i, part) => fin = Eof /\ st' = Ok /\ inf' = i /\ exists pre2 v', full = pre2 ++ part /\ zlen part < i_size i <= INT32_MAX /\ R p' v' /\ v_pos v' = zlen pre2 /\ part = slice part 0 (i_size i)
    | m :: ms', _ => st' = Ok /\ inf' = m_info m /\ i_size inf' = zlen (m_data m) /\ zlen (m_data m) <= INT32_MAX /\
        exists k' pre2 more rest v', full = pre2 ++ m_data m ++ more /\ R p' v' /\ v_pos v' = zlen pre2 /\
          ar_cut lim k' names' rest ms' last fin /\ left_of rest k' (zlen pre2 + zlen (m_data m)) /\ (length rest < length bytes)%nat
    end.
Proof.
  induction fuel as [|fuel IH]; intros k names bytes ms last fin p v inf HM HL HR Hf; [lia|].
  rewrite header_hdr1. assert (HV := HR). apply (sim_view _ _ _ _ _ HS) in HV. unfold view_ok in HV.
  assert (o_pos par p = v_pos v) as Hpos by (destruct HR as (_ & H1 & _); lia). rewrite Hpos. rewrite Z.rem_mod_nonneg by lia.
  assert (0 <= v_pos v mod 2 < 2) as Hm2 by (apply Z.mod_pos_bound; lia).
  match goal with |- context [bind ?e _] => assert (exists p1 v1, e = Ret p1 /\ R p1 v1 /\ (zlen full <= v_pos v1 /\ k <= 0 \/ 0 <= k /\ exists pre1, full = pre1 ++ slice bytes 0 k /\ zlen pre1 mod 2 = 0 /\ v_pos v1 = zlen pre1)) as (p1 & v1 & -> & HR1 & Hv1) end.
  { destruct (Z.eqb_spec (v_pos v mod 2) 0) as [E0|N0]; cbn [negb].
    - exists p, v. split; [reflexivity|]. split; [exact HR|]. destruct HL as [(Hk & pre & pad & Ef & Hp & Hq)|(Hk & Hq)]; [right|left; lia].
      rewrite Hq in E0. rewrite E0 in Hp. apply zlen_0_nil in Hp. subst pad. split; [exact Hk|]. exists pre. auto.
    - destruct (quiet_skip par full lim HQ p v 1 HR) as (p1 & r & w & E & _ & R1 & P1 & L1 & Hr); [unfold INT32_MAX; lia|].
      rewrite E; cbn [bind]. exists p1, w. split; [reflexivity|]. split; [exact R1|]. destruct HL as [(Hk & pre & pad & Ef & Hp & Hq)|(Hk & Hq)]; [right|left; lia].
      rewrite Hq in *. assert (zlen pre mod 2 = 1) as E1 by lia. rewrite E1 in Hp. split; [exact Hk|]. exists (pre ++ pad). split; [rewrite <- app_assoc; exact Ef|].
      assert (zlen full = zlen pre + 1 + zlen (slice bytes 0 k)) as Lf by (rewrite Ef, !zlen_app; lia). pose proof (zlen_nonneg (slice bytes 0 k)).
      split; [rewrite zlen_app, Hp, <- Zplus_mod_idemp_l, E1; reflexivity|]. rewrite zlen_app. lia. }
  cbn [bind]. clear p v HR HL HV Hpos Hm2.
  destruct (Z.lt_ge_cases k 60) as [Hk60|Hk60].
  { destruct (ar_cut_short _ _ _ _ _ _ _ HM Hk60) as (-> & -> & Hfin). assert (HVv := HR1). apply (sim_view _ _ _ _ _ HS) in HVv. unfold view_ok in HVv.
    assert (zlen full - v_pos v1 < 60 /\ (if zlen full - v_pos v1 <=? 1 then Eof else Error) = fin) as (Hlt & Hst).
    { destruct Hv1 as [(H1 & Hk0)|(Hk0 & pre1 & Ef & _ & Hv1)].
      - split; [lia|]. destruct (Z.leb_spec (zlen full - v_pos v1) 1); [|lia]. destruct Hfin as [(-> & _)|(-> & _)]; [reflexivity|]. destruct (Z.leb_spec k 1); [reflexivity|lia].
      - destruct Hfin as [(-> & ->)|(-> & Hkb)].
        + assert (slice (@nil Z) 0 k = []) as E0 by (unfold slice; rewrite skipn_nil; apply firstn_nil). rewrite E0, app_nil_r in Ef. split; [rewrite Ef; lia|]. destruct (Z.leb_spec (zlen full - v_pos v1) 1); [reflexivity|rewrite Ef in *; lia].
        + assert (zlen full - v_pos v1 = k) as -> by (rewrite Ef, zlen_app, zlen_slice by lia; lia). split; [lia|reflexivity]. }
    destruct (hdr1_short fuel p1 v1 names inf HR1 Hlt) as (p' & E). rewrite Hst in E. do 4 eexists; split; [exact E|]. split; [reflexivity|]. rewrite <- Hst. clear. intros Hx. destruct (zlen full - v_pos v1 <=? 1); discriminate Hx. }
  destruct Hv1 as [(_ & H1)|(Hk0 & pre1 & Ef & Hev & Hv1)]; [lia|]. pose proof (zlen_nonneg pre1).
  inversion HM as [k0 nm Ek En Eb Em El Efn|k0 nm b0 Hs Hs2 Ek En Eb Em El Efn|k0 nm name mtime h data pad rest Hh Hk Ek En Eb Em El Efn|k0 nm name mtime h data pad rest ms' la fi Hh Hk Hp HM' Ek En Eb Em El Efn
    |k0 nm r mtime h data pad rest ms' la fi Hh Hk Hp HM' Ek En Eb Em El Efn|k0 nm r mtime h table pad rest ms' la fi Hh Ht Htl Hk Hp HM' Ek En Eb Em El Efn|k0 nm r mtime h table rest Hh Htl Hk Ek En Eb Em El Efn].
  - subst. assert (slice (@nil Z) 0 k = []) as E0 by (unfold slice; rewrite skipn_nil; apply firstn_nil). rewrite E0, app_nil_r in Ef.
    destruct (hdr1_short fuel p1 v1 names inf HR1) as (p' & E); [rewrite Ef; lia|]. destruct (Z.leb_spec (zlen full - v_pos v1) 1); [|rewrite Ef in *; lia]. do 4 eexists; split; [exact E|]. split; [reflexivity|discriminate].
  - lia.
  - subst. assert (zlen h = 60) as H60 by (destruct Hh as [(nf & Hh & _)|(? & ? & ? & Hh & _)]; apply hdr_fields in Hh; apply Hh).
    rewrite cut_app in Ef by lia. rewrite H60 in Ef. rewrite slice_app_l in Ef by lia.
    destruct (hdr1_named fuel _ _ _ _ _ _ _ _ _ inf Hh Ef HR1 Hv1) as (p2 & v2 & E & HR2 & Hv2 & Hsz & _). do 4 eexists; split; [exact E|]. split; [reflexivity|]. split; [reflexivity|]. split; [reflexivity|].
    exists (pre1 ++ h), v2. cbn [i_size]. split; [rewrite <- app_assoc; exact Ef|]. rewrite zlen_slice by lia. split; [lia|]. split; [exact HR2|]. split; [rewrite zlen_app; lia|].
    assert (zlen (slice data 0 (k - 60)) <= zlen data) as Hle by (rewrite zlen_slice by lia; lia). rewrite (slice_to_end (slice data 0 (k - 60))) by lia. reflexivity.
  - subst. assert (zlen h = 60) as H60 by (destruct Hh as [(nf & Hh & _)|(? & ? & ? & Hh & _)]; apply hdr_fields in Hh; apply Hh). pose proof (zlen_nonneg data).
    rewrite cut_app in Ef by lia. rewrite H60 in Ef. rewrite cut_app in Ef by lia.
    destruct (hdr1_named fuel _ _ _ _ _ _ _ _ _ inf Hh Ef HR1 Hv1) as (p2 & v2 & E & HR2 & Hv2 & Hsz & _). do 4 eexists; split; [exact E|]. cbn [m_info m_data i_size]. split; [reflexivity|]. split; [reflexivity|]. split; [reflexivity|]. split; [lia|].
    do 4 eexists. exists v2. split; [rewrite Ef, app_assoc; reflexivity|]. split; [exact HR2|]. split; [rewrite zlen_app; lia|]. split; [exact HM'|]. split; [|rewrite !app_length; unfold zlen in H60; lia].
    rewrite !zlen_app. replace (k - (zlen h + (zlen data + zlen pad))) with (k - 60 - zlen data - zlen pad) by lia. rewrite <- zlen_app.
    eapply left_next; [lia|rewrite Ef, app_assoc; reflexivity| |exact Hp]. rewrite zlen_app, H60, <- Zplus_mod_idemp_l, Hev. reflexivity.
  - subst. destruct (hdr_fields _ _ _ _ Hh) as (H60 & Es1 & Es2 & Hsz & H16 & (r0 & Eh)).
    rewrite cut_app in Ef by lia. rewrite H60 in Ef. unfold hdr1.
    destruct (hdr1_read _ _ _ _ _ _ _ _ Hh Ef HR1 Hv1) as (p2 & v2 & Er2 & Es & HR2 & Hv2). rewrite Er2; cbn [bind]. rewrite Es, H60, Es1, Es2. cbn [Z.leb Z.eqb Z.compare Pos.compare Pos.compare_cont Pos.eqb negb]. destruct (Z.ltb_spec (zlen data) 0); [lia|].
    assert (name_len h 16 = O) as -> by (rewrite Eh; reflexivity). cbn [Z.of_nat Z.eqb].
    assert (zget h 1 = Some 32) as -> by (rewrite Eh; reflexivity). cbn [Z.eqb Pos.eqb].
    destruct (quiet_skip par full lim HQ p2 v2 (zlen data) HR2) as (p3 & r' & v3 & E3 & _ & R3 & P3 & L3 & Hr3); [lia|]. rewrite E3; cbn [bind].
    assert (left_of rest (k - zlen (h ++ data ++ pad)) (v_pos v3)) as HL.
    { rewrite !zlen_app. replace (k - (zlen h + (zlen data + zlen pad))) with (k - 60 - zlen data - zlen pad) by lia. pose proof (zlen_nonneg pad).
      destruct (Z.lt_ge_cases (k - 60) (zlen data)) as [Hs|Hs].
      - right. split; [lia|]. rewrite slice_app_l in Ef by lia. apply (f_equal zlen) in Ef. rewrite !zlen_app, zlen_slice in Ef by lia. lia.
      - rewrite cut_app in Ef by lia. assert (v_pos v3 = zlen (pre1 ++ h) + zlen data) as ->.
        { assert (v_pos v2 + zlen data <= zlen full); [|rewrite zlen_app; lia]. rewrite Ef, !zlen_app. pose proof (zlen_nonneg (slice (pad ++ rest) 0 (k - 60 - zlen data))). lia. }
        eapply left_next; [lia|rewrite Ef, app_assoc; reflexivity| |exact Hp]. rewrite zlen_app, H60, <- Zplus_mod_idemp_l, Hev. reflexivity. }
    assert (length rest < fuel)%nat as A4 by (rewrite !app_length in Hf; unfold zlen in H60; lia).
    match goal with |- context [ar_header par fuel p3 names ?i] => destruct (IH _ names rest ms last fin p3 v3 i HM' HL R3 A4) as (p' & names' & st' & inf' & E4 & Hres) end.
    rewrite E4; cbn [bind]. do 4 eexists; split; [reflexivity|]. assert (Hty := ar_cut_type _ _ _ _ _ _ _ HM').
    destruct ms as [|m ms1]; [destruct last as [[i part]|]; [|exact Hres]|].
    + destruct Hres as (Q0 & Q1 & -> & Q3). split; [exact Q0|]. split; [exact Q1|]. split; [destruct i; cbn in *; subst; reflexivity|exact Q3].
    + destruct Hres as (Q1 & -> & Q3 & Q4 & k' & pre2 & more & rest2 & v' & Q5 & Q6 & Q7 & Q8 & Q9 & Q10). split; [exact Q1|]. split; [destruct (m_info m); cbn in *; subst; reflexivity|].
      split; [exact Q3|]. split; [exact Q4|]. exists k', pre2, more, rest2, v'. repeat (split; [assumption|]). rewrite !app_length. unfold zlen in H60. lia.
  - subst. destruct (hdr_fields _ _ _ _ Hh) as (H60 & Es1 & Es2 & Hsz & H16 & (r0 & Eh)). pose proof (zlen_nonneg table).
    rewrite cut_app in Ef by lia. rewrite H60 in Ef. rewrite cut_app in Ef by lia. unfold hdr1.
    destruct (hdr1_read _ _ _ _ _ _ _ _ Hh Ef HR1 Hv1) as (p2 & v2 & Er2 & Es & HR2 & Hv2). rewrite Er2; cbn [bind]. rewrite Es, H60, Es1, Es2. cbn [Z.leb Z.eqb Z.compare Pos.compare Pos.compare_cont Pos.eqb negb]. destruct (Z.ltb_spec (zlen table) 0); [lia|].
    assert (name_len h 16 = O) as -> by (rewrite Eh; reflexivity). cbn [Z.of_nat Z.eqb].
    assert (zget h 1 = Some 47) as -> by (rewrite Eh; reflexivity). cbn [Z.eqb Pos.eqb].
    assert (0 < zlen table) as Ht0 by (destruct table; [congruence|rewrite zlen_cons; pose proof (zlen_nonneg table); lia]).
    destruct (read_exact par full lim p2 v2 (zlen table) HR2) as (p3 & E & _ & HR3); [lia|lia| |].
    { rewrite Ef, !zlen_app. pose proof (zlen_nonneg (slice (pad ++ rest) 0 (k - 60 - zlen table))). lia. }
    rewrite E; cbn [bind v_pos]. rewrite Z.eqb_refl; cbn [negb].
    assert (slice full (v_pos v2) (zlen table) = table) as Etb by (rewrite Ef, app_assoc; apply slice_mid; [rewrite zlen_app; lia|reflexivity]).
    rewrite Etb. rewrite Z.leb_refl; cbn [negb]. rewrite slice_all.
    match type of HR3 with Conforms _ _ _ _ _ ?vv => set (v3 := vv) in * end.
    assert (left_of rest (k - zlen (h ++ table ++ pad)) (v_pos v3)) as HL.
    { rewrite !zlen_app. replace (k - (zlen h + (zlen table + zlen pad))) with (k - 60 - zlen table - zlen pad) by lia.
      unfold v3; cbn [v_pos]. replace (v_pos v2) with (zlen (pre1 ++ h)) by (rewrite zlen_app; lia).
      eapply left_next; [lia|rewrite Ef, app_assoc; reflexivity| |exact Hp]. rewrite zlen_app, H60, <- Zplus_mod_idemp_l, Hev. reflexivity. }
    assert (length rest < fuel)%nat as A4 by (rewrite !app_length in Hf; unfold zlen in H60; lia).
    match goal with |- context [ar_header par fuel p3 table ?i] => destruct (IH _ table rest ms last fin p3 v3 i HM' HL HR3 A4) as (p' & names' & st' & inf' & E4 & Hres) end.
    rewrite E4; cbn [bind]. do 4 eexists; split; [reflexivity|]. assert (Hty := ar_cut_type _ _ _ _ _ _ _ HM').
    destruct ms as [|m ms1]; [destruct last as [[i part]|]; [|exact Hres]|].
    + destruct Hres as (Q0 & Q1 & -> & Q3). split; [exact Q0|]. split; [exact Q1|]. split; [destruct i; cbn in *; subst; reflexivity|exact Q3].
    + destruct Hres as (Q1 & -> & Q3 & Q4 & k' & pre2 & more & rest2 & v' & Q5 & Q6 & Q7 & Q8 & Q9 & Q10). split; [exact Q1|]. split; [destruct (m_info m); cbn in *; subst; reflexivity|].
      split; [exact Q3|]. split; [exact Q4|]. exists k', pre2, more, rest2, v'. repeat (split; [assumption|]). rewrite !app_length. unfold zlen in H60. lia.
  - subst. destruct (hdr_fields _ _ _ _ Hh) as (H60 & Es1 & Es2 & Hsz & H16 & (r0 & Eh)).
    rewrite cut_app in Ef by lia. rewrite H60 in Ef. rewrite slice_app_l in Ef by lia. unfold hdr1.
    destruct (hdr1_read _ _ _ _ _ _ _ _ Hh Ef HR1 Hv1) as (p2 & v2 & Er2 & Es & HR2 & Hv2). rewrite Er2; cbn [bind]. rewrite Es, H60, Es1, Es2. cbn [Z.leb Z.eqb Z.compare Pos.compare Pos.compare_cont Pos.eqb negb]. destruct (Z.ltb_spec (zlen table) 0); [lia|].
    assert (name_len h 16 = O) as -> by (rewrite Eh; reflexivity). cbn [Z.of_nat Z.eqb].
    assert (zget h 1 = Some 47) as -> by (rewrite Eh; reflexivity). cbn [Z.eqb Pos.eqb].
    destruct (quiet_read par full lim HQ p2 v2 (zlen table) (zlen table) HR2) as (p3 & r' & d & v3 & E3 & _ & R3 & L3 & _ & Hr3); [lia|lia|]. rewrite E3; cbn [bind].
    apply (f_equal zlen) in Ef. rewrite !zlen_app, zlen_slice in Ef by lia.
    destruct (Z.eqb_spec r' (zlen table)); [lia|]. cbn [negb]. do 4 eexists; split; [reflexivity|]. split; [reflexivity|discriminate].
Qed.
(** ** the listing *)
Definition ar_at (a : ar P) (q : Z) : Prop :=
  a_st a = Ok /\ exists p v, (match a_cur a with inl p => Ret p | inr s => let* (s, _) := sub_skip par s (su_size s) in Ret (su_par s) end) = Ret p /\ R p v /\ v_pos v = q.
Lemma ar_lists_cut fuel ms : forall k names bytes last fin a, ar_cut lim k names bytes ms last fin ->
  (exists q, ar_at a q /\ left_of bytes k q) -> a_names a = names -> (length bytes < fuel)%nat -> lists_cut (ar_provider par fuel) lim ms last fin a.
Proof.
  induction ms as [|m ms IH]; intros k names bytes last fin a HM (q & (Hst & p & v & Ep & HR & Hv) & HL) Hnm Hf.
  all: subst q; destruct (ar_header_cut fuel k names bytes _ last fin p v (a_info a) HM HL HR Hf) as (p' & names' & st' & inf' & E & Hres).
  all: assert (ar_next par fuel a = match st' with Ok => let* s := sub_new par p' (i_size inf') in Ret (mkAr (inr s) names' Ok inf', Some inf') | _ => Ret (mkAr (inl p') names' st' inf', None) end) as EN
    by (unfold ar_next; rewrite Hst, Ep; cbn [bind]; rewrite Hnm, E; reflexivity).
  - destruct last as [[i part]|]; cbn [lists_cut pv_next pv_entry pv_status ar_provider]; rewrite EN.
    + destruct Hres as (-> & -> & -> & pre2 & v' & Hfull & Hsz & HR' & Hv' & Hpart). pose proof (zlen_nonneg pre2). pose proof (zlen_nonneg part).
      assert (zlen full = zlen pre2 + zlen part) as Lf by (rewrite Hfull, zlen_app; reflexivity).
      assert (slice full (zlen pre2) (i_size i) = part) as Epart by (rewrite Hfull, slice_app_r by lia; rewrite Z.sub_diag; symmetry; exact Hpart).
      unfold sub_new. destruct (Z.ltb_spec (i_size i) (-1)); [lia|]. cbn [bind]. assert (o_pos par p' = zlen pre2) as -> by (destruct HR' as (_ & Hpo & _); lia).
      eexists; split; [reflexivity|]. split; [reflexivity|]. intros h Hhs. unfold ar_entry. cbn [a_cur].
      assert (sub_R full R (zlen pre2) (i_size i) (mkSub p' (zlen pre2) (i_size i) 0 Ok) view0) as HRs by (eapply (sub_init_R par full False lim); [exact HS|lia|exact HR'|lia]).
      destruct (cut_run par full lim HQ (zlen pre2) (i_size i) ltac:(lia) ltac:(lia) ltac:(lia) h _ _ HRs) as (s' & obs & Er & Ha & Hfa & Hend); [rewrite Epart; exact Hhs|]. rewrite Er; cbn [bind]. rewrite Epart in Ha.
      do 2 eexists; split; [reflexivity|]. split; [exact Ha|]. split; [exact Hfa|].
      destruct (cut_leave par full lim HQ (zlen pre2) (i_size i) ltac:(lia) ltac:(lia) ltac:(lia) s' Hend) as (s2 & k2 & v2 & E2 & HR2 & Hv2).
      unfold ar_next. cbn [a_st a_cur a_names a_info]. rewrite E2; cbn [bind]. destruct fuel as [|fuel]; [lia|].
      destruct (ar_header_cut (S fuel) 0 names' [] [] None Eof (su_par s2) v2 i (arc_eof _ _ _)) as (p3 & names3 & st3 & inf3 & E3 & Hst3 & _); [right; lia|exact HR2|cbn; lia|].
      rewrite E3; cbn [bind]. rewrite Hst3. eexists; split; [reflexivity|reflexivity].
    + destruct Hres as (<- & Hne). destruct st'; [congruence| |]; (eexists; split; [reflexivity|reflexivity]).
  - destruct Hres as (-> & Q2 & Q3 & Q4 & k' & pre2 & more & rest & v' & Q5 & Q6 & Q7 & Q8 & Q9 & Q10). cbn [lists_cut pv_next pv_entry pv_status ar_provider]. rewrite EN, Q3, Q2.
    pose proof (zlen_nonneg pre2). pose proof (zlen_nonneg (m_data m)). pose proof (zlen_nonneg more).
    assert (zlen full = zlen pre2 + (zlen (m_data m) + zlen more)) as Lf by (rewrite Q5, !zlen_app; reflexivity).
    assert (slice full (zlen pre2) (zlen (m_data m)) = m_data m) as Hdata by (rewrite Q5; apply slice_mid; reflexivity).
    destruct (entry_new par full lim (zlen pre2) (zlen (m_data m)) ltac:(lia) p' v' Q6 Q7) as (s & En & HRs). rewrite En; cbn [bind].
    eexists; split; [reflexivity|]. split; [reflexivity|]. intros h Hh. unfold ar_entry. cbn [a_cur].
    destruct (entry_run par full lim (zlen pre2) (zlen (m_data m)) ltac:(lia) ltac:(lia) ltac:(lia) h s view0 HRs) as (s' & obs & v2 & Er & Ha & HRs'); [rewrite Hdata; exact Hh|].
    rewrite Er; cbn [bind]. rewrite Hdata in Ha. do 2 eexists; split; [reflexivity|]. split; [exact Ha|].
    apply (IH k' names' rest last fin); [exact Q8| |reflexivity|lia].
    destruct (entry_finish par full lim (zlen pre2) (zlen (m_data m)) ltac:(lia) ltac:(lia) ltac:(lia) s' v2 HRs') as (s2 & k2 & E2 & HR2 & _).
    destruct (entry_parent par full lim (zlen pre2) (zlen (m_data m)) ltac:(lia) ltac:(lia) ltac:(lia) s2 _ HR2) as (HRp & _).
    exists (zlen pre2 + zlen (m_data m)). split; [|exact Q9]. split; [reflexivity|]. cbn [a_cur]. rewrite E2; cbn [bind]. do 2 eexists; split; [reflexivity|]. split; [exact HRp|reflexivity].
Qed.
End Cut.
