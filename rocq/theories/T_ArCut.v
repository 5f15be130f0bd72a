(** C59, ar: listing an ar archive that was cut off. *)
From Verif Require Import Base StreamSpec P_Stream M_StringStream P_StringStream M_Sub ArchiveSpec M_Ar ArSpec P_Archive P_Ar T_Ar CpioCutSpec T_CpioCut ArCutSpec P_ArCut.

(** every archive that was cut off anywhere is described by [ar_cut], and what is left are the first members of the archive;
    the member that is cut has fewer data than its header says *)
Lemma ar_cut_exists lim names bytes ms0 : ar_members lim names bytes ms0 -> forall k, exists ms last fin, ar_cut lim k names bytes ms last fin /\
  exists more, ms0 = ms ++ more /\ forall i part, last = Some (i, part) -> exists m more', more = m :: more' /\ m_info m = i /\
    part = slice (m_data m) 0 (zlen part) /\ zlen part < i_size i.
Proof.
  assert (forall names name mtime h data pad rest ms k, ar_named names name mtime (zlen data) h -> zlen pad = zlen data mod 2 ->
    (exists ms1 last fin, ar_cut lim (k - zlen (h ++ data ++ pad)) names rest ms1 last fin /\
       exists more, ms = ms1 ++ more /\ forall i part, last = Some (i, part) -> exists m more', more = m :: more' /\ m_info m = i /\ part = slice (m_data m) 0 (zlen part) /\ zlen part < i_size i) ->
    exists ms1 last fin, ar_cut lim k names (h ++ data ++ pad ++ rest) ms1 last fin /\
      exists more, mkMember (mkInfo name (zlen data) mtime 2) data :: ms = ms1 ++ more /\
        forall i part, last = Some (i, part) -> exists m more', more = m :: more' /\ m_info m = i /\ part = slice (m_data m) 0 (zlen part) /\ zlen part < i_size i) as Hm.
  { intros names0 name mtime h data pad rest ms k Hh Hp (ms1 & last & fin & Hc & more & E & Hl).
    assert (zlen h = 60) as H60 by (destruct Hh as [(nf & Hh & _)|(? & ? & ? & Hh & _)]; apply hdr_fields in Hh; apply Hh).
    destruct (Z.lt_ge_cases k 60) as [H1|H1].
    { do 3 eexists. split; [apply arc_head; [exact H1|rewrite zlen_app, H60; match goal with |- _ <= 60 + zlen ?x => pose proof (zlen_nonneg x) end; lia]|]. eexists. split; [reflexivity|]. discriminate. }
    destruct (Z.lt_ge_cases k (60 + zlen data)) as [H2|H2].
    { exists []. do 2 eexists. split; [eapply arc_data; try eassumption; lia|]. eexists. split; [reflexivity|]. intros i part Ei. injection Ei as <- <-.
      do 2 eexists. split; [reflexivity|]. cbn [m_info m_data i_size]. split; [reflexivity|]. rewrite zlen_slice by lia. split; [reflexivity|lia]. }
    eexists (_ :: ms1), last, fin. split; [eapply arc_whole; eassumption|]. exists more. split; [rewrite E; reflexivity|exact Hl]. }
  intros HM. induction HM as [names|names namef name mtime h data pad rest ms Hh Hn Hp HM IH|names r mtime h data pad rest ms Hh Hp HM IH|names r mtime h table pad rest ms Hh Ht Htl Hp HM IH
    |names before name after f mtime h data pad rest ms Hh Hd En Hnm Hbf Hp HM IH]; intros k.
  - exists [], None, Eof. split; [constructor|]. exists []. split; [reflexivity|]. discriminate.
  - apply Hm; [left; exists namef; auto|exact Hp|apply IH].
  - assert (zlen h = 60) as H60 by (apply hdr_fields in Hh; apply Hh). destruct (Z.lt_ge_cases k 60) as [H1|H1].
    { do 3 eexists. split; [apply arc_head; [exact H1|rewrite zlen_app, H60; match goal with |- _ <= 60 + zlen ?x => pose proof (zlen_nonneg x) end; lia]|]. eexists. split; [reflexivity|]. discriminate. }
    destruct (IH (k - zlen (h ++ data ++ pad))) as (ms1 & last & fin & Hc & Hl). exists ms1, last, fin. split; [eapply arc_symbols; eassumption|exact Hl].
  - assert (zlen h = 60) as H60 by (apply hdr_fields in Hh; apply Hh). destruct (Z.lt_ge_cases k 60) as [H1|H1].
    { do 3 eexists. split; [apply arc_head; [exact H1|rewrite zlen_app, H60; match goal with |- _ <= 60 + zlen ?x => pose proof (zlen_nonneg x) end; lia]|]. eexists. split; [reflexivity|]. discriminate. }
    destruct (Z.lt_ge_cases k (60 + zlen table)) as [H2|H2].
    { do 3 eexists. split; [eapply arc_table_cut; try eassumption; lia|]. eexists. split; [reflexivity|]. discriminate. }
    destruct (IH (k - zlen (h ++ table ++ pad))) as (ms1 & last & fin & Hc & Hl). exists ms1, last, fin. split; [eapply arc_table; eassumption|exact Hl].
  - apply Hm; [right; exists f, before, after; auto 10|exact Hp|apply IH].
Qed.

(** For every ar archive, cut off after any number [k] of bytes (also inside of the magic, a header, the table of names, or padding), behind
    whatever comes before it in any quiet conforming input: as for cpio; the listing ends with Error if the cut is in the magic, in a header (after its first byte) or in the table of names, otherwise with Eof.
    Missing: that this status always is Error (C59_ar_silent_data_refuted). *)
Theorem C59_ar_cut_archive_partial : forall (P : Type) (par : ops P Z) full lim p v pre bytes ms0 k,
  Conforms par full False lim p v -> quiet par full lim -> 60 <= lim -> 0 <= k -> full = pre ++ slice bytes 0 k -> zlen pre = v_pos v -> v_pos v mod 2 = 0 ->
  ar_archive lim bytes ms0 ->
  exists ms last fin a, ar_cut_archive lim k bytes ms last fin /\ ar_new par p = Ret a /\
    (forall fuel, (length bytes < fuel)%nat -> lists_cut (ar_provider par fuel) lim ms last fin a) /\
    exists more, ms0 = ms ++ more /\ forall i part, last = Some (i, part) -> exists m more', more = m :: more' /\ m_info m = i /\
      part = slice (m_data m) 0 (zlen part) /\ zlen part < i_size i.
Proof.
  intros P par full lim p v pre bytes ms0 k HC HQ Hlim Hk Ef Hpre Hev (rest & Hb & HM).
  set (magic := [33;60;97;114;99;104;62;10]) in *. assert (zlen magic = 8) as Hm by reflexivity. pose proof (zlen_nonneg rest).
  destruct (Z.lt_ge_cases k 8) as [H8|H8].
  - exists [], None, Error.
    destruct (P_CpioCut.quiet_read par full lim HQ p v 8 8 HC) as (p' & r & d & v' & E & _ & _ & L1 & _ & Hr); [lia|unfold INT32_MAX; lia|].
    assert (zlen full = v_pos v + k) as Lf by (rewrite Ef, zlen_app, zlen_slice by (rewrite ?Hb, ?zlen_app; lia); lia).
    assert (HV := HC). destruct HV as (HV & _). unfold view_ok in HV.
    eexists. split; [exists rest; auto 10|]. split; [unfold ar_new; rewrite E; cbn [bind]; destruct (Z.eqb_spec r 8); [lia|]; cbn [negb orb]; reflexivity|].
    split; [|exists ms0; split; [reflexivity|discriminate]].
    intros fuel Hf. cbn [lists_cut pv_next pv_status ar_provider]. unfold ar_next. cbn [a_st]. eexists; split; reflexivity.
  - destruct (ar_cut_exists lim [] rest ms0 HM (k - 8)) as (ms & last & fin & Hc & Hmore). exists ms, last, fin.
    assert (slice bytes 0 k = magic ++ slice rest 0 (k - 8)) as Es by (rewrite Hb, P_CpioCut.cut_app by lia; rewrite Hm; reflexivity). rewrite Es in Ef.
    destruct (read_exact par full lim p v 8 HC) as (p' & E & _ & HC'); [lia|unfold INT32_MAX; lia|rewrite Ef, !zlen_app; pose proof (zlen_nonneg (slice rest 0 (k - 8))); lia|].
    unfold ar_new. rewrite E; cbn [bind]. rewrite <- Hpre in *. assert (slice full (zlen pre) 8 = magic) as -> by (rewrite Ef, <- Hm; apply slice_mid; reflexivity).
    change (negb (8 =? 8) || negb (ar_checkHeader magic)) with false.
    eexists; split; [exists rest; auto|]. split; [reflexivity|]. split; [|exact Hmore]. intros fuel Hf.
    apply (ar_lists_cut par full lim Hlim HQ fuel ms (k - 8) [] rest last fin); [exact Hc| |reflexivity|rewrite Hb, app_length in Hf; lia].
    exists (zlen pre + 8). split; [split; [reflexivity|]; cbn [a_cur]; do 2 eexists; split; [reflexivity|]; split; [exact HC'|reflexivity]|].
    left. split; [lia|]. exists (pre ++ magic), []. split; [rewrite Ef, <- app_assoc; reflexivity|]. rewrite zlen_nil, zlen_app, Hm. split; [|reflexivity].
    rewrite <- Zplus_mod_idemp_l, Hev. reflexivity.
Qed.

(** ** Cases: the archive of T_Ar.v, cut inside of the data of its first member (after the symbol table and the table of names) *)
Example C59_ar_case : ar_archive 2147483647 ar_sample ar_sample_members /\ quiet ss_ops (slice ar_sample 0 216) INT32_MAX /\
  Conforms ss_ops (slice ar_sample 0 216) False INT32_MAX (mkSS (slice ar_sample 0 216) 216 0 Ok) view0.
Proof. split; [exact C22_case|]. split; [apply ss_quiet; vm_compute; discriminate|]. apply ss_conforms. vm_compute. discriminate. Qed.
Example C59_ar_case_run : exists a st, ar_new ss_ops (mkSS (slice ar_sample 0 216) 216 0 Ok) = Ret a /\
  iterate (ar_provider ss_ops 400) [[Read 1 1; Read 1 0]; []] a =
  Ret (st, [(mkInfo [97;95;108;111;110;103;95;102;105;108;101;95;110;97;109;101;46;99] 3 99 2, [mkObs 1 [1] 1 3 Ok; mkObs 1 [2] 2 3 Ok])]).
Proof. do 2 eexists. split; [vm_compute; reflexivity|]. vm_compute. reflexivity. Qed.
(** The listing itself ends as if nothing was missing if the cut is in the data of a member. *)
Theorem C59_ar_silent_data_refuted : exists a st1 i st2, ar_new ss_ops (mkSS (slice ar_sample 0 216) 216 0 Ok) = Ret a /\
  pv_next (ar_provider ss_ops 400) a = Ret (st1, Some i) /\ pv_next (ar_provider ss_ops 400) st1 = Ret (st2, None) /\ pv_status (ar_provider ss_ops 400) st2 = Eof.
Proof. do 4 eexists. split; [vm_compute; reflexivity|]. split; [vm_compute; reflexivity|]. split; vm_compute; reflexivity. Qed.
(** cut inside of the first header *)
Example C59_ar_header_case : exists a st, ar_new ss_ops (mkSS (slice ar_sample 0 40) 40 0 Ok) = Ret a /\
  pv_next (ar_provider ss_ops 400) a = Ret (st, None) /\ pv_status (ar_provider ss_ops 400) st = Error.
Proof. do 2 eexists. split; [vm_compute; reflexivity|]. split; vm_compute; reflexivity. Qed.
