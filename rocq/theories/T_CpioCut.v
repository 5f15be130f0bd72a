(** C59: listing a cpio archive that was cut off. *)
From Verif Require Import Base StreamSpec P_Stream M_StringStream P_StringStream M_Sub ArchiveSpec M_Cpio CpioSpec P_Cpio T_Cpio CpioCutSpec P_CpioCut.

(** every archive that was cut off anywhere is described by [cpio_cut], and what is left are the first members of the archive;
    the member that is cut has fewer data than its header says *)
Lemma cut_exists lim bytes ms0 : cpio_archive lim bytes ms0 -> forall k, exists ms last fin, cpio_cut lim k bytes ms last fin /\
  exists more, ms0 = ms ++ more /\ forall i part, last = Some (i, part) -> exists m more', more = m :: more' /\ m_info m = i /\
    part = slice (m_data m) 0 (zlen part) /\ zlen part < i_size i.
Proof.
  intros HM. induction HM as [|head mtime size rest Hh|head name mtime data pad rest ms Hh Hnt Hp Hpm HM IH]; intros k.
  - exists [], None, Eof. split; [constructor|]. exists []. split; [reflexivity|]. discriminate.
  - destruct (Z.lt_ge_cases k (zlen head)) as [H1|H1]; [exists [], None, (if k <? 110 then Eof else Error); split; [eapply cut_head; eassumption|]|exists [], None, Eof; split; [eapply cut_trailer; eassumption|]];
      (exists []; split; [reflexivity|discriminate]).
  - destruct (Z.lt_ge_cases k (zlen head)) as [H1|H1].
    { exists [], None, (if k <? 110 then Eof else Error). split; [eapply cut_head; eassumption|]. eexists. split; [reflexivity|]. discriminate. }
    destruct (Z.lt_ge_cases k (zlen head + zlen data)) as [H2|H2].
    { exists []. do 2 eexists. split; [eapply cut_data; try eassumption; lia|]. eexists. split; [reflexivity|]. intros i part E. injection E as <- <-.
      do 2 eexists. split; [reflexivity|]. cbn [m_info m_data i_size]. split; [reflexivity|]. rewrite zlen_slice by lia. split; [reflexivity|lia]. }
    destruct (IH (k - zlen (head ++ data ++ pad))) as (ms1 & last & fin & Hc & more & E & Hl).
    eexists (_ :: ms1), last, fin. split; [eapply cut_whole; eassumption|]. exists more. split; [rewrite E; reflexivity|exact Hl].
Qed.

(** For every newc archive, cut off after any number [k] of bytes (also inside of a header or of padding), behind whatever comes before
    it in any quiet conforming input: the members that are complete are listed with their contents; then, if the header of the next one is
    complete, that member is announced as in the intact archive, its stream has the data that are there and no call on it reports the end;
    then the listing ends: with status Error if the cut is in the name of a header, otherwise with Eof.
    Missing: that this status always is Error, as for the streams (C59_silent_data_refuted, C59_silent_header_refuted). *)
Theorem C59_cut_archive_partial : forall (P : Type) (par : ops P Z) full lim p v pre bytes ms0 k fuel,
  Conforms par full False lim p v -> quiet par full lim -> 110 <= lim -> 0 <= k -> full = pre ++ slice bytes 0 k -> zlen pre = v_pos v ->
  cpio_archive lim bytes ms0 -> (2 <= fuel)%nat ->
  exists ms last fin, cpio_cut lim k bytes ms last fin /\ lists_cut (cpio_provider par fuel) lim ms last fin (cpio_new p) /\
    exists more, ms0 = ms ++ more /\ forall i part, last = Some (i, part) -> exists m more', more = m :: more' /\ m_info m = i /\
      part = slice (m_data m) 0 (zlen part) /\ zlen part < i_size i.
Proof.
  intros P par full lim p v pre bytes ms0 k fuel HC HQ Hlim Hk Ef Hpre HM Hf. destruct (cut_exists lim bytes ms0 HM k) as (ms & last & fin & Hc & Hmore).
  exists ms, last, fin. split; [exact Hc|]. split; [|exact Hmore]. destruct fuel as [|[|fuel]]; [lia|lia|].
  apply (cut_lists par full lim HQ Hlim fuel k bytes ms last fin Hc). left. split; [exact Hk|]. exists pre. split; [exact Ef|].
  split; [reflexivity|]. cbn. split; [lia|]. split; [reflexivity|]. exists p, v. split; [reflexivity|]. split; [exact HC|lia].
Qed.

(** memory and mapped files are quiet inputs *)
Lemma ss_quiet full lim : zlen full <= INT32_MAX -> quiet ss_ops full lim.
Proof.
  intros HL p v c p' ob HC Hc Ex. pose proof (zlen_nonneg full). assert (HV := HC). destruct HV as (HV & Hpos & _). unfold view_ok in HV. cbn [ss_ops o_pos] in Hpos.
  destruct (conforms_step ss_ops full False lim p v (Skip 0) HC) as (p0 & ob0 & E0 & H0); [cbn; unfold INT32_MAX; lia|].
  cbn [exec ss_ops o_skip] in E0. unfold ss_skip in E0. cbn [Z.eqb bind] in E0. injection E0 as <- <-.
  assert (ss_st p <> Error /\ (ss_size p = -1 \/ ss_size p = zlen full)) as (Hst & Hsz).
  { destruct H0 as [((G1 & _ & _ & G4 & _) & _)|(_ & [[]|(F & _)])]; [|lia]. cbn in G1, G4. split; [exact G1|tauto]. }
  destruct (conforms_step ss_ops full False lim p v c HC Hc) as (p1 & ob1 & E1 & H1). rewrite Ex in E1. injection E1 as <- <-.
  assert (forall (q : sstream Z) mn mx q' n d, ss_st q <> Error -> ss_read q mn mx = Ret (q', n, d) -> ss_st q' <> Error) as Hrd.
  { intros q mn mx q' n d Hq. unfold ss_read. destruct (_ =? 0); [intros E; injection E as <- _ _; cbn; discriminate|]. cbv zeta.
    match goal with |- (if ?c then _ else _) = _ -> _ => destruct c; [|discriminate] end. intros E; injection E as <- _ _. cbn [ss_st]. destruct (_ =? _); [discriminate|exact Hq]. }
  destruct c as [mn mx|n|q]; cbn [exec ss_ops o_read o_skip o_reset call_ok] in Ex, Hc.
  - destruct (ss_read p mn mx) as [[[q1 n1] d1]| | |] eqn:Er; cbn [bind] in Ex; try discriminate. injection Ex as <- <-.
    destruct H1 as [(G & _)|(_ & [] & _)]. destruct G as (G1 & _ & G3 & G4 & G5). split; [exact G1|]. cbn [observe ob_ret ob_st ob_size ob_data ss_ops o_status o_size] in *. intros Hlt.
    destruct G5 as [(R1 & R2 & R3 & R4 & R5)|(_ & _ & _ & R4)]; [|exact R4]. destruct R5 as [R5|R5]; [lia|].
    unfold ss_read in Er. destruct (Z.eqb_spec (ss_size p - ss_pos p) 0); [injection Er as <- <- _; lia|]. cbv zeta in Er.
    match type of Er with (if ?c then _ else _) = _ => destruct c eqn:Ec; [|discriminate] end. injection Er as <- <- _. cbn [ss_st ss_size] in *.
    apply andb_true_iff in Ec as (Ec & _). apply andb_true_iff in Ec as (_ & Ec). apply Z.leb_le in Ec.
    destruct Hsz as [Hsz|Hsz].
    + exfalso. destruct (Z.ltb_spec (ss_size p - ss_pos p) mx), (Z.ltb_spec mx 1); cbn [orb] in *; try lia; rewrite wrap32_id in Ec by (unfold INT32_MIN, INT32_MAX in *; lia); lia.
    + destruct (Z.eqb_spec (ss_pos p + (if (ss_size p - ss_pos p <? mx) || (mx <? 1) then wrap32 (ss_size p - ss_pos p) else mx)) (ss_size p)); [reflexivity|lia].
  - destruct (ss_skip p n) as [[q1 n1]| | |] eqn:Er; cbn [bind] in Ex; try discriminate. injection Ex as <- <-. split; [|exact I]. cbn [observe ob_st ss_ops o_status].
    unfold ss_skip in Er. destruct (n =? 0); [injection Er as <- _; exact Hst|]. destruct (ss_read p (wrap32 n) (wrap32 n)) as [[[q2 n2] d2]| | |] eqn:E2; cbn [bind] in Er; try discriminate. injection Er as <- _. eapply Hrd; eassumption.
  - split; [|exact I]. destruct H1 as [((G1 & _) & _)|(_ & [])]. exact G1.
Qed.
Theorem C59_memory_partial : forall bytes ms0 k, cpio_archive INT32_MAX bytes ms0 -> 0 <= k -> zlen (slice bytes 0 k) <= INT32_MAX ->
  exists ms last fin, cpio_cut INT32_MAX k bytes ms last fin /\ lists_cut (cpio_provider ss_ops 2) INT32_MAX ms last fin (cpio_new (mkSS (slice bytes 0 k) (zlen (slice bytes 0 k)) 0 Ok)).
Proof.
  intros bytes ms0 k HM Hk HL.
  destruct (C59_cut_archive_partial _ ss_ops (slice bytes 0 k) INT32_MAX (mkSS (slice bytes 0 k) (zlen (slice bytes 0 k)) 0 Ok) view0 [] bytes ms0 k 2) as (ms & last & fin & H1 & H2 & _); try assumption; try reflexivity; try lia.
  - apply ss_conforms. exact HL.
  - apply ss_quiet. exact HL.
  - unfold INT32_MAX; lia.
  - exists ms, last, fin. auto.
Qed.

(** ** Cases: the archive of T_Cpio.v *)
Definition cut_sample (k : Z) : sstream Z := mkSS (slice cpio_sample 0 k) k 0 Ok.
(** cut inside of the data of the first member *)
Example C59_case : exists ms last, cpio_cut 2147483647 118 cpio_sample ms last Eof /\ ms = [] /\ last = Some (mkInfo [97] 5 1234567890 2, [1;2]).
Proof.
  do 2 eexists. split; [|split; reflexivity].
  apply (cut_data _ 118 (cpio_h 1234567890 5 4 ++ [46;47;97] ++ [0] ++ [0;0]) [46;47;97] 1234567890 [1;2;3;4;5] [0;0;0]); [chead (cpio_h 1234567890 5 4) [0;0]|discriminate|split; vm_compute; [discriminate|reflexivity]].
Qed.
Example C59_case_memory : exists ms last fin, cpio_cut 2147483647 118 cpio_sample ms last fin /\ lists_cut (cpio_provider ss_ops 2) INT32_MAX ms last fin (cpio_new (mkSS (slice cpio_sample 0 118) (zlen (slice cpio_sample 0 118)) 0 Ok)).
Proof. apply (C59_memory_partial cpio_sample cpio_sample_members 118 C23_case); [lia|vm_compute; discriminate]. Qed.
(** the same, computed: reading goes up to the cut, then fails *)
Example C59_case_run : exists st, iterate (cpio_provider ss_ops 2) [[Read 2 2; Read 1 0]; []] (cpio_new (cut_sample 118)) =
  Ret (st, [(mkInfo [97] 5 1234567890 2, [mkObs 2 [1;2] 2 5 Ok; mkObs (-2) [] 2 5 Error])]).
Proof. eexists. vm_compute. reflexivity. Qed.
(** The listing itself ends as if nothing was missing: if the cut is in the data of a member (whose stream is not read) ... *)
Theorem C59_silent_data_refuted : exists st1 i st2, pv_next (cpio_provider ss_ops 2) (cpio_new (cut_sample 118)) = Ret (st1, Some i) /\
  pv_next (cpio_provider ss_ops 2) st1 = Ret (st2, None) /\ pv_status (cpio_provider ss_ops 2) st2 = Eof.
Proof. do 3 eexists. split; [vm_compute; reflexivity|]. split; vm_compute; reflexivity. Qed.
(** ... or in the first 110 bytes of a header *)
Theorem C59_silent_header_refuted : exists st2, pv_next (cpio_provider ss_ops 2) (cpio_new (cut_sample 60)) = Ret (st2, None) /\ pv_status (cpio_provider ss_ops 2) st2 = Eof.
Proof. eexists. split; vm_compute; reflexivity. Qed.
(** cut inside of the name of the first header *)
Example C59_header_case : exists st, pv_next (cpio_provider ss_ops 2) (cpio_new (cut_sample 112)) = Ret (st, None) /\ pv_status (cpio_provider ss_ops 2) st = Error.
Proof. eexists. split; vm_compute; reflexivity. Qed.
