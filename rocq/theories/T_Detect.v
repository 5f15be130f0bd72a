(** C34: format detection. *)
From Verif Require Import Base StreamSpec TextSpec KmpSpec DetectSpec M_Kmp M_Ar M_Cpio M_Tar M_Inflate M_StringStream P_StringStream M_Detect P_Stream P_Detect.

(** [check] looks only at the bytes it is given (an access outside would be UB) and accepts exactly [is_fmt] *)
Definition detects (check : list Z -> out bool) (is_fmt : list Z -> Prop) : Prop :=
  forall d, bytes d -> exists b, check d = Ret b /\ (b = true <-> is_fmt d).

Theorem C34_magic :
  detects ar_check is_ar /\ detects cpio_check is_cpio /\ detects zip_check is_zip /\ detects rpm_check is_rpm /\
  detects ole_check is_ole /\ detects gzip_check is_gzip /\ detects bz2_check is_bz2.
Proof.
  split; [intros d _; apply ar_check_ok|]. split; [intros d _; apply cpio_check_ok|]. split; [intros d _; apply zip_check_ok|].
  split; [intros d _; apply rpm_check_ok|]. split; [intros d _; apply ole_check_ok|]. split; [intros d _; apply gzip_check_ok|].
  intros d _; apply bz2_check_ok.
Qed.
Theorem C34_lzma : detects lzma_check is_lzma.
Proof. intros d H. apply lzma_check_ok. exact H. Qed.
Theorem C34_tar : detects tar_check is_tar.
Proof. intros d _. apply tar_check_ok. Qed.
Theorem C34_sdf : detects sdf_check is_sdf.
Proof. intros d H. apply sdf_check_ok. exact H. Qed.
Theorem C34_mail : detects mail_check is_mail.
Proof. intros d H. apply mail_check_ok. exact H. Qed.

(** non-trivial members of the formats: accepted and, one byte changed, refused *)
Definition mail_eg : list Z := [83;117;98;106;58;32;120;13;10;9;121;13;10;65;58;13;10;13;10;104;105].
Definition sdf_eg : list Z := [109;13;10;97;10;98;13;99;32;86;50;48;48;48;10;32].
Theorem C34_case : mail_check mail_eg = Ret true /\ mail_check (mail_eg ++ [200]) = Ret false /\ is_mail mail_eg /\
  sdf_check sdf_eg = Ret true /\ sdf_check (firstn 15 sdf_eg) = Ret false /\ is_sdf sdf_eg.
Proof.
  assert (bytes mail_eg) as B1 by (repeat (apply Forall_cons; [lia|]); apply Forall_nil).
  assert (bytes sdf_eg) as B2 by (repeat (apply Forall_cons; [lia|]); apply Forall_nil).
  assert (mail_check mail_eg = Ret true) as E1 by (vm_compute; reflexivity).
  assert (sdf_check sdf_eg = Ret true) as E2 by (vm_compute; reflexivity).
  split; [exact E1|]. split; [vm_compute; reflexivity|]. split.
  - destruct (C34_mail mail_eg B1) as (b & E & Hb). apply Hb. congruence.
  - split; [exact E2|]. split; [vm_compute; reflexivity|]. destruct (C34_sdf sdf_eg B2) as (b & E & Hb). apply Hb. congruence.
Qed.

(** The checks used inside the archive models are the same functions. *)
Theorem C34_same_functions : forall d,
  ar_check d = Ret (ar_checkHeader d) /\ cpio_check d = Ret (cpio_checkHeader d).
Proof.
  intros d. unfold ar_check, ar_checkHeader, cpio_check, cpio_checkHeader, memeq.
  change (zlen [33;60;97;114;99;104;62;10]) with 8. change (zlen [48;55;48;55;48;49]) with 6. cbn [Z.leb Z.compare andb Z.add].
  split.
  - destruct (Z.ltb_spec (zlen d) 8); [reflexivity|]. destruct (Z.leb_spec 8 (zlen d)); [reflexivity|lia].
  - destruct (Z.ltb_spec (zlen d) 6); [reflexivity|]. destruct (Z.leb_spec 6 (zlen d)); [reflexivity|lia].
Qed.

(** SubStreamProviderProvider::subStreamProvider on any conforming input with at least four bytes left:
    it decides on the bytes at the current position (at least 1024 of them, or all that is left) and
    hands the input over at the position where it was, in working order. *)
Theorem C34_dispatch_partial : forall P (par : ops P Z) content lim p v,
  Conforms par content False lim p v -> 1024 <= lim -> bytes content -> 4 <= zlen content - v_pos v ->
  exists p' k n v', subStreamProvider par p = Ret (p', k) /\
    0 < n /\ (1024 <= n \/ v_pos v + n = zlen content) /\ decides (slice content (v_pos v) n) k /\
    Conforms par content False lim p' v' /\ v_pos v' = v_pos v /\ o_pos par p' = o_pos par p.
Proof.
  intros P par content lim p v HC Hlim HB H4. pose proof (conforms_sim par content False lim) as HS.
  pose proof HC as (HV & Hpos & _). destruct HV as (V1 & V2).
  unfold subStreamProvider.
  destruct (sim_read par content False lim _ p v 1024 0 HS HC) as (p1 & n & h & -> & [(G & HC1)|(_ & C & _)]); [|cbn [bind]|tauto].
  { cbn [call_ok]. unfold INT32_MAX, INT32_MIN. lia. }
  destruct G as (_ & _ & _ & _ & [(Hn & Hd & Hle & _ & Hmin)|(_ & _ & C & _)]); cbn [observe ob_ret ob_data] in *; [|lia].
  assert (next_view v (Read 1024 0) (observe par p1 n h) = mkView (v_pos v + n) (v_pos v) (v_pos v + n)) as EV.
  { cbn [next_view observe ob_ret]. destruct (Z.ltb_spec 0 n); [reflexivity|lia]. }
  rewrite EV in HC1.
  destruct (sim_reset par content False lim _ p1 _ (v_pos v) HS HC1) as (p2 & r & ER & [(G2 & HC2)|(_ & [])]); [lia|].
  rewrite Hpos, ER. cbn [bind].
  destruct (Z.leb_spec n 0); [lia|]. cbn [next_view v_lo v_hi] in HC2.
  destruct (Z.leb_spec (v_pos v) (v_pos v)), (Z.leb_spec (v_pos v) (v_pos v + n)); try lia. cbn [andb] in HC2.
  assert (zlen h = n) as Lh by (rewrite Hd; apply zlen_slice; lia).
  destruct (rdc_ok h 0) as (c0 & -> & _); [lia|]. destruct (rdc_ok h 1) as (c1 & -> & _); [lia|].
  destruct (rdc_ok h 2) as (c2 & -> & _); [lia|]. destruct (rdc_ok h 3) as (c3 & -> & _); [lia|]. cbn [bind].
  assert (bytes h) as Bh by (rewrite Hd; apply bytes_slice; exact HB).
  destruct (mail_check_ok h Bh) as (bm & -> & Hm). cbn [bind]. destruct (zip_check_ok h) as (bz & -> & Hz). destruct (sdf_check_ok h Bh) as (bs & -> & Hs).
  assert (o_pos par p2 = v_pos v) as E2 by (destruct HC2 as (_ & E2 & _); exact E2).
  destruct bm; [|cbn [bind]; destruct bz; [|cbn [bind]]];
    (eexists _, _, n, _; split; [reflexivity|]; split; [lia|]; split; [lia|]; split; [rewrite <- Hd|split; [exact HC2|split; [reflexivity|congruence]]]).
  - apply Hm. reflexivity.
  - split; [apply Hz; reflexivity|]. intros C. apply Hm in C. discriminate.
  - assert (~ is_mail h) by (intros C; apply Hm in C; discriminate). assert (~ is_zip h) by (intros C; apply Hz in C; discriminate).
    destruct bs.
    + split; [apply Hs; reflexivity|]. tauto.
    + split; [|tauto]. intros C. apply Hs in C. discriminate.
Qed.
(** an input of one to three bytes: the trace output reads header[0] .. header[3], outside the data *)
Theorem C34_short_input_refuted : exists content : list Z, zlen content = 3 /\ bytes content /\
  subStreamProvider ss_ops (mkSS content (zlen content) 0 Ok) = UB.
Proof. exists [97;98;99]. split; [reflexivity|]. split; [repeat (apply Forall_cons; [lia|]); apply Forall_nil|]. vm_compute. reflexivity. Qed.
(** an exhausted input: no provider *)
Theorem C34_empty_input : forall P (par : ops P Z) content lim p v,
  Conforms par content False lim p v -> 1024 <= lim -> v_pos v = zlen content ->
  exists p', subStreamProvider par p = Ret (p', KNone) /\ o_pos par p' = o_pos par p.
Proof.
  intros P par content lim p v HC Hlim HE. pose proof (conforms_sim par content False lim) as HS.
  pose proof HC as (HV & Hpos & _). destruct HV as (V1 & V2).
  unfold subStreamProvider.
  destruct (sim_read par content False lim _ p v 1024 0 HS HC) as (p1 & n & h & -> & [(G & HC1)|(_ & C & _)]); [|cbn [bind]|tauto].
  { cbn [call_ok]. unfold INT32_MAX, INT32_MIN. lia. }
  destruct G as (_ & _ & _ & _ & [(Hn & Hd & Hle & _ & Hmin)|(Hn & _ & C & _)]); cbn [observe ob_ret ob_data] in *; [lia|].
  assert (next_view v (Read 1024 0) (observe par p1 n h) = mkView (v_pos v) (v_pos v) (v_pos v)) as EV.
  { cbn [next_view observe ob_ret]. destruct (Z.ltb_spec 0 n); [lia|reflexivity]. }
  rewrite EV in HC1.
  destruct (sim_reset par content False lim _ p1 _ (v_pos v) HS HC1) as (p2 & r & ER & [(G2 & HC2)|(_ & [])]); [lia|].
  rewrite Hpos, ER. cbn [bind]. destruct (Z.leb_spec n 0); [|lia]. exists p2. split; [reflexivity|].
  destruct HC2 as (_ & E2 & _). rewrite E2. cbn [next_view v_lo v_hi v_pos].
  destruct (Z.leb_spec (v_pos v) (v_pos v)); [reflexivity|lia].
Qed.
(** a zip file is never mistaken for a mail *)
Theorem C34_zip_not_mail : forall d, is_zip d -> ~ is_mail d.
Proof.
  intros d ((r & ->) & _) (rest & H). apply message_run in H. cbn in H. discriminate.
Qed.
(** the hypotheses are met: a string stream *)
Theorem C34_dispatch_case : exists p', subStreamProvider ss_ops (mkSS mail_eg (zlen mail_eg) 0 Ok) = Ret (p', KMail) /\
  Conforms ss_ops mail_eg False INT32_MAX (mkSS mail_eg (zlen mail_eg) 0 Ok) view0.
Proof. eexists. split; [vm_compute; reflexivity|]. apply ss_conforms. vm_compute. discriminate. Qed.
