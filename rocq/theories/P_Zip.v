From Verif Require Import Base StreamSpec P_Stream M_Sub P_Sub P_Sub2 M_Buffered BufferedSpec P_Buffered M_Inflate InflateSpec P_Inflate
  ArchiveSpec P_Archive P_Entry M_Ar P_Ar M_Text TextSpec TarSpec P_Tar M_Zip ZipSpec.

(** ** draining a buffered stream *)
Section Drain.
Context {S : Type}.
Variables (src : source S Z) (content : list Z) (SR : S -> Z -> Prop) (SE : S -> Prop).
Hypothesis Hsrc : SrcOK src content False SR SE.
Notation core := (bs_core content False SR SE).
Lemma bs_skip_progress x pos n : core x pos -> 1 <= n <= INT32_MAX ->
  exists x' k, bs_skip src x n = Ret (x', k) /\ core x' (pos + k) /\ (1 <= k \/ (k = 0 /\ bs_st x' = Eof)) /\ pos + k <= zlen content.
Proof.
  intros HC Hn. rewrite bs_skip_nonneg by lia.
  destruct (bs_skip_core src content False SR SE Hsrc (Z.to_nat n) x pos n 0 HC ltac:(lia) ltac:(lia) (Nat.le_refl _)) as (x' & k & E & Hk & [(_ & [])|(H1 & H2 & H3)]).
  exists x', k. split; [exact E|]. split; [exact H1|]. split; [|exact H2].
  destruct (Z.eq_dec k 0) as [->|]; [right|left; lia]. split; [reflexivity|].
  destruct (Z.to_nat n) as [|f] eqn:En; [lia|]. cbn [bs_skip_loop] in E. destruct (Z.eqb_spec n 0); [lia|].
  destruct (bs_read_core src content False SR SE Hsrc x pos 1 (wrap32 (if b_size (bs_buf x) <? n then b_size (bs_buf x) else n)) HC ltac:(unfold BUF_LIM; lia)) as (x1 & m & d & E1 & [(_ & [] & _)|[(M1 & _ & _ & M2 & _)|(M1 & _ & _ & _ & M2 & _)]]); [lia|].
  rewrite E1 in E; cbn [bind] in E. subst m. cbn [Z.leb Z.compare] in E. injection E as <-. exact M2.
Qed.
Lemma bs_drain n : 1 <= n <= INT32_MAX -> forall fuel x pos, core x pos -> fin_inv x -> (Z.to_nat (zlen content - pos) + 1 <= fuel)%nat ->
  exists x', zip_drain (bs_ops src) fuel x n = Ret x' /\ bs_st x' = Eof /\ fin_inv x' /\ core x' (zlen content).
Proof.
  intros Hn. induction fuel as [|fuel IH]; intros x pos HC Hf Hfuel; [lia|]. cbn [zip_drain]. change (o_status (bs_ops src) x) with (bs_st x).
  assert (HC' := HC). destruct HC' as (Hrep & _ & C1 & _ & _ & C2 & _). destruct (bs_st x) eqn:Est; [|exists x; rewrite (C2 eq_refl) in HC; auto|congruence].
  destruct (bs_skip_progress x pos n HC Hn) as (x1 & k & E & H1 & H2 & H3).
  change (o_skip (bs_ops src) x n) with (bs_skip src x n). rewrite E; cbn [bind].
  assert (fin_inv x1) as Hf1 by (unfold bs_skip in E; eapply fin_skip; eassumption).
  destruct H2 as [H2|(-> & H2)]; [apply (IH x1 (pos + k)); [exact H1|exact Hf1|lia]|].
  assert (forall fu, zip_drain (bs_ops src) fu x1 n = Ret x1) as -> by (intros [|fu]; cbn [zip_drain]; change (o_status (bs_ops src) x1) with (bs_st x1); rewrite H2; reflexivity).
  exists x1. split; [reflexivity|]. split; [exact H2|]. split; [exact Hf1|]. assert (HC1 := H1). destruct H1 as (_ & _ & _ & _ & _ & H1 & _). rewrite (H1 H2) in HC1. exact HC1.
Qed.
End Drain.

(** ** the decompressing stream inside *)
Section Gz.
Context {D P : Type}.
Variables (cd : codec D) (f : format) (DI : D -> list Z -> list Z -> Prop).
Hypothesis Hcd : codec_ok f cd DI.
Variables (par : ops P Z) (full : list Z) (lim : Z) (R : P -> view -> Prop).
Hypothesis HS : sim par full False lim R.
Hypothesis Hlim : 1 <= lim.
Variables (off : Z) (comp data rest : list Z).
Hypothesis Hoff : 0 <= off <= zlen full.
Hypothesis Hr : skipn (Z.to_nat off) full = comp ++ rest.
Hypothesis Hx : fmt f comp data.
Definition SRz := z_SR f DI full False R off [].
Definition SEz := z_end (D := D) f full False R off [].
Lemma gz_dec : dec f (skipn (Z.to_nat off) full ++ []) = data.
Proof. rewrite app_nil_r, Hr. apply (fo_dec _ (co_format _ _ _ Hcd)). exact Hx. Qed.
Lemma gz_src : SrcOK (z_src cd par false) data False SRz SEz.
Proof.
  rewrite <- gz_dec. apply (z_SrcOK cd f DI Hcd par full False lim R HS Hlim off [] False); [tauto|].
  intros HN. apply (HN comp rest data Hr Hx).
Qed.
Lemma gz_new_R p v bufsize gas : R p v -> v_pos v = off -> 1 <= bufsize <= BUF_LIM -> zlen full <= Z.of_nat gas ->
  exists x, gz_new cd par bufsize false p gas = Ret x /\ fin_inv x /\ bs_R data False SRz SEz x view0.
Proof.
  intros HR Hv Hb Hg. destruct (z_ready_ok cd f DI Hcd par full False lim R HS bufsize p v gas [] False Hb HR Hg) as (x & E & H1 & _ & H2).
  exists x. unfold gz_new. cbn [bind]. split; [exact E|]. split; [exact H1|]. rewrite Hv, gz_dec in H2. exact (bs_init_R _ _ _ _ x H2).
Qed.
(** wherever the stream is, the input is usable *)
Lemma gz_parent x v : bs_R data False SRz SEz x v -> exists pv, R (z_par (bs_src x)) pv.
Proof.
  intros (_ & (_ & _ & _ & H1 & H2 & _) & _).
  assert (forall s : zstate D P, SEz s -> exists pv, R (z_par s) pv) as HE.
  { intros s (_ & _ & u & _ & _ & [[]|(pv & U & _)]). exists pv; exact U. }
  destruct (bs_fin x); [apply HE; apply H2; reflexivity|].
  destruct (H1 eq_refl) as [(_ & _ & u & o & pv & U & _)|(_ & U)]; [exists pv; exact U|apply HE; exact U].
Qed.
(** at the end it stands behind the compressed data *)
Lemma gz_end s : SEz s -> exists pv, R (z_par s) pv /\ v_pos pv = off + zlen comp.
Proof.
  intros (_ & _ & u & U1 & U2 & [[]|(pv & U3 & U4)]). rewrite gz_dec in U1. exists pv. split; [exact U3|].
  assert (u = comp) as ->.
  { destruct U2 as (t & U2). rewrite Hr in U2. apply app_eq_app in U2 as (l2 & [(Q1 & _)|(Q1 & _)]); subst.
    - assert (l2 = []) as -> by (eapply (fo_prefix_free _ (co_format _ _ _ Hcd)); [exact U1|exact Hx]). rewrite app_nil_r. reflexivity.
    - assert (l2 = []) as -> by (eapply (fo_prefix_free _ (co_format _ _ _ Hcd)); [exact Hx|exact U1]). rewrite app_nil_r. reflexivity. }
  assert (HV2 := sim_view _ _ _ _ _ HS _ _ U3). unfold view_ok in HV2.
  assert (HL := f_equal (@zlen Z) U4). rewrite zlen_app, !zlen_skipn in HL by lia. lia.
Qed.
(** a history of calls on the stream: it keeps the contract and never fails *)
Lemma gz_run l : forall x v, bs_R data False SRz SEz x v -> fin_inv x -> Forall (call_ok data BUF_LIM) l ->
  exists x' obs v', run (bs_ops (z_src cd par false)) x l = Ret (x', obs) /\ accepts data False v l obs /\ bs_R data False SRz SEz x' v' /\ fin_inv x'.
Proof.
  assert (Hne : forall x v c x' ob, bs_R data False SRz SEz x v -> call_ok data BUF_LIM c -> exec (bs_ops (z_src cd par false)) x c = Ret (x', ob) -> bad_obs data False v c ob -> False).
  { intros x v c x' ob HR Hc E (B1 & B2). destruct c as [mn mx|k|q]; [destruct B2 as ([] & _)| |destruct B2]. destruct B2 as [[]|(B2 & B3)].
    cbn [exec bs_ops o_skip] in E. cbn [call_ok] in Hc. destruct HR as (_ & HR & _).
    destruct (bs_skip_progress _ _ _ _ gz_src x (v_pos v) k HR ltac:(lia)) as (x1 & k1 & E1 & H1 & _). rewrite E1 in E; cbn [bind] in E. injection E as <- <-.
    destruct H1 as (_ & _ & H1 & _). cbn [observe ob_st bs_ops o_status] in B1. congruence. }
  induction l as [|c l IH]; intros x v HR Hf Hl; cbn [run].
  - exists x, [], v. split; [reflexivity|]. split; [exact I|]. split; assumption.
  - assert (call_ok data BUF_LIM c) as Hc by (inversion Hl; assumption). assert (Forall (call_ok data BUF_LIM) l) as Hl' by (inversion Hl; assumption).
    destruct (sim_step _ _ _ _ _ (bs_sim _ _ _ _ _ gz_src) x v c HR Hc) as (x1 & ob & E & [(G & HR1)|B]); [|exfalso; eapply Hne; eassumption].
    assert (fin_inv x1) as Hf1 by (eapply fin_exec; eassumption).
    rewrite E; cbn [bind]. assert (ob_st ob <> Error) as Hn by apply G. rewrite (is_error_false _ Hn).
    destruct (IH x1 _ HR1 Hf1 Hl') as (x2 & obs & v2 & E2 & A2 & HR2 & Hf2). rewrite E2; cbn [bind]. exists x2, (ob :: obs), v2. split; [reflexivity|].
    cbn [accepts]. rewrite (is_error_false _ Hn). auto.
Qed.
End Gz.

Lemma zip_type_code name : name <> [] -> exists c, zget name (zlen name - 1) = Some c /\
  (if c =? 47 then (slice name 0 (zlen name - 1), 1) else (name, 2)) = (announced name, zip_type name).
Proof.
  intros Hn. destruct (announced_code name Hn) as (c & E1 & E2). exists c. split; [exact E1|].
  destruct (exists_last Hn) as (l & x & ->). rewrite zget_app, zlen_app in E1. change (zlen [x]) with 1 in E1. destruct (Z.ltb_spec (zlen l + 1 - 1) (zlen l)); [lia|].
  replace (zlen l + 1 - 1 - zlen l) with 0 in E1 by lia. change (Some x = Some c) in E1. assert (x = c) by congruence. subst x.
  unfold zip_type. rewrite rev_unit. destruct (Z.eqb_spec c 47) as [->|Hc]; [rewrite E2; reflexivity|].
  rewrite <- E2. f_equal. repeat (match goal with |- context [match ?z with _ => _ end] => destruct z; try reflexivity; try congruence end).
Qed.

Section Zip.
Context {D P : Type}.
Variables (cd : codec D) (f : format) (DI : D -> list Z -> list Z -> Prop).
Hypothesis Hcd : codec_ok f cd DI.
Variables (par : ops P Z) (full : list Z) (lim : Z).
Hypothesis Hlim : 65535 <= lim.
Let R := CE par full False lim.
Let HS : sim par full False lim R := CE_sim par full False lim.
Variables (mktime : tm -> Z) (bufsize : Z) (gas fuel : nat).
Hypothesis Hbuf : 1 <= bufsize <= BUF_LIM.
Hypothesis Hgas : zlen full <= Z.of_nat gas.
Let unix := dos2unixtime mktime.

Lemma zip_header_ok flags method dos csize size name h pre rest p v inf :
  zip_local flags method dos csize size name h -> announced name <> [] -> (Z.testbit flags 3 = true -> method = 8) ->
  full = pre ++ h ++ rest -> 1 <= zlen rest -> R p v -> v_pos v = zlen pre ->
  exists p' v', zip_readHeader par mktime p inf =
      Ret (p', Ok, if Z.testbit flags 3 then -1 else csize, method, mkInfo (announced name) (if Z.testbit flags 3 then -1 else size) (unix dos) (zip_type name)) /\
    R p' v' /\ v_pos v' = zlen (pre ++ h).
Proof.
  intros (ver & fl & me & dt & crc & cs & us & nl & el & extra & Eh & Z1 & Z2 & Z3 & Z4 & Z5 & Z6 & Z7 & Z8 & Z9 & V1 & V2 & V3 & V4 & V5 & V6 & V7 & B1 & B2 & B3) Hann Hbit Hfull Hrest HR Hv.
  set (sg := [80;75;3;4]) in *. assert (zlen sg = 4) as Z0 by reflexivity.
  set (hb := sg ++ ver ++ fl ++ me ++ dt ++ crc ++ cs ++ us ++ nl ++ el).
  assert (zlen hb = 30) as Zhb by (unfold hb; rewrite !zlen_app; lia).
  assert (h = hb ++ name ++ extra) as Eh2 by (rewrite Eh; unfold hb; rewrite <- !app_assoc; reflexivity).
  assert (name <> []) as Hname by (intros ->; apply Hann; reflexivity).
  assert (1 <= zlen name) as Zn by (destruct name; [congruence|rewrite zlen_cons; pose proof (zlen_nonneg name); lia]).
  pose proof (zlen_nonneg extra) as Ze. pose proof (zlen_nonneg pre) as Zp.
  assert (zlen full = zlen pre + 30 + zlen name + zlen extra + zlen rest) as Zfull by (rewrite Hfull, Eh2, !zlen_app; lia).
  unfold zip_readHeader. 
  destruct (gread_exact par full lim R HS p v 30 HR) as (p1 & E1 & HR1); [lia|unfold INT32_MAX; lia|lia|].
  rewrite E1; cbn [bind]. rewrite Hv.
  assert (slice full (zlen pre) 30 = hb) as -> by (rewrite Hfull, Eh2, <- app_assoc; apply slice_mid; [reflexivity|lia]).
  change (negb (30 =? 30)) with false. rewrite Zhb. change (negb (30 <=? 30)) with false. cbn iota.
  assert (slice hb 26 2 = nl) as ->.
  { assert (hb = (sg ++ ver ++ fl ++ me ++ dt ++ crc ++ cs ++ us) ++ nl ++ el) as -> by (unfold hb; rewrite <- !app_assoc; reflexivity). apply slice_mid; [rewrite !zlen_app; lia|lia]. }
  assert (slice hb 28 2 = el) as ->.
  { assert (hb = (sg ++ ver ++ fl ++ me ++ dt ++ crc ++ cs ++ us ++ nl) ++ el) as -> by (unfold hb; rewrite <- !app_assoc; reflexivity). apply slice_post; [rewrite !zlen_app; lia|lia]. }
  assert (slice hb 22 4 = us) as ->.
  { assert (hb = (sg ++ ver ++ fl ++ me ++ dt ++ crc ++ cs) ++ us ++ nl ++ el) as -> by (unfold hb; rewrite <- !app_assoc; reflexivity). apply slice_mid; [rewrite !zlen_app; lia|lia]. }
  assert (slice hb 18 4 = cs) as ->.
  { assert (hb = (sg ++ ver ++ fl ++ me ++ dt ++ crc) ++ cs ++ us ++ nl ++ el) as -> by (unfold hb; rewrite <- !app_assoc; reflexivity). apply slice_mid; [rewrite !zlen_app; lia|lia]. }
  assert (slice hb 8 2 = me) as ->.
  { assert (hb = (sg ++ ver ++ fl) ++ me ++ dt ++ crc ++ cs ++ us ++ nl ++ el) as -> by (unfold hb; rewrite <- !app_assoc; reflexivity). apply slice_mid; [rewrite !zlen_app; lia|lia]. }
  assert (slice hb 6 2 = fl) as ->.
  { assert (hb = (sg ++ ver) ++ fl ++ me ++ dt ++ crc ++ cs ++ us ++ nl ++ el) as -> by (unfold hb; rewrite <- !app_assoc; reflexivity). apply slice_mid; [rewrite !zlen_app; lia|lia]. }
  assert (slice hb 10 4 = dt) as ->.
  { assert (hb = (sg ++ ver ++ fl ++ me) ++ dt ++ crc ++ cs ++ us ++ nl ++ el) as -> by (unfold hb; rewrite <- !app_assoc; reflexivity). apply slice_mid; [rewrite !zlen_app; lia|lia]. }
  rewrite V1, V2, V3, V4, V5, V6, V7.
  assert (exists hr, hb = 80 :: 75 :: 3 :: 4 :: hr) as (hr & Ehb) by (unfold hb, sg; cbn [app]; eexists; reflexivity). rewrite Ehb.
  change (negb (80 =? 80) || negb (75 =? 75)) with false. change (negb (3 =? 3) || negb (4 =? 4)) with false. cbn iota zeta.
  rewrite wrap32_id by (unfold INT32_MIN, INT32_MAX in *; lia). destruct (Z.ltb_spec csize 0); [lia|].
  assert (Z.testbit flags 3 && negb (method =? 8) = false) as -> by (destruct (Z.testbit flags 3); [rewrite Hbit by reflexivity|]; reflexivity).
  cbn [i_type]. unfold zip_readFileName.
  destruct (gread_exact par full lim R HS p1 _ (zlen name) HR1) as (p2 & E2 & HR2); [lia|unfold INT32_MAX; lia|cbn [v_pos]; lia|].
  rewrite E2; cbn [bind v_pos]. rewrite Z.eqb_refl. cbn [negb]. rewrite Hv.
  assert (slice full (zlen pre + 30) (zlen name) = name) as ->.
  { rewrite Hfull, Eh2. replace (pre ++ ((hb ++ name ++ extra) ++ rest)) with ((pre ++ hb) ++ name ++ (extra ++ rest)) by (rewrite <- !app_assoc; reflexivity). apply slice_mid; [rewrite zlen_app; lia|lia]. }
  rewrite Z.leb_refl. cbn [negb]. rewrite slice_all. destruct (zip_type_code name Hname) as (c & Ec & Ecc). rewrite Ec.
  assert ((if c =? 47 then Ret (p2, slice name 0 (zlen name - 1), 1) else Ret (p2, name, 2)) = Ret (p2, announced name, zip_type name)) as ->.
  { destruct (c =? 47); injection Ecc as Q1 Q2; congruence. }
  cbn [bind].
  destruct (gskip_before par full lim R HS p2 _ (zlen extra) HR2) as (p3 & E3 & HR3); [unfold INT32_MAX; lia|cbn [v_pos]; lia|].
  rewrite E3; cbn [bind]. rewrite Z.eqb_refl. cbn [negb]. exists p3; eexists. split; [reflexivity|]. split; [exact HR3|]. cbn [v_pos]. rewrite zlen_app, Eh2, !zlen_app. lia.
Qed.
Lemma local_start flags method dos csize size name h : zip_local flags method dos csize size name h -> exists t, h = 80 :: 75 :: 3 :: 4 :: t /\ 26 <= zlen t.
Proof.
  intros (ver & fl & me & dt & crc & cs & us & nl & el & extra & Eh & Z1 & Z2 & Z3 & Z4 & Z5 & Z6 & Z7 & Z8 & Z9 & _). rewrite Eh. cbn [app]. eexists; split; [reflexivity|].
  rewrite !zlen_app. pose proof (zlen_nonneg name). pose proof (zlen_nonneg extra). lia.
Qed.
Lemma local_csize flags method dos csize size name h : zip_local flags method dos csize size name h -> 0 <= csize <= INT32_MAX.
Proof. intros (ver & fl & me & dt & crc & cs & us & nl & el & extra & _ & _ & _ & _ & _ & _ & _ & _ & _ & _ & _ & _ & _ & _ & _ & _ & _ & _ & _ & H). exact H. Qed.
Lemma zip_start bytes ms : zip_archive unix f bytes ms -> exists x y t, bytes = 80 :: 75 :: x :: y :: t /\ 26 <= zlen t /\ 0 <= x < 256 /\ 0 <= y < 256 /\ (x, y) <> (7, 8).
Proof.
  intros H. destruct H as [x y t B1 B2 H1 H2 H3|flags dos name h data rest ms Hl _ _ _ _|flags dos name h comp data desc rest ms Hl _ _ _ _ _ _|flags dos cs us name h comp data desc rest ms Hl _ _ _ _ _ _].
  1: exists x, y, t; auto.
  all: destruct (local_start _ _ _ _ _ _ _ Hl) as (t & -> & Ht); exists 3, 4; eexists; (split; [cbn [app]; reflexivity|]); rewrite !zlen_app; 
    repeat match goal with |- context [zlen ?l] => lazymatch goal with H : 0 <= zlen l |- _ => fail | _ => pose proof (zlen_nonneg l) end end;
    (split; [lia|]); (split; [lia|]); (split; [lia|congruence]).
Qed.
Lemma signed_not x y : 0 <= x < 256 -> 0 <= y < 256 -> (x, y) <> (7, 8) -> (le_value [80;75;x;y] =? 134695760) = false.
Proof. intros Hx Hy H. apply Z.eqb_neq. cbn [le_value]. intros E. apply H. assert (x = 7) by lia. assert (y = 8) by lia. congruence. Qed.

Definition zip_ready (a : zip D P) (desc pre : list Z) : Prop :=
  zi_st a = Ok /\
  match zi_cur a with
  | ZNone p => desc = [] /\ exists v, R p v /\ v_pos v = zlen pre
  | ZStored s => desc = [] /\ 0 <= i_size (zi_info a) /\ exists off n v, 0 <= off /\ 0 <= n <= INT32_MAX /\ off + n = zlen pre /\ sub_R full R off n s v /\ (2 <= fuel)%nat
  | ZKnown e => (desc = [] \/ zip_signed desc) /\ exists off comp data v, 0 <= off /\ zlen comp <= INT32_MAX /\ off + zlen comp = zlen pre /\ comp = slice full off (zlen comp) /\
      fmt f comp data /\ zlen data <= INT32_MAX /\
      sub_R data (bs_R data False (SRz f DI comp (sub_R full R off (zlen comp)) 0) (SEz f comp (sub_R full R off (zlen comp)) 0)) 0 (zlen data) e v
  | ZUnknown x => (zip_unsigned desc \/ zip_signed desc) /\ i_size (zi_info a) < 0 /\ exists off comp data rest v, 0 <= off <= zlen full /\ off + zlen comp = zlen pre /\ skipn (Z.to_nat off) full = comp ++ rest /\
      fmt f comp data /\ zlen data <= INT32_MAX /\ fin_inv x /\ bs_R data False (SRz f DI full R off) (SEz f full R off) x v /\ (length data + 1 <= fuel)%nat
  end.

Lemma zip_leave_ok a desc pre bytes ms : zip_ready a desc pre -> zip_archive unix f bytes ms -> full = pre ++ desc ++ bytes ->
  exists p v, zip_leave cd par fuel a = Ret (p, true) /\ R p v /\ v_pos v = zlen (pre ++ desc).
Proof.
  intros (_ & Hr) HM Hfull. destruct (zip_start _ _ HM) as (x0 & y0 & t0 & Eb & Ht & Hx0 & Hy0 & Hxy).
  assert (30 <= zlen bytes) as Zb by (rewrite Eb, !zlen_cons; lia). pose proof (zlen_nonneg pre) as Zpre. pose proof (zlen_nonneg desc) as Zdesc.
  assert (zlen full = zlen pre + zlen desc + zlen bytes) as Zfull by (rewrite Hfull, !zlen_app; lia).
  unfold zip_leave. destruct (zi_cur a) as [p|s|e|x].
  - destruct Hr as (-> & v & HR & Hv). exists p, v. split; [reflexivity|]. split; [exact HR|]. rewrite app_nil_r. exact Hv.
  - destruct Hr as (-> & Hi & off & n & v & H1 & H2 & H3 & H4 & Hfu). rewrite app_nil_r.
    destruct (gentry_parent full R off n H1 H2 ltac:(lia) s v H4) as (_ & Hsz & _). rewrite Hsz.
    set (m := if n <? 1 then 1024 else n). assert (n <= m <= INT32_MAX) as Hm by (unfold m; destruct (Z.ltb_spec n 1); unfold INT32_MAX in *; lia).
    assert (exists s' v', zip_drain (zsub_ops par) fuel s m = Ret s' /\ sub_R full R off n s' v' /\ v_pos v' = n) as (s' & v' & Ed & HR' & Hv').
    { destruct fuel as [|[|fu]]; [lia|lia|]. cbn [zip_drain]. change (o_status (zsub_ops par) s) with (su_st s).
      assert (HV := sim_view _ _ _ _ _ (gentry_sim par full lim R HS off n H1 H2 ltac:(lia)) _ _ H4). unfold view_ok in HV.
      destruct (entry_content full off n) as (Ec1 & Ec2); [lia..|]. rewrite Ec2 in HV.
      destruct (su_st s) eqn:Est.
      - change (o_skip (zsub_ops par) s m) with (sub_skip par s m).
        destruct (gentry_finish par full lim R HS off n H1 H2 ltac:(lia) s v m H4 Hm) as (s' & k & E & HR' & He). rewrite E; cbn [bind].
        change (o_status (zsub_ops par) s') with (su_st s'). rewrite He. exists s'; eexists; split; [reflexivity|]. split; [exact HR'|reflexivity].
      - exists s, v. split; [reflexivity|]. split; [exact H4|]. destruct H4 as (_ & _ & _ & _ & W5 & _). rewrite Ec1, Ec2 in W5. apply W5. exact Est.
      - exfalso. destruct H4 as (_ & _ & _ & W4 & _). congruence. }
    rewrite Ed; cbn [bind]. destruct (Z.ltb_spec (i_size (zi_info a)) 0); [lia|].
    destruct (gentry_parent full R off n H1 H2 ltac:(lia) s' v' HR') as ((vp & HRp & Hvp) & _). exists (su_par s'), vp. split; [reflexivity|]. split; [exact HRp|lia].
  - destruct Hr as (Hd & off & comp & data & v & H1 & H2 & H3 & H4 & H5 & H6 & H7). pose proof (zlen_nonneg comp) as Zc.
    set (Ri := sub_R full R off (zlen comp)) in *.
    assert (HSi : sim (sub_ops par) comp False lim Ri) by (rewrite H4 at 1; apply gentry_sim; [exact HS|lia..]).
    assert (Hsk : skipn (Z.to_nat 0) comp = comp ++ []) by (rewrite app_nil_r; reflexivity).
    assert (0 <= 0 <= zlen comp) as H00 by lia.
    assert (HSg := bs_sim _ _ _ _ _ (gz_src cd f DI Hcd (sub_ops par) comp lim Ri HSi ltac:(lia) 0 comp data [] H00 Hsk H5)).
    destruct (gentry_parent data _ 0 (zlen data) ltac:(lia) ltac:(pose proof (zlen_nonneg data); lia) ltac:(lia) e v H7) as ((vg & HRg & _) & _).
    destruct (gz_parent f DI comp Ri 0 data _ _ HRg) as (vi & HRi).
    destruct (gentry_parent full R off (zlen comp) H1 ltac:(lia) ltac:(lia) _ vi HRi) as (_ & Hsz & _).
    cbv zeta. unfold gz1, zsub in *. set (c := z_par (bs_src (su_par e))) in *. rewrite Hsz.
    destruct (gentry_finish par full lim R HS off (zlen comp) H1 ltac:(lia) ltac:(lia) c vi (zlen comp) HRi ltac:(lia)) as (c' & k & E & HR' & _). rewrite E; cbn [bind].
    destruct (gentry_parent full R off (zlen comp) H1 ltac:(lia) ltac:(lia) c' _ HR') as ((vp & HRp & Hvp) & _). cbn [v_pos] in Hvp.
    destruct (gread_exact par full lim R HS _ vp 16 HRp) as (p1 & E1 & HR1); [lia|unfold INT32_MAX; lia|lia|].
    rewrite E1; cbn [bind]. change (16 =? 16) with true. cbn iota. rewrite zlen_slice by lia. change (negb (16 <=? 16)) with false. cbn iota.
    rewrite slice_slice by lia. rewrite Z.add_0_r.
    assert (o_pos par (su_par c') = v_pos vp) as -> by (eapply sim_pos; [exact HS|exact HRp]).
    destruct Hd as [->|(r & -> & Zr)].
    + assert (slice full (v_pos vp) 4 = [80;75;x0;y0]) as ->.
      { rewrite Hfull, Eb. cbn [app]. change (80 :: 75 :: x0 :: y0 :: t0) with ([80;75;x0;y0] ++ t0). apply slice_mid; [lia|reflexivity]. }
      rewrite (signed_not _ _ Hx0 Hy0 Hxy). cbn [negb].
      destruct (sim_reset _ _ _ _ _ p1 _ (v_pos vp) HS HR1) as (p2 & rr & E2 & [(G & HR2)|(_ & [])]); [lia|].
      rewrite E2; cbn [bind]. exists p2; eexists; split; [reflexivity|]. split; [exact HR2|]. cbn [next_view v_lo v_hi]. destruct (Z.leb_spec (v_pos vp) (v_pos vp)); [|lia]. destruct (Z.leb_spec (v_pos vp) (v_pos vp + 16)); [|lia]. cbn [andb v_pos]. rewrite app_nil_r. lia.
    + assert (slice full (v_pos vp) 4 = [80;75;7;8]) as ->.
      { rewrite Hfull, <- app_assoc. apply slice_mid; [lia|reflexivity]. }
      change (negb (le_value [80;75;7;8] =? 134695760)) with false. cbn iota. exists p1; eexists; split; [reflexivity|]. split; [exact HR1|]. cbn [v_pos]. rewrite !zlen_app, Zr. change (zlen [80;75;7;8]) with 4. lia.
  - destruct Hr as (Hd & Hi & off & comp & data & rest & v & H1 & H3 & H4 & H5 & H6 & H7 & H8 & Hfu).
    set (m := if bs_size x <? 1 then 1024 else bs_size x).
    assert (1 <= m <= INT32_MAX) as Hm.
    { unfold m. destruct H8 as (_ & (_ & _ & _ & _ & _ & _ & [[]|Hs]) & _). destruct (Z.ltb_spec (bs_size x) 1); unfold INT32_MAX in *; lia. }
    assert (HSrc := gz_src cd f DI Hcd par full lim R HS ltac:(lia) off comp data rest H1 H4 H5).
    assert (HV := H8). destruct HV as (HV & HC & _). unfold view_ok in HV.
    destruct (bs_drain _ _ _ _ HSrc m Hm fuel x (v_pos v) HC H7) as (x' & E & He & Hf' & HC'); [unfold zlen in *; lia|].
    unfold gz2_ops, gz2 in *. rewrite E; cbn [bind]. destruct (Z.ltb_spec (i_size (zi_info a)) 0); [|lia].
    assert (SEz f full R off (bs_src x')) as HE by (destruct HC' as (_ & _ & _ & _ & HC' & _); apply HC'; apply Hf'; exact He).
    destruct (gz_end cd f DI Hcd par full lim R HS off comp data rest H1 H4 H5 _ HE) as (pv & HRp & Hvp).
    unfold zip_descriptor.
    destruct (gread_exact par full lim R HS _ pv 4 HRp) as (p1 & E1 & HR1); [lia|unfold INT32_MAX; lia|lia|].
    rewrite E1; cbn [bind]. change (4 =? 4) with true. cbn iota. rewrite zlen_slice by lia. change (negb (4 <=? 4)) with false. cbn iota.
    rewrite slice_slice by lia. rewrite Z.add_0_r.
    destruct Hd as [(Zd & Hd)|(r & -> & Zr)].
    + assert (slice full (v_pos pv) 4 = slice desc 0 4) as ->.
      { rewrite Hfull, slice_app_r by lia. rewrite slice_app_l by lia. f_equal. lia. }
      change 134695760 with (le_value [80;75;7;8]). destruct (Z.eqb_spec (le_value (slice desc 0 4)) (le_value [80;75;7;8])); [contradiction|].
      destruct (gread_exact par full lim R HS _ _ 8 HR1) as (p2 & E2 & HR2); [lia|unfold INT32_MAX; lia|cbn [v_pos]; lia|].
      rewrite E2; cbn [bind]. change (8 - 4 =? 4) with true. exists p2; eexists; split; [reflexivity|]. split; [exact HR2|]. cbn [v_pos]. rewrite zlen_app. lia.
    + assert (slice full (v_pos pv) 4 = [80;75;7;8]) as ->.
      { rewrite Hfull, <- app_assoc. apply slice_mid; [lia|reflexivity]. }
      change (le_value [80;75;7;8] =? 134695760) with true. cbn iota.
      rewrite zlen_app in *. change (zlen [80;75;7;8]) with 4 in *.
      destruct (gread_exact par full lim R HS _ _ 12 HR1) as (p2 & E2 & HR2); [lia|unfold INT32_MAX; lia|cbn [v_pos]; lia|].
      rewrite E2; cbn [bind]. change (12 - 8 =? 4) with true. exists p2; eexists; split; [reflexivity|]. split; [exact HR2|]. cbn [v_pos]. rewrite !zlen_app. change (zlen [80;75;7;8]) with 4. lia.
Qed.
Lemma skipn_pre {A} (pre t : list A) : skipn (Z.to_nat (zlen pre)) (pre ++ t) = t.
Proof. unfold zlen. rewrite Nat2Z.id, skipn_app, skipn_all, Nat.sub_diag. reflexivity. Qed.
Lemma call_ok_le {A} (c : list A) l l' x : l <= l' -> call_ok c l x -> call_ok c l' x.
Proof. destruct x; cbn; lia. Qed.
Lemma zip_lists ms : forall bytes desc pre a, zip_archive unix f bytes ms -> full = pre ++ desc ++ bytes -> zip_ready a desc pre -> (2 <= fuel)%nat ->
  Forall (fun m => (length (m_data m) + 1 <= fuel)%nat) ms ->
  lists (zip_provider cd par mktime bufsize gas fuel) (Z.min lim BUF_LIM) ms a.
Proof.
  induction ms as [|m ms IH]; intros bytes desc pre a HM Hfull Hready Hf2 Hfs.
  all: cbn [lists_end pv_next pv_entry pv_status zip_provider]; unfold zip_next; destruct (zip_leave_ok _ _ _ _ _ Hready HM Hfull) as (p & v & El & HR & Hv); destruct Hready as (Hst & _); rewrite Hst, El; cbn [bind negb].
  all: destruct (zip_start _ _ HM) as (x0 & y0 & t0 & Eb & Ht & Hx0 & Hy0 & Hxy).
  all: assert (full = (pre ++ desc) ++ bytes) as Hfull2 by (rewrite <- app_assoc; exact Hfull).
  all: assert (30 <= zlen bytes) as Zb by (rewrite Eb, !zlen_cons; lia).
  all: assert (zlen full = zlen (pre ++ desc) + zlen bytes) as Zfull by (rewrite Hfull2, zlen_app; reflexivity).
  all: assert (is_eof (o_status par p) = false) as -> by (destruct (o_status par p) eqn:Es; try reflexivity; destruct HR as (_ & HR); specialize (HR Es); lia).
  all: clear Hfull; set (pre2 := pre ++ desc) in *; pose proof (zlen_nonneg pre2) as Zpre.
  - inversion HM as [x y t _ _ H1 H2 H3 E1| | |]; subst bytes. assert (x = x0 /\ y = y0 /\ t = t0) as (-> & -> & ->) by (split; [|split]; congruence).
    unfold zip_readHeader. destruct (gread_exact par full lim R HS p v 30 HR) as (p1 & Er & HR1); [lia|unfold INT32_MAX; lia|lia|]. rewrite Er; cbn [bind].
    change (negb (30 =? 30)) with false. rewrite zlen_slice by lia. change (negb (30 <=? 30)) with false. cbn iota.
    assert (slice full (v_pos v) 30 = 80 :: 75 :: x0 :: y0 :: slice t0 0 26) as ->.
    { rewrite Hfull2, Hv, slice_app_r by lia. rewrite Z.sub_diag. reflexivity. }
    change (negb (80 =? 80) || negb (75 =? 75)) with false. cbn iota.
    assert (negb (x0 =? 3) || negb (y0 =? 4) = true) as ->.
    { destruct (Z.eqb_spec x0 3), (Z.eqb_spec y0 4); subst; try reflexivity. congruence. }
    cbn [bind]. eexists; split; [reflexivity|reflexivity].
  - assert (Hfm := Forall_inv Hfs). assert (Hft := Forall_inv_tail Hfs).
    inversion HM as [|flags dos name h data rest ms' Hl Hbit Hann Hsz HM' E1 E2|flags dos name h comp data desc' rest ms' Hl Hbit Hann Hsz Hx Hd HM' E1 E2|flags dos cs us name h comp data desc' rest ms' Hl Hbit Hann Hsz Hx Hd HM' E1 E2]; subst ms'; rewrite <- E2 in *; rewrite <- E1 in Hfull2; cbn [m_data m_info] in *; pose proof (zlen_nonneg data) as Zd.
    all: destruct (zip_start _ _ HM') as (x1 & y1 & t1 & Eb1 & Ht1 & _).
    all: assert (30 <= zlen rest) as Zr by (rewrite Eb1, !zlen_cons; lia).
    + (* stored *)
      destruct (zip_header_ok flags 0 dos (zlen data) (zlen data) name h pre2 (data ++ rest) p v (zi_info a) Hl Hann ltac:(congruence) Hfull2 ltac:(rewrite zlen_app; lia) HR Hv) as (p1 & v1 & Eh & HR1 & Hv1).
      rewrite Eh; cbn [bind]. rewrite Hbit. cbn [i_name i_size]. destruct (Z.leb_spec (zlen (announced name)) 0) as [Hz|Hz].
      { exfalso. apply Hann. apply zlen_0_nil. pose proof (zlen_nonneg (announced name)). lia. }
      change (0 =? 8) with false. cbn iota.
      set (pre3 := pre2 ++ h) in *. assert (full = pre3 ++ data ++ rest) as Hfull3 by (unfold pre3; rewrite <- app_assoc; exact Hfull2). pose proof (zlen_nonneg pre3) as Zp3.
      assert (zlen full = zlen pre3 + zlen data + zlen rest) as Zf3 by (rewrite Hfull3, !zlen_app; lia).
      destruct (gentry_new par full lim R HS (zlen pre3) (zlen data) ltac:(lia) p1 v1 HR1 Hv1) as (s & En & HRs). rewrite En; cbn [bind].
      eexists; split; [reflexivity|]. split; [reflexivity|]. intros hs Hh. unfold zip_entry. cbn [zi_cur].
      assert (slice full (zlen pre3) (zlen data) = data) as Hdata by (rewrite Hfull3; apply slice_mid; reflexivity).
      destruct (gentry_run par full lim R HS (zlen pre3) (zlen data) ltac:(lia) ltac:(lia) ltac:(lia) hs s view0 HRs) as (s' & obs & v' & Erun & Ha & HRs').
      { rewrite Hdata. eapply Forall_impl; [|exact Hh]. intros c. apply call_ok_le. lia. }
      unfold zsub_ops, zsub in *. rewrite Erun; cbn [bind]. rewrite Hdata in Ha. do 2 eexists; split; [reflexivity|]. split; [exact Ha|].
      apply (IH rest [] (pre3 ++ data)); [exact HM'|cbn [app]; rewrite <- app_assoc; exact Hfull3| |exact Hf2|exact Hft].
      split; [reflexivity|]. cbn [zi_cur zi_info i_size]. split; [reflexivity|]. split; [lia|]. exists (zlen pre3), (zlen data), v'. rewrite zlen_app. do 3 (split; [lia|]). split; [exact HRs'|exact Hf2].
    + (* deflated, sizes known *)
      assert (Zc := local_csize _ _ _ _ _ _ _ Hl).
      pose proof (zlen_nonneg desc') as Zds.
      destruct (zip_header_ok flags 8 dos (zlen comp) (zlen data) name h pre2 (comp ++ desc' ++ rest) p v (zi_info a) Hl Hann ltac:(congruence) Hfull2 ltac:(rewrite !zlen_app; lia) HR Hv) as (p1 & v1 & Eh & HR1 & Hv1).
      rewrite Eh; cbn [bind]. rewrite Hbit. cbn [i_name i_size]. destruct (Z.leb_spec (zlen (announced name)) 0) as [Hz|Hz].
      { exfalso. apply Hann. apply zlen_0_nil. pose proof (zlen_nonneg (announced name)). lia. }
      change (8 =? 8) with true. cbn iota. destruct (Z.leb_spec 0 (zlen data)); [|lia].
      set (pre3 := pre2 ++ h) in *. assert (full = pre3 ++ comp ++ desc' ++ rest) as Hfull3 by (unfold pre3; rewrite <- app_assoc; exact Hfull2). pose proof (zlen_nonneg pre3) as Zp3.
      assert (zlen full = zlen pre3 + zlen comp + zlen desc' + zlen rest) as Zf3 by (rewrite Hfull3, !zlen_app; lia).
      destruct (gentry_new par full lim R HS (zlen pre3) (zlen comp) ltac:(lia) p1 v1 HR1 Hv1) as (s & En & HRs). rewrite En; cbn [bind].
      assert (comp = slice full (zlen pre3) (zlen comp)) as Hcomp by (rewrite Hfull3; symmetry; apply slice_mid; reflexivity).
      set (Ri := sub_R full R (zlen pre3) (zlen comp)) in *.
      assert (HSi : sim (sub_ops par) comp False lim Ri) by (rewrite Hcomp at 1; apply gentry_sim; [exact HS|lia..]).
      assert (Hsk : skipn (Z.to_nat 0) comp = comp ++ []) by (rewrite app_nil_r; reflexivity).
      assert (0 <= 0 <= zlen comp) as H00 by lia.
      assert (HSrc := gz_src cd f DI Hcd (sub_ops par) comp lim Ri HSi ltac:(lia) 0 comp data [] H00 Hsk Hx).
      destruct (gz_new_R cd f DI Hcd (sub_ops par) comp lim Ri HSi 0 comp data [] Hsk Hx s view0 bufsize gas HRs eq_refl Hbuf ltac:(lia)) as (g & Eg & _ & HRg).
      unfold zsub_ops, zsub, gz1_ops, gz1 in *. rewrite Eg; cbn [bind].
      assert (HSg := bs_sim _ _ _ _ _ HSrc).
      destruct (gentry_new _ data BUF_LIM _ HSg 0 (zlen data) ltac:(lia) g view0 HRg eq_refl) as (e & Ee & HRe). unfold zsub_ops, zsub in *. rewrite Ee; cbn [bind].
      eexists; split; [reflexivity|]. split; [reflexivity|]. intros hs Hh. unfold zip_entry. cbn [zi_cur].
      destruct (gentry_run _ data BUF_LIM _ HSg 0 (zlen data) ltac:(lia) ltac:(lia) ltac:(lia) hs e view0 HRe) as (e' & obs & v' & Erun & Ha & HRe').
      { rewrite slice_all. eapply Forall_impl; [|exact Hh]. intros c. apply call_ok_le. lia. }
      unfold zsub_ops, zsub, gz1_ops, gz1 in *. match goal with |- context [run ?o e hs] => change (run o e hs) with (run (sub_ops (bs_ops (z_src cd (sub_ops par) false))) e hs) end. rewrite Erun; cbn [bind]. rewrite slice_all in Ha. do 2 eexists; split; [reflexivity|]. split; [exact Ha|].
      apply (IH rest desc' (pre3 ++ comp)); [exact HM'|rewrite <- app_assoc; exact Hfull3| |exact Hf2|exact Hft].
      split; [reflexivity|]. cbn [zi_cur]. split; [exact Hd|]. exists (zlen pre3), comp, data, v'. rewrite zlen_app. do 3 (split; [lia|]). split; [exact Hcomp|]. split; [exact Hx|]. split; [exact Hsz|exact HRe'].
    + (* deflated, sizes unknown *)
      pose proof (zlen_nonneg comp) as Zc. pose proof (zlen_nonneg desc') as Zds.
      destruct (zip_header_ok flags 8 dos cs us name h pre2 (comp ++ desc' ++ rest) p v (zi_info a) Hl Hann ltac:(congruence) Hfull2 ltac:(rewrite !zlen_app; lia) HR Hv) as (p1 & v1 & Eh & HR1 & Hv1).
      rewrite Eh; cbn [bind]. rewrite Hbit. cbn [i_name i_size]. destruct (Z.leb_spec (zlen (announced name)) 0) as [Hz|Hz].
      { exfalso. apply Hann. apply zlen_0_nil. pose proof (zlen_nonneg (announced name)). lia. }
      change (8 =? 8) with true. change (0 <=? -1) with false. cbn iota.
      set (pre3 := pre2 ++ h) in *. assert (full = pre3 ++ comp ++ desc' ++ rest) as Hfull3 by (unfold pre3; rewrite <- app_assoc; exact Hfull2). pose proof (zlen_nonneg pre3) as Zp3.
      assert (zlen full = zlen pre3 + zlen comp + zlen desc' + zlen rest) as Zf3 by (rewrite Hfull3, !zlen_app; lia).
      assert (Hsk : skipn (Z.to_nat (zlen pre3)) full = comp ++ (desc' ++ rest)) by (rewrite Hfull3; apply skipn_pre).
      assert (0 <= zlen pre3 <= zlen full) as H00 by lia.
      destruct (gz_new_R cd f DI Hcd par full lim R HS (zlen pre3) comp data (desc' ++ rest) Hsk Hx p1 v1 bufsize gas HR1 Hv1 Hbuf Hgas) as (g & Eg & Hfin & HRg). rewrite Eg; cbn [bind].
      eexists; split; [reflexivity|]. split; [reflexivity|]. intros hs Hh. unfold zip_entry. cbn [zi_cur].
      destruct (gz_run cd f DI Hcd par full lim R HS ltac:(lia) (zlen pre3) comp data (desc' ++ rest) H00 Hsk Hx hs g view0 HRg Hfin) as (x' & obs & v' & Erun & Ha & HRx & Hfx).
      { eapply Forall_impl; [|exact Hh]. intros c. apply call_ok_le. lia. }
      unfold gz2_ops, gz2 in *. rewrite Erun; cbn [bind]. do 2 eexists; split; [reflexivity|]. split; [exact Ha|].
      apply (IH rest desc' (pre3 ++ comp)); [exact HM'|rewrite <- app_assoc; exact Hfull3| |exact Hf2|exact Hft].
      split; [reflexivity|]. cbn [zi_cur zi_info i_size]. split; [exact Hd|]. split; [lia|]. exists (zlen pre3), comp, data, (desc' ++ rest), v'. rewrite zlen_app. split; [exact H00|]. split; [lia|]. split; [exact Hsk|]. split; [exact Hx|]. split; [exact Hsz|]. split; [exact Hfx|]. split; [exact HRx|exact Hfm].
Qed.
End Zip.
