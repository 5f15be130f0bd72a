(** C49: an archive is found and listed behind any layers of compression. *)
From Coq Require Import Permutation.
From Verif Require Import Base StreamSpec P_Stream ArchiveSpec KmpSpec M_StringStream P_StringStream M_Sub M_Buffered BufferedSpec P_Buffered P_BufInv M_Text TextSpec
  M_Inflate InflateSpec P_Inflate T_Inflate P_MagicCodec M_Lzma LzmaSpec P_Lzma P_LzCopy T_Lzma M_Detect DetectSpec P_Detect
  M_Ar ArSpec T_Ar M_Cpio CpioSpec T_Cpio M_Tar TarSpec T_Tar M_Zip ZipSpec T_Zip M_Sdf SdfSpec M_Rpm RpmSpec T_Rpm M_MailList MailPartsSpec T_MailList M_Open OpenSpec P_Open.

(** the archive formats, as in C22, C24, C25 and C37 *)
Inductive archive_of (lim : Z) (unix : Z -> Z) (fz fg fb : format) (fl : lzformat) : akind -> list Z -> list member -> Prop :=
| ao_ar x ms : ar_archive lim x ms -> archive_of lim unix fz fg fb fl AAr x ms
| ao_tar k x ms : tar_archive lim k x ms -> (1 <= k)%nat -> archive_of lim unix fz fg fb fl ATar x ms
| ao_zip x ms : zip_archive unix fz x ms -> Forall (fun m => zlen (m_data m) <= INT32_MAX) ms -> archive_of lim unix fz fg fb fl AZip x ms
| ao_rpm x comp rest content ms k : rpm_file lim x (comp ++ rest) -> 16 <= zlen (comp ++ rest) -> starts_with k (comp ++ rest) ->
    match k with Gzipped => fmt fg comp content | Bzip2ed => fmt fb comp content | Lzmaed => exists h c, comp = h ++ c /\ zlen h = 13 /\ lz_marked fl c content end ->
    cpio_archive BUF_LIM content ms -> archive_of lim unix fz fg fb fl ARpm x ms.
(** tar archives with fewer than three blocks of zeros may end with Error (C24) *)
Definition ending (k : akind) (st : status) : Prop := match k with ATar => st <> Ok | _ => st = Eof end.

Lemma lists_lim {St} (fin fin' : status -> Prop) (pv : provider St) lim lim' ms : lim' <= lim -> (forall s, fin s -> fin' s) -> forall st, lists_end fin pv lim ms st -> lists_end fin' pv lim' ms st.
Proof.
  intros Hl Hfin. induction ms as [|m ms IH]; intros st H; cbn [lists_end] in *.
  - destruct H as (s & E & H). exists s. auto.
  - destruct H as (st1 & E & Hs & H). exists st1. split; [exact E|]. split; [exact Hs|]. intros h Hh.
    destruct (H h) as (st2 & obs & E2 & Ha & H2). { eapply Forall_impl; [|exact Hh]. intros [mn mx|n|q]; cbn [call_ok]; lia. }
    exists st2, obs. auto.
Qed.
Lemma lists_first {St} fin (pv : provider St) lim ms st : lists_end fin pv lim ms st -> ms <> [] -> exists st1 i, pv_next pv st = Ret (st1, Some i) /\ at_first fin pv lim ms st1 i.
Proof.
  destruct ms as [|m ms]; intros H Hn; [congruence|]. cbn [lists_end] in H. destruct H as (st1 & E & Hs & H).
  exists st1, (m_info m). split; [exact E|]. cbn [at_first]. auto.
Qed.

Section Generic.
Variable (Q : forall St, provider St -> St -> info -> Prop).
Definition opens {P} (par : ops P Z) (p : P) (sb : sub_type) : Prop :=
  exists ss ss1 i, su_make sb P par p = Ret ss /\ pv_next (su_pv sb P par) ss = Ret (ss1, Some i) /\ Q _ (su_pv sb P par) ss1 i.
Lemma try_subs_found {R P} (par : ops P Z) p (inp : P -> R) c subs :
  Forall (fun sb => su_check sb c = Ret false \/ su_check sb c = Ret true /\ opens par p sb) subs -> Exists (fun sb => su_check sb c = Ret true) subs ->
  exists St (pv : provider St) st i inp', try_subs subs par p inp c = Ret (Found pv st i inp') /\ Q St pv st i.
Proof.
  induction subs as [|sb subs IH]; intros HF HE; [inversion HE|]. inversion HF as [|? ? H1 H2]; subst. cbn [try_subs].
  destruct H1 as [H1|(H1 & ss & ss1 & i & E1 & E2 & HQ)]; rewrite H1; cbn [bind].
  - apply IH; [exact H2|]. inversion HE as [? ? H|? ? H]; subst; [rewrite H1 in H; discriminate|exact H].
  - rewrite E1; cbn [bind]. rewrite E2; cbn [bind]. do 5 eexists. split; [reflexivity|exact HQ].
Qed.
End Generic.
Lemma try_subs_none {R P} (par : ops P Z) p (inp : P -> R) c subs : Forall (fun sb => su_check sb c = Ret false) subs -> try_subs subs par p inp c = Ret (NoArchive (inp p)).
Proof. induction 1 as [|sb subs H _ IH]; [reflexivity|]. cbn [try_subs]. rewrite H. exact IH. Qed.

Section Readers.
Context {Dz Dg Db Dl : Type}.
Variables (cz : codec Dz) (cg : codec Dg) (cb : codec Db) (cl : lzcodec Dl) (fz fg fb : format) (fl : lzformat).
Variables (DIz : Dz -> list Z -> list Z -> Prop) (DIg : Dg -> list Z -> list Z -> Prop) (DIb : Db -> list Z -> list Z -> Prop) (DIl : Dl -> list Z -> list Z -> Prop).
Hypotheses (Hcz : codec_ok fz cz DIz) (Hcg : codec_ok fg cg DIg) (Hcb : codec_ok fb cb DIb) (Hcl : lzma_ok fl cl DIl).
Variables (bufsize : Z) (gas fuel : nat) (L : Z) (big : bool) (mktime : tm -> Z).
Hypothesis (Hb : 1 <= bufsize <= BUF_LIM).
Hypothesis (HL : maxline <= L <= BUF_LIM).
Let rsubs := reader_subs cg cb cl bufsize gas true cz big mktime maxline fuel.
Definition sub_of (k : akind) : sub_type :=
  match k with
  | AMail => sub_mail maxline fuel
  | ARpm => sub_rpm cg cb cl bufsize gas true big fuel
  | AAr => sub_ar fuel
  | AZip => sub_zip bufsize gas cz mktime fuel
  | ATar => sub_tar fuel
  | ASdf => sub_sdf fuel
  end.
Lemma sub_in k : In (sub_of k) rsubs.
Proof. destruct k; cbn; auto 10. Qed.
Lemma in_sub sb : In sb rsubs -> exists k, sb = sub_of k.
Proof. cbn. intros [<-|[<-|[<-|[<-|[<-|[<-|[]]]]]]]; [exists AMail|exists ARpm|exists AAr|exists AZip|exists ATar|exists ASdf]; reflexivity. Qed.
Lemma sub_check k h : KmpSpec.bytes h -> exists b, su_check (sub_of k) h = Ret b /\ (b = true <-> looks k h).
Proof.
  intros Hh. destruct k; cbn [sub_of su_check sub_mail sub_rpm sub_ar sub_zip sub_tar sub_sdf looks];
    [apply mail_check_ok; exact Hh|apply rpm_check_ok|apply ar_check_ok|apply zip_check_ok|apply tar_check_ok|apply sdf_check_ok; exact Hh].
Qed.
Lemma header_bytes x h : KmpSpec.bytes x -> header x h -> KmpSpec.bytes h.
Proof. intros Hx (n & -> & _). apply bytes_slice. exact Hx. Qed.

Lemma open_generic (Q : forall St, provider St -> St -> info -> Prop) subs ls c x k P (par : ops P Z) p R (inp : P -> R) rep :
  Permutation subs rsubs -> compressed fb fg fl (Z.of_nat gas) ls c x -> good rep L par p c -> (rep = true \/ forall l, ls <> LLzma :: l) -> (length ls <= 33)%nat -> clearly k x ->
  (forall P' (par' : ops P' Z) p' v, Conforms par' x False L p' v -> v_pos v = 0 -> v_lo v <= 0 -> o_status par' p' = Ok -> opens Q par' p' (sub_of k)) ->
  exists St (pv : provider St) st i inp', open_archive cg cb cl bufsize gas true subs (Any par p inp) = Ret (Found pv st i inp') /\ Q St pv st i.
Proof.
  intros Hperm Hc Hg Hrep Hlen (Hne & Hcl') Hop. unfold open_archive, maxline in *.
  destruct (unwrap_ok cg cb cl fg fb fl DIg DIb DIl Hcg Hcb Hcl bufsize gas L Hb ltac:(lia) 32 rep ls c x (Any par p inp) Hc Hg ltac:(lia) Hrep) as ([P' par' p' inp1] & E & Hg').
  rewrite E; cbn [bind]. cbn [goodx] in Hg'.
  assert (KmpSpec.bytes x) as Hx.
  { clear - Hc. induction Hc; assumption. }
  destruct (peek_ok false L par' p' x 1024 Hg' ltac:(lia) ltac:(lia)) as (p1 & n & d & E1 & Hg1 & _ & Hst & [(H1 & _)|(H1 & -> & H2)] & _); [congruence|].
  rewrite E1; cbn [bind]. assert (header x (slice x 0 n)) as Hh by (exists n; split; [reflexivity|split; assumption]).
  assert (forall k', exists b, su_check (sub_of k') (slice x 0 n) = Ret b /\ (b = true <-> k' = k)) as Hck.
  { intros k'. destruct (sub_check k' (slice x 0 n) (header_bytes _ _ Hx Hh)) as (b & Eb & Hbb). exists b. split; [exact Eb|]. rewrite Hbb. apply Hcl'. exact Hh. }
  destruct Hg1 as (v & HC & Hv & _). 
  assert (v_lo v <= 0) as Hlo. { assert (view_ok x v) as HV by apply HC. unfold view_ok in HV. lia. }
  apply try_subs_found.
  - apply Forall_forall. intros sb Hin. apply (Permutation_in _ Hperm) in Hin. apply in_sub in Hin. destruct Hin as (k' & ->).
    destruct (Hck k') as (b & Eb & Hbb). rewrite Eb. destruct b; [right|left; reflexivity]. split; [reflexivity|].
    assert (k' = k) as -> by (apply Hbb; reflexivity). apply (Hop P' par' p1 v HC Hv Hlo). apply Hst. exact Hne.
  - apply Exists_exists. exists (sub_of k). split; [apply (Permutation_in _ (Permutation_sym Hperm)), sub_in|].
    destruct (Hck k) as (b & Eb & Hbb). rewrite Eb. f_equal. apply Hbb. reflexivity.
Qed.

Lemma ar_even (P : Type) (par : ops P Z) p v x ms : Conforms par x False L p v -> v_pos v = 0 -> ar_archive L x ms -> (length x < fuel)%nat -> ms <> [] ->
  opens (fun St pv st i => at_first (ending AAr) pv L ms st i) par p (sub_of AAr).
Proof.
  intros HC Hv Ha Hf Hn. unfold maxline in *. destruct (C22_ar_lists_members P par x L p v [] x ms HC ltac:(lia) eq_refl ltac:(rewrite Hv; reflexivity) ltac:(rewrite Hv; reflexivity) Ha) as (a & E & Hl).
  specialize (Hl fuel Hf). destruct (lists_first _ _ _ _ _ Hl Hn) as (st1 & i & E1 & H1). exists a, st1, i. auto.
Qed.
Lemma opens_archive (P : Type) (par : ops P Z) p v x k ms : Conforms par x False L p v -> v_pos v = 0 -> o_status par p = Ok ->
  archive_of L (dos2unixtime mktime) fz fg fb fl k x ms -> ms <> [] -> zlen x <= Z.of_nat gas -> (length x < fuel)%nat -> Forall (fun m => (length (m_data m) < fuel)%nat) ms -> (2 <= fuel)%nat ->
  opens (fun St pv st i => at_first (ending k) pv L ms st i) par p (sub_of k).
Proof.
  intros HC Hv Hst Ha Hn Hg Hf Hms H2. assert (zlen (@nil Z) = v_pos v) as H0 by (rewrite Hv; reflexivity). unfold maxline in HL. destruct Ha as [x ms H|kz x ms H Hk|x ms H _|x comp rest content ms kc H H16 Hs Hx Hc].
  - eapply ar_even; eassumption.
  - pose proof (C24_tar_lists_members_partial P par x L p v [] x kz ms HC ltac:(lia) eq_refl H0 H Hk fuel Hf) as Hl.
    apply (lists_lim _ (ending ATar) _ L L) in Hl; [|lia|cbn; tauto]. destruct (lists_first _ _ _ _ _ Hl Hn) as (st1 & i & E1 & H1). exists (tar_new p), st1, i. auto.
  - pose proof (C25_zip_lists_members Dz P cz fz DIz par mktime x L p v [] x ms bufsize gas fuel Hcz HC Hst ltac:(lia) Hb eq_refl H0 H Hg H2 Hms) as Hl.
    apply (lists_lim _ (ending AZip) _ _ L) in Hl; [|lia|cbn; tauto]. destruct (lists_first _ _ _ _ _ Hl Hn) as (st1 & i & E1 & H1). exists (zip_new p), st1, i. auto.
  - destruct (C37_rpm_lists_members P Dg Db Dl par cg cb cl fg fb fl DIg DIb DIl big x L p v [] x comp rest content ms kc bufsize gas fuel Hcg Hcb Hcl HC ltac:(lia) eq_refl (eq_sym H0) H H16 Hs Hx Hc Hb Hg H2) as (a & E & _ & Hl).
    apply (lists_lim _ (ending ARpm) _ _ L) in Hl; [|lia|cbn; tauto]. destruct (lists_first _ _ _ _ _ Hl Hn) as (st1 & i & E1 & H1). exists a, st1, i. auto.
Qed.
End Readers.

(** A tar, ar, zip or rpm archive with at least one entry, in up to 33 layers of compression, whose beginning looks like no other
    format: it is found whatever the order of the map of formats, on every stream of the library, and its entries are listed.
    [gas] and [fuel] only bound loop unrolling in the model. *)
Theorem C49_opens_partial : forall (Dz Dg Db Dl P : Type) (cz : codec Dz) (cg : codec Dg) (cb : codec Db) (cl : lzcodec Dl) fz fg fb fl DIz DIg DIb DIl
    bufsize gas fuel lim big mktime subs ls c x k ms (par : ops P Z) I p v,
  codec_ok fz cz DIz -> codec_ok fg cg DIg -> codec_ok fb cb DIb -> lzma_ok fl cl DIl -> 1 <= bufsize <= BUF_LIM -> maxline <= lim <= BUF_LIM ->
  Permutation subs (reader_subs cg cb cl bufsize gas true cz big mktime maxline fuel) ->
  repeatable par I -> I p -> Conforms par c False lim p v -> v_pos v = 0 ->
  compressed fb fg fl (Z.of_nat gas) ls c x -> (length ls <= 33)%nat ->
  clearly k x -> archive_of lim (dos2unixtime mktime) fz fg fb fl k x ms -> ms <> [] ->
  (2 <= fuel)%nat -> (length x < fuel)%nat -> Forall (fun m => (length (m_data m) < fuel)%nat) ms ->
  exists St (pv : provider St) st i inp, open_archive cg cb cl bufsize gas true subs (Any par p (fun p => p)) = Ret (Found pv st i inp) /\ at_first (ending k) pv lim ms st i.
Proof.
  intros Dz Dg Db Dl P cz cg cb cl fz fg fb fl DIz DIg DIb DIl bufsize gas fuel lim big mktime subs ls c x k ms par I p v Hcz Hcg Hcb Hcl Hb HL Hperm HG HI HC Hv Hc Hls Hk Ha Hn H2 Hf Hms.
  assert (zlen x <= Z.of_nat gas) as Hx by (clear - Hc; induction Hc; assumption).
  apply (open_generic cz cg cb cl fg fb fl DIg DIb DIl Hcg Hcb Hcl bufsize gas fuel lim big mktime Hb HL (fun St pv st i => at_first (ending k) pv lim ms st i) subs ls c x k P par p P (fun p => p) true Hperm Hc); [exists v; eauto 7|left; reflexivity|exact Hls|exact Hk|].
  intros P' par' p' v' HC' Hv' _ Hst. eapply opens_archive; eassumption.
Qed.
(** the same for mails with parts *)
Theorem C49_opens_mail_partial : forall (Dz Dg Db Dl P : Type) (cz : codec Dz) (cg : codec Dg) (cb : codec Db) (cl : lzcodec Dl) fg fb fl DIg DIb DIl
    bufsize gas fuel lim big mktime subs ls c x nl ps (par : ops P Z) I p v,
  codec_ok fg cg DIg -> codec_ok fb cb DIb -> lzma_ok fl cl DIl -> 1 <= bufsize <= BUF_LIM -> maxline <= lim <= BUF_LIM ->
  Permutation subs (reader_subs cg cb cl bufsize gas true cz big mktime maxline fuel) ->
  repeatable par I -> I p -> Conforms par c False lim p v -> v_pos v = 0 ->
  compressed fb fg fl (Z.of_nat gas) ls c x -> (length ls <= 33)%nat ->
  clearly AMail x -> newline nl -> MailPartsSpec.message nl maxline x ps -> ps <> [] -> zlen x <= INT32_MAX -> zlen x + 1 < Z.of_nat fuel ->
  exists St (pv : provider St) st i inp, open_archive cg cb cl bufsize gas true subs (Any par p (fun p => p)) = Ret (Found pv st i inp) /\ at_first_part pv lim ps st i.
Proof.
  intros Dz Dg Db Dl P cz cg cb cl fg fb fl DIg DIb DIl bufsize gas fuel lim big mktime subs ls c x nl ps par I p v Hcg Hcb Hcl Hb HL Hperm HG HI HC Hv Hc Hls Hk Hnl Hm Hn Hx Hf.
  assert (KmpSpec.bytes x) as HB by (clear - Hc; induction Hc; assumption).
  apply (open_generic cz cg cb cl fg fb fl DIg DIb DIl Hcg Hcb Hcl bufsize gas fuel lim big mktime Hb HL (fun St pv st i => at_first_part pv lim ps st i) subs ls c x AMail P par p P (fun p => p) true Hperm Hc); [exists v; eauto 7|left; reflexivity|exact Hls|exact Hk|].
  intros P' par' p' v' HC' Hv' Hlo _. destruct (C45_listing_partial P' par' nl x ps lim p' v' fuel Hnl Hm HC' Hlo ltac:(lia) HB Hx Hf) as (m & E & _ & Hl).
  destruct ps as [|q ps]; [congruence|]. cbn [lists_parts] in Hl. destruct Hl as (st1 & i & E1 & H1 & H2 & H3 & H4 & H5).
  exists m, st1, i. split; [exact E|]. split; [exact E1|]. cbn [at_first_part]. auto.
Qed.
Lemma empty_read {P} (par : ops P Z) L p v mn mx : Conforms par [] False L p v -> 1 <= mn <= L -> 1 <= mn <= INT32_MAX -> mn <= mx <= INT32_MAX \/ INT32_MIN <= mx <= 0 ->
  exists p' v', o_read par p mn mx = Ret (p', -1, []) /\ Conforms par [] False L p' v'.
Proof.
  intros HC H1 H2 H3. assert (HS := conforms_sim par (@nil Z) False L). assert (HV := sim_view _ _ _ _ _ HS _ _ HC). unfold view_ok in HV. change (zlen (@nil Z)) with 0 in HV.
  destruct (sim_read _ _ _ _ _ p v mn mx HS HC) as (p1 & n & d & E & [(G & HC1)|(_ & [] & _)]); [cbn; lia|].
  destruct G as (_ & _ & _ & _ & [(Hn & Hd & Hle & _ & Hmin)|(Hn & Hd & C & _)]); cbn [observe ob_ret ob_data] in *; [change (zlen (@nil Z)) with 0 in Hle; lia|].
  rewrite E, Hn, Hd. eauto.
Qed.
Lemma empty_reset {P} (par : ops P Z) L p v : Conforms par [] False L p v -> exists p' r v', o_reset par p 0 = Ret (p', r) /\ Conforms par [] False L p' v'.
Proof.
  intros HC. assert (HS := conforms_sim par (@nil Z) False L). destruct (sim_reset _ _ _ _ _ p _ 0 HS HC) as (p2 & r & E2 & [(G2 & HC2)|(_ & [])]); [change (zlen (@nil Z)) with 0; lia|]. eauto.
Qed.
Lemma empty_subs {R Dz Dg Db Dl P} (inp : P -> R) (cz : codec Dz) (cg : codec Dg) (cb : codec Db) (cl : lzcodec Dl) bufsize gas fuel big mktime L (par : ops P Z) subs : maxline <= L -> (1 <= fuel)%nat ->
  Forall (fun sb => exists k, sb = sub_of cz cg cb cl bufsize gas fuel big mktime k) subs -> forall p v, Conforms par [] False L p v -> exists p', try_subs subs par p inp [] = Ret (NoArchive (inp p')).
Proof.
  intros HL Hf. unfold maxline in HL. induction 1 as [|sb subs (k & ->) _ IH]; intros p v HC; [exists p; reflexivity|]. cbn [try_subs].
  assert (k = AMail \/ su_check (sub_of cz cg cb cl bufsize gas fuel big mktime k) [] = Ret false) as [->|E] by (destruct k; [left; reflexivity|right; reflexivity..]); [|rewrite E; cbn [bind]; eapply IH; exact HC].
  change (su_check (sub_of cz cg cb cl bufsize gas fuel big mktime AMail) []) with (Ret true). cbn [bind].
  destruct (empty_reset _ _ _ _ HC) as (p1 & r1 & v1 & E1 & HC1).
  destruct (empty_read par L p1 v1 1 maxline HC1) as (p2 & v2 & E2 & HC2); [lia|unfold INT32_MAX; lia|unfold maxline, INT32_MIN, INT32_MAX; lia|].
  assert (exists a, mail_new par maxline fuel p = Ret a /\ l_st (a_ml a) = Eof /\ M_MailList.a_cur a = None /\ l_in (a_ml a) = p2) as (a & Ea & Hst & Hcur & Hin).
  { destruct fuel as [|f]; [lia|]. unfold mail_new. cbn [readHeader]. unfold l_line, readHeaderLine. cbn [l_in l_next]. rewrite E1; cbn [bind hl_loop].
    change (0 + 1) with 1. rewrite E2; cbn [bind]. change (-1 <? 1) with true. cbn [bind]. eexists. split; [reflexivity|]. cbn. auto. }
  cbn [sub_of sub_mail su_make su_pv su_input]. rewrite Ea; cbn [bind]. unfold mail_provider at 1. cbn [pv_next]. unfold mail_next at 1. rewrite Hst. cbn [bind].
  unfold mail_input. rewrite Hcur, Hin. destruct (empty_reset _ _ _ _ HC2) as (p3 & r3 & v3 & E3 & HC3). rewrite E3; cbn [bind].
  unfold peek. destruct (empty_read par L p3 v3 1 0 HC3) as (p4 & v4 & E4 & HC4); [lia|unfold INT32_MAX; lia|unfold INT32_MIN, INT32_MAX; lia|]. rewrite E4; cbn [bind].
  destruct (empty_reset _ _ _ _ HC4) as (p5 & r5 & v5 & E5 & HC5). rewrite E5; cbn [bind]. eapply IH; exact HC5.
Qed.
Lemma open_none : forall (R Dz Dg Db Dl P : Type) (cz : codec Dz) (cg : codec Dg) (cb : codec Db) (cl : lzcodec Dl) fg fb fl DIg DIb DIl
    bufsize gas fuel lim big mktime subs ls c x (par : ops P Z) p (inp : P -> R) rep,
  codec_ok fg cg DIg -> codec_ok fb cb DIb -> lzma_ok fl cl DIl -> 1 <= bufsize <= BUF_LIM -> maxline <= lim <= BUF_LIM ->
  Permutation subs (reader_subs cg cb cl bufsize gas true cz big mktime maxline fuel) ->
  good rep lim par p c -> (rep = true \/ forall l, ls <> LLzma :: l) ->
  compressed fb fg fl (Z.of_nat gas) ls c x -> (length ls <= 33)%nat -> no_archive x -> (1 <= fuel)%nat ->
  exists r, open_archive cg cb cl bufsize gas true subs (Any par p inp) = Ret (NoArchive r).
Proof.
  intros R Dz Dg Db Dl P cz cg cb cl fg fb fl DIg DIb DIl bufsize gas fuel lim big mktime subs ls c x par p inp rep Hcg Hcb Hcl Hb HL Hperm HG Hrep Hc Hls Hno Hf.
  assert (KmpSpec.bytes x) as HB by (clear - Hc; induction Hc; assumption). unfold maxline in HL.
  destruct (unwrap_ok cg cb cl fg fb fl DIg DIb DIl Hcg Hcb Hcl bufsize gas lim Hb ltac:(lia) 32 rep ls c x (Any par p inp) Hc HG ltac:(lia) Hrep) as ([P' par' p' inp'] & E & Hg').
  unfold open_archive. rewrite E; cbn [bind].
  destruct (peek_ok false lim par' p' x 1024 Hg' ltac:(lia) ltac:(lia)) as (p1 & n & d & E1 & (v1 & HC1 & _) & _ & _ & H & _). rewrite E1; cbn [bind].
  destruct H as [(-> & -> & _)|(H1 & -> & H2)].
  { destruct (empty_subs inp' cz cg cb cl bufsize gas fuel big mktime lim par' subs ltac:(exact (proj1 HL)) Hf) with (p := p1) (v := v1) as (p2 & E2); [|exact HC1|exists (inp' p2); exact E2].
    apply Forall_forall. intros sb Hin. apply (Permutation_in _ Hperm) in Hin. apply in_sub in Hin. exact Hin. }
  eexists. apply try_subs_none. apply Forall_forall. intros sb Hin. apply (Permutation_in _ Hperm) in Hin. apply in_sub in Hin. destruct Hin as (k & ->).
  assert (header x (slice x 0 n)) as Hh by (exists n; auto).
  destruct (sub_check cz cg cb cl bufsize gas fuel big mktime k _ (header_bytes _ _ HB Hh)) as (b & -> & Hbb). f_equal. destruct b; [exfalso; eapply Hno; [exact Hh|apply Hbb; reflexivity]|reflexivity].
Qed.
(** what looks like none of the formats is no archive *)
Theorem C49_no_archive : forall (Dz Dg Db Dl P : Type) (cz : codec Dz) (cg : codec Dg) (cb : codec Db) (cl : lzcodec Dl) fg fb fl DIg DIb DIl
    bufsize gas fuel lim big mktime subs ls c x (par : ops P Z) I p v,
  codec_ok fg cg DIg -> codec_ok fb cb DIb -> lzma_ok fl cl DIl -> 1 <= bufsize <= BUF_LIM -> maxline <= lim <= BUF_LIM ->
  Permutation subs (reader_subs cg cb cl bufsize gas true cz big mktime maxline fuel) ->
  repeatable par I -> I p -> Conforms par c False lim p v -> v_pos v = 0 ->
  compressed fb fg fl (Z.of_nat gas) ls c x -> (length ls <= 33)%nat -> no_archive x -> (1 <= fuel)%nat ->
  exists p', open_archive cg cb cl bufsize gas true subs (Any par p (fun p => p)) = Ret (NoArchive p').
Proof.
  intros Dz Dg Db Dl P cz cg cb cl fg fb fl DIg DIb DIl bufsize gas fuel lim big mktime subs ls c x par I p v Hcg Hcb Hcl Hb HL Hperm HG HI HC Hv Hc Hls Hno Hf.
  apply (open_none P Dz Dg Db Dl P cz cg cb cl fg fb fl DIg DIb DIl bufsize gas fuel lim big mktime subs ls c x par p (fun p => p) true); try assumption; [|left; reflexivity].
  exists v. eauto 7.
Qed.

(** The streams of the library are repeatable: strings in memory, buffered streams (files, decompressed and decoded streams), and the streams of
    entries that are parts of such a stream, so archives in archives are covered.  [small_buf]: no more than 2 GB buffered. *)
Theorem C49_streams : 
  repeatable (ss_ops (A := Z)) (fun s => ss_pos s <= ss_size s <= INT32_MAX) /\
  (forall S (src : source S Z), repeatable (bs_ops src) (fun x => small_buf (bs_buf x))) /\
  (forall D P (cd : lzcodec D) (par : ops P Z), repeatable (l_ops cd par) (fun x => small_buf (bs_buf x))) /\
  (forall P (par : ops P Z) I, repeatable par I -> exists J, repeatable (sub_ops par) J /\
     forall p n s, I p -> 0 <= o_pos par p -> n <= INT32_MAX -> sub_new par p n = Ret s -> J s).
Proof.
  split; [exact ss_repeatable|]. split; [intros; apply bs_repeatable|]. split; [intros; apply l_repeatable|].
  intros P par I HR. exists (sub_inv par I). split; [apply sub_repeatable; exact HR|].
  intros p n s HI Hp Hn E. unfold sub_new in E. destruct (Z.ltb_spec n (-1)); [discriminate|]. injection E as <-. unfold sub_inv. cbn [su_par su_pos su_off su_size]. split; [exact HI|]. lia.
Qed.

(** ** A zip archive in gzip in bzip2 *)
Notation gzc := (magic_codec [31;139] toy_codec).
Notation bzc := (magic_codec [66;90;104;57;49;65;89;38;83;89] toy_codec).
Definition zip_one : list Z := zip_h 0 0 3 3 [97] [] ++ [1;2;3] ++ 80 :: 75 :: 1 :: 2 :: repeat 0 64.
Definition in_gzip : list Z := 31 :: 139 :: zlen zip_one :: zip_one.
Definition in_bzip2 : list Z := [66;90;104;57;49;65;89;38;83;89] ++ zlen in_gzip :: in_gzip.
Lemma clearly_short k x : x <> [] -> zlen x < 1024 -> KmpSpec.bytes x ->
  (forall k', su_check (sub_of toy_codec gzc bzc cp_codec 1 0 0 false (fun _ => 0) k') x = Ret (match k, k' with AMail, AMail | ARpm, ARpm | AAr, AAr | AZip, AZip | ATar, ATar | ASdf, ASdf => true | _, _ => false end)) ->
  clearly k x.
Proof.
  intros Hne Hl HB Hck. split; [exact Hne|]. intros h (n & -> & Hn & H1) k'. assert (n = zlen x) as -> by lia. rewrite slice_all.
  destruct (sub_check toy_codec gzc bzc cp_codec 1 0 0 false (fun _ => 0) k' x HB) as (b & E & H). rewrite <- H. rewrite Hck in E. injection E as <-.
  destruct k, k'; split; intros X; (reflexivity || discriminate).
Qed.
Lemma bytes_dec l : forallb (fun c => (0 <=? c) && (c <? 256)) l = true -> KmpSpec.bytes l.
Proof. intros H. apply Forall_forall. intros c Hc. rewrite forallb_forall in H. specialize (H c Hc). lia. Qed.
Example C49_case : exists St (pv : provider St) st i inp,
  open_archive gzc bzc cp_codec 262144 1000 true (reader_subs gzc bzc cp_codec 262144 1000 true toy_codec false mk0 maxline 1000) (Any ss_ops (mkSS (in_bzip2 ++ [7;7]) (zlen (in_bzip2 ++ [7;7])) 0 Ok) (fun p => p)) = Ret (Found pv st i inp) /\
  at_first (ending AZip) pv BUF_LIM [mkMember (mkInfo [97] 3 77 2) [1;2;3]] st i.
Proof.
  apply (C49_opens_partial _ _ _ _ _ toy_codec gzc bzc cp_codec toy_format (magic_format [31;139] toy_format) (magic_format [66;90;104;57;49;65;89;38;83;89] toy_format) cp_format
    toy_DI (magic_DI [31;139] toy_DI) (magic_DI [66;90;104;57;49;65;89;38;83;89] toy_DI) cp_DI 262144 1000 1000 BUF_LIM false mk0 _ [LBzip2; LGzip] (in_bzip2 ++ [7;7]) zip_one AZip _ ss_ops (fun s => ss_pos s <= ss_size s <= INT32_MAX) _ view0).
  - exact toy_ok.
  - apply magic_ok_codec; [discriminate|exact toy_ok].
  - apply magic_ok_codec; [discriminate|exact toy_ok].
  - exact cp_ok.
  - unfold BUF_LIM; lia.
  - unfold maxline, BUF_LIM; lia.
  - apply Permutation_refl.
  - exact ss_repeatable.
  - vm_compute. split; discriminate.
  - eapply conforms_lim; [|apply ss_conforms; vm_compute; discriminate]. unfold BUF_LIM, INT32_MAX; lia.
  - reflexivity.
  - assert (KmpSpec.bytes zip_one /\ KmpSpec.bytes in_gzip /\ KmpSpec.bytes (in_bzip2 ++ [7;7])) as (B1 & B2 & B3)
      by (split; [|split]; apply bytes_dec; vm_compute; reflexivity).
    assert (forall l, KmpSpec.bytes l -> exists b, bz2_check l = Ret b /\ (b = true <-> is_bz2 l)) as X1 by (intros; apply bz2_check_ok).
    apply cmp_bzip2 with (y := in_gzip); [|exists 104, 57; eexists; split; [left; reflexivity|reflexivity]|exact B3|vm_compute; discriminate|].
    { eexists. split; [reflexivity|]. eexists; split; [reflexivity|]. split; [reflexivity|vm_compute; split; discriminate]. }
    rewrite <- (app_nil_r in_gzip) at 1. apply cmp_gzip with (y := zip_one); [|eexists; reflexivity|rewrite app_nil_r; exact B2|vm_compute; discriminate|].
    { eexists. split; [reflexivity|]. eexists; split; [reflexivity|]. split; [reflexivity|vm_compute; split; discriminate]. }
    apply cmp_plain; [|exact B1|vm_compute; discriminate]. split; [|split].
    + intros (h & lv & t & _ & E). discriminate E.
    + intros (t & E). discriminate E.
    + destruct (lzma_check_ok zip_one B1) as (b & E & Hb). vm_compute in E. injection E as <-. intros H. apply Hb in H. discriminate.
  - cbn; lia.
  - apply clearly_short; [discriminate|vm_compute; reflexivity|apply bytes_dec; vm_compute; reflexivity|]. intros []; vm_compute; reflexivity.
  - apply ao_zip; [|repeat constructor; vm_compute; discriminate].
    apply (zip_stored (dos2unixtime mk0) toy_format 0 67305985 [97] (zip_h 0 0 3 3 [97] []) [1;2;3] (80 :: 75 :: 1 :: 2 :: repeat 0 64) []); [| | | |].
    + apply zip_h_ok; try reflexivity; vm_compute; try split; discriminate.
    + reflexivity.
    + discriminate.
    + vm_compute; discriminate.
    + apply zip_end; try lia; try discriminate; vm_compute; discriminate.
  - discriminate.
  - lia.
  - vm_compute. lia.
  - repeat constructor.
Qed.

(** ** What looks like two formats is listed as one of them, depending on the order of the map, which is that of the addresses of functions:
    a tar archive with a member "a:b" (contents "\n\nhi\n") also looks like a mail *)
Definition tar_colon : list Z := tar_h [97;58;98] 5 0 48 ++ pad512 [10;10;104;105;10] 507 ++ repeat 0 1536.
Definition first_name (subs : list sub_type) (bytes : list Z) : option (list Z) :=
  match open_archive gzc bzc cp_codec 262144 10 true subs (Any ss_ops (mkSS bytes (zlen bytes) 0 Ok) (fun p => p)) with Ret (Found _ _ i _) => Some (i_name i) | _ => None end.
Theorem C49_ambiguous_refuted : exists subs, Permutation subs (reader_subs gzc bzc cp_codec 262144 10 true toy_codec false mk0 maxline 3000) /\
  first_name subs tar_colon = Some [97;58;98] /\
  first_name (reader_subs gzc bzc cp_codec 262144 10 true toy_codec false mk0 maxline 3000) tar_colon = Some [98;111;100;121].
Proof.
  exists (rev (reader_subs gzc bzc cp_codec 262144 10 true toy_codec false mk0 maxline 3000)).
  split; [symmetry; apply Permutation_rev|]. split; vm_compute; reflexivity.
Qed.
