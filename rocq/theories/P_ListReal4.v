(** Proofs for C53: the traversal. *)
From Coq Require Import Bool Permutation.
From Verif Require Import Base StreamSpec P_Stream SegSpec ArchiveSpec KmpSpec BufferedSpec M_Text InflateSpec LzmaSpec DetectSpec TextSpec CacheSpec M_Cache P_Cache
  MailPartsSpec M_MailList T_MailList M_Inflate M_Lzma M_Open OpenSpec P_Open T_Open M_Listing ListingSpec P_Listing M_ListReal ListRealSpec P_ListReal1 P_ListReal2 P_ListReal3.

Section Traverse.
Context {Dz Dg Db Dl : Type}.
Variables (cz : codec Dz) (cg : codec Dg) (cb : codec Db) (cl : lzcodec Dl) (fz fg fb : format) (fl : lzformat).
Variables (DIz : Dz -> list Z -> list Z -> Prop) (DIg : Dg -> list Z -> list Z -> Prop) (DIb : Db -> list Z -> list Z -> Prop) (DIl : Dl -> list Z -> list Z -> Prop).
Hypotheses (Hcz : codec_ok fz cz DIz) (Hcg : codec_ok fg cg DIg) (Hcb : codec_ok fb cb DIb) (Hcl : lzma_ok fl cl DIl).
Variables (bufsize : Z) (gas fuel : nat) (lim : Z) (big : bool) (mktime : tm -> Z) (subs : list sub_type).
Hypothesis (Hb : 1 <= bufsize <= BUF_LIM).
Hypothesis (HL : maxline + 1024 <= lim <= BUF_LIM).
Hypothesis (Hperm : Permutation subs (reader_subs cg cb cl bufsize gas true cz big mktime maxline fuel)).
Hypothesis (Hfuel : Z.of_nat gas + 1 < Z.of_nat fuel).
Notation N := (Z.of_nat gas).
Notation holds := (holds fz fg fb fl (dos2unixtime mktime) lim N).
Notation hold_u := (hold_u fz fg fb fl (dos2unixtime mktime) lim N).
Notation rnext := (rnext_entry cg cb cl bufsize gas true subs lim fuel).
Notation rall := (rlist_all cg cb cl bufsize gas true subs lim fuel).
Notation rfr := (rframe lim).

Lemma rget_put (st : list rfr) d f j : 0 <= d < zlen st -> zget (rput lim st d f) j = if j =? d then Some f else zget st j.
Proof.
  intros H. unfold rput. rewrite zget_splice by (try lia; change (zlen [f]) with 1; lia). change (zlen [f]) with 1.
  destruct (Z.eqb_spec j d) as [E|]; destruct (Z.leb_spec d j), (Z.ltb_spec j (d + 1)); try lia; cbn [andb]; try reflexivity.
  subst j. rewrite Z.sub_diag. reflexivity.
Qed.
Lemma rlen_put (st : list rfr) d f : 0 <= d < zlen st -> zlen (rput lim st d f) = zlen st.
Proof. intros H. unfold rput. apply zlen_splice; [lia|]. change (zlen [f]) with 1. lia. Qed.

(** opening the bytes of an archive *)
Lemma open_arch (R P : Type) (par : ops P Z) p (inp : P -> R) (rep top : bool) c e es : holds top c (Arch e es) -> good rep lim par p c -> rep = true \/ top = false ->
  exists St (pv : provider St) st i inp' us, open_archive cg cb cl bufsize gas true subs (Any par p inp) = Ret (Found pv st i inp') /\
    at_u pv lim us st i /\ runs pv /\ hold_u us (e :: es) /\ forall e' es', hold_u us (e' :: es') -> holds top c (Arch e' es').
Proof.
  intros Hh Hg Hrt. unfold maxline in HL. inversion Hh as [|t0 c0 x k ms e0 es0 HU Hk Ha Hms|t0 c0 x nl ps e0 es0 HU Hk Hnl Hmsg Hx Hps]; subst.
  - pose proof HU as (ls & Hc & Hls & Htop).
    assert (zlen x <= N) as HxN by (clear - Hc; induction Hc; assumption).
    destruct (open_generic cz cg cb cl fg fb fl DIg DIb DIl Hcg Hcb Hcl bufsize gas fuel lim big mktime Hb ltac:(unfold maxline; lia)
      (fun St pv st i => at_first (ending k) pv lim ms st i /\ runs pv) subs ls c x k P par p R inp rep Hperm Hc Hg) as (St & pv & st & i & inp' & E & Hat & Hr).
    + destruct Hrt as [->|Ht]; [left; reflexivity|right]. destruct Htop as [Ht'|Ht']; [congruence|exact Ht'].
    + exact Hls.
    + exact Hk.
    + intros P' par' p' v HC Hv _ Hst.
      destruct (opens_archive cz cg cb cl fz fg fb fl DIz DIg DIb DIl Hcz Hcg Hcb Hcl bufsize gas fuel lim big mktime Hb ltac:(unfold maxline; lia) P' par' p' v x k ms HC Hv Hst Ha) as (ss & ss1 & i & E1 & E2 & H).
      * inversion Hms; discriminate.
      * exact HxN.
      * unfold zlen in HxN. lia.
      * clear - Hms Hfuel. assert (forall l, hold_members fz fg fb fl (dos2unixtime mktime) lim N ms l -> Forall (fun m => (length (m_data m) < fuel)%nat) ms) as H; [|eapply H; exact Hms].
        clear Hms. induction ms as [|m ms IH]; intros l H; [constructor|]. inversion H; subst. constructor; [|eapply IH; eassumption].
        match goal with X : ListRealSpec.holds _ _ _ _ _ _ _ false _ _ |- _ => apply holds_len in X; unfold zlen in X; lia end.
      * lia.
      * exists ss, ss1, i. split; [exact E1|]. split; [exact E2|]. split; [exact H|apply sub_runs].
    + exists St, pv, st, i, inp', (map of_member ms). split; [exact E|]. split; [eapply at_first_u; exact Hat|]. split; [exact Hr|]. split; [apply members_u; exact Hms|].
      intros e' es' H'. eapply ho_archive; [exact HU|exact Hk|exact Ha|apply members_u; exact H'].
  - pose proof HU as (ls & Hc & Hls & Htop).
    assert (zlen x <= N) as HxN by (clear - Hc; induction Hc; assumption).
    assert (KmpSpec.bytes x) as HB by (clear - Hc; induction Hc; assumption).
    assert (Forall (fun p => 0 <= p_tl p /\ 1024 + p_tl p <= lim) ps) as Htl.
    { destruct Hmsg as (hs & b & t & _ & _ & _ & Hbo & _ & Hpt). apply parts_tl in Hpt; [|constructor; [exact Hbo|constructor]]. eapply Forall_impl; [|exact Hpt]. intros q. cbv beta. unfold maxline. lia. }
    destruct (parts_u fz fg fb fl _ lim N ps 1 _ Hps Htl) as (us & Hus & Hhu).
    destruct (open_generic cz cg cb cl fg fb fl DIg DIb DIl Hcg Hcb Hcl bufsize gas fuel lim big mktime Hb ltac:(unfold maxline; lia)
      (fun St pv st i => at_first_part pv lim ps st i /\ runs pv) subs ls c x AMail P par p R inp rep Hperm Hc Hg) as (St & pv & st & i & inp' & E & Hat & Hr).
    + destruct Hrt as [->|Ht]; [left; reflexivity|right]. destruct Htop as [Ht'|Ht']; [congruence|exact Ht'].
    + exact Hls.
    + exact Hk.
    + intros P' par' p' v' HC' Hv' Hlo _. destruct (C45_listing_partial P' par' nl x ps lim p' v' fuel Hnl Hmsg HC' Hlo ltac:(unfold maxline; lia) HB Hx ltac:(lia)) as (m & Em & _ & Hl).
      destruct ps as [|q ps]; [inversion Hps|]. cbn [lists_parts] in Hl. destruct Hl as (st1 & i & E1 & H1 & H2 & H3 & H4 & H5).
      exists m, st1, i. split; [exact Em|]. split; [exact E1|]. split; [cbn [at_first_part]; auto|apply (sub_runs cz cg cb cl bufsize gas fuel big mktime AMail)].
    + exists St, pv, st, i, inp', us. split; [exact E|]. split; [eapply at_part_u; [apply HL|exact Hus|exact Hat]|]. split; [exact Hr|]. split; [exact Hhu|].
      intros e' es' H'. eapply ho_mail; try eassumption. eapply u_parts; eassumption.
Qed.

(** adding the current entry and moving on *)
Lemma add_ok (st : list rfr) d len St (pv : provider St) s i inp t u us ce h h' sz :
  zget st d = Some (mkRF lim len (Found pv s i inp) (Some t)) -> at_u pv lim (u :: us) s i ->
  (i_size (t_info ce) < 0 -> drain_entry pv s i fuel h = Ret (h', sz)) -> (0 <= i_size (t_info ce) -> h' = h) -> Forall (ent_call lim u) h' ->
  exists p', real_add lim fuel st d ce h = Ret (rput lim st d (mkRF lim len p' (Some (addEntry t (T (let ci := t_info ce in if i_size ci <? 0 then mkInfo (i_name ci) (Z.max sz 0) (i_mtime ci) (i_type ci) else ci) (t_ch ce))))), d) /\
    match us with [] => exists hh, p' = NoArchive hh | w2 :: _ => exists s2, p' = Found pv s2 (n_info w2) inp /\ at_u pv lim us s2 (n_info w2) end.
Proof.
  intros G (-> & Hat) Hd1 Hd2 Hh. destruct (Hat h' Hh) as (s2 & obs & E2 & _ & Hl).
  assert (exists s3 r, pv_next pv s2 = Ret (s3, r) /\ match us with [] => r = None | w2 :: _ => r = Some (n_info w2) /\ at_u pv lim us s3 (n_info w2) end) as (s3 & r & E3 & Hr).
  { destruct us as [|w2 us]; cbn [lists_u] in Hl; [destruct Hl as (s3 & E3); eauto|]. destruct Hl as (s3 & E3 & H). exists s3, (Some (n_info w2)). split; [exact E3|]. split; [reflexivity|]. cbn [at_u]. auto. }
  unfold real_add, rat. rewrite G. cbn [bind r_p r_entry r_len].
  exists (match r with Some i => Found pv s3 i inp | None => NoArchive (inp s3) end). split.
  - cbv zeta. destruct (Z.ltb_spec (i_size (t_info ce)) 0) as [Hs|Hs].
    + rewrite (Hd1 Hs). cbn [bind]. rewrite E2. cbn [bind]. rewrite E3. cbn [bind]. reflexivity.
    + cbn [bind]. rewrite (Hd2 Hs) in E2. rewrite E2. cbn [bind]. rewrite E3. reflexivity.
  - destruct us as [|w2 us]; [subst r; eauto|]. destruct Hr as (-> & Hr). eauto.
Qed.

Lemma rnext_mono rec : forall (st : list rfr) d r, rnext rec st d = Ret r -> rnext (S rec) st d = Ret r.
Proof.
  induction rec as [|rec IH]; intros st d r E; [discriminate|].
  set (r1 := S rec). cbn [rnext_entry] in E |- *. cbv zeta in *. revert E. destruct (rat lim _ d) as [e| | |]; cbn [bind]; try discriminate. destruct (rat lim _ (d + 1)) as [e1| | |]; cbn [bind]; try discriminate.
  destruct (r_p lim e) as [St pv s i inp|h]; [|auto].
  match goal with |- context [open_archive ?a ?b ?c ?x ?y ?z ?w ?v] => destruct (open_archive a b c x y z w v) as [[St' pv' s' i' inp'|h']| | |] end; cbn [bind]; try discriminate; [apply IH|auto].
Qed.

Lemma plain_dec c : KmpSpec.bytes c -> plain c \/ ~ plain c.
Proof.
  intros HB. destruct (P_Detect.bz2_check_ok c) as (b1 & _ & H1').
  assert (b1 = true <-> bzip2_magic c) as H1.
  { rewrite H1'. split; [intros (h & lv & Hh & t & ->)|intros (h & lv & t & Hh & ->)]; [exists h, lv, t; split; [exact Hh|reflexivity]|exists h, lv; split; [exact Hh|exists t; reflexivity]]. } destruct (P_Detect.lzma_check_ok c HB) as (b2 & _ & H2).
  destruct b1; [right; intros (P & _); apply P; apply H1; reflexivity|]. destruct b2; [right; intros (_ & _ & P); apply P; apply H2; reflexivity|].
  destruct (list_eq_dec Z.eq_dec (firstn 2 c) [31;139]) as [E|E].
  - right. intros (_ & P & _). apply P. destruct c as [|a [|b t]]; try discriminate E. injection E as -> ->. exists t. reflexivity.
  - left. split; [intros X; apply H1 in X; discriminate|]. split; [|intros X; apply H2 in X; discriminate]. intros (t & ->). apply E. reflexivity.
Qed.
(** what the listing does with the stream of an entry that is no archive *)
Lemma open_entry_plain St (pv : provider St) s i u us real l : runs pv -> at_u pv lim (u :: us) s i -> hold_u (u :: us) (Entry i real Plain :: l) ->
  entry_len pv s i fuel = zlen (n_data u) /\
  exists h h' sz, open_archive cg cb cl bufsize gas true subs (Any (entry_ops pv s i (zlen (n_data u)) lim) hist0 (fun h => h)) = Ret (NoArchive h) /\
    (i_size i < 0 -> drain_entry pv s i fuel (proj1_sig h) = Ret (h', sz)) /\ (0 <= i_size i -> h' = proj1_sig h /\ sz = real) /\ Forall (ent_call lim u) h' /\
    hold_u (u :: us) (Entry i sz Plain :: l).
Proof.
  intros Hr (_ & Hat) HU. unfold maxline in HL. inversion HU as [|i0 data real0 s0 us0 l0 Hh Hm HUr|i0 data tl real0 us0 l0 Hpl HB Hne HN Hno Hm Hs Htl1 Htl2 HUr]; subst.
  - cbn [n_info n_data] in *. unfold ent_call, ent_obs in Hat. cbn [n_seg n_data] in Hat.
    assert (forall h, Forall (call_ok data lim) h -> exists st2 obs, pv_entry pv s h = Ret (st2, obs) /\ accepts data False view0 h obs) as Hacc.
    { intros h Hh'. destruct (Hat h Hh') as (s2 & obs & E & HA & _). eauto. }
    destruct (holds_len _ _ _ _ _ _ _ _ _ _ Hh) as (HB & HN).
    split; [apply (entry_len_ok pv s i data lim Hr Hacc); [lia|unfold zlen in HN; lia]|].
    assert (exists h, open_archive cg cb cl bufsize gas true subs (Any (entry_ops pv s i (zlen data) lim) hist0 (fun h => h)) = Ret (NoArchive h) /\
      exists h' sz, drain_entry pv s i fuel (proj1_sig h) = Ret (h', sz) /\ Forall (call_ok data lim) h' /\ measured i data Plain sz) as (h & Eo & h' & sz & Ed & Hh' & Hms).
    { inversion Hh as [t0 c0 x HU0 Hno| |]; subst. destruct HU0 as (ls & Hc & Hls & Htop).
      assert (plain data /\ data <> [] \/ ~ (plain data /\ data <> [])) as [(Hpl & Hne)|Hnp].
      { destruct (plain_dec data HB) as [Hp|Hp]; [|right; tauto]. destruct data; [right; tauto|left; split; [exact Hp|discriminate]]. }
      - assert (x = data) as -> by (eapply plain_unpacked; eassumption).
        destruct (open_plain cz cg cb cl bufsize gas fuel big mktime (entry_ops pv s i (zlen data) lim) (fun h => h) data (at_start pv s i data lim)) with (subs := subs) (p := @hist0 (zlen data) lim) as (h & Eo & (v & HA & Hv)); try assumption.
        { intros p m Hp Hm'. apply (peek_full pv s i data lim Hr Hacc); try assumption. lia. }
        { exists view0. split; [exact (alive0 pv s i data lim Hacc)|reflexivity]. }
        exists h. split; [exact Eo|]. destruct (drain_ok pv s i data lim Hr Hacc fuel (proj1_sig h) v (hist_ok _ _ h) HA ltac:(lia) ltac:(lia)) as (h' & sz & Ed & Hh' & Hsz).
        exists h', sz. split; [exact Ed|]. split; [exact Hh'|]. intros _ _ _ _. tauto.
      - destruct (open_none (hist (zlen data) lim) Dz Dg Db Dl _ cz cg cb cl fg fb fl DIg DIb DIl bufsize gas fuel lim big mktime subs ls data x (entry_ops pv s i (zlen data) lim) hist0 (fun h => h) false) as (h & Eo); try assumption.
        { unfold maxline. lia. }
        { exists view0. split; [apply (entry_conforms pv s i data lim Hr Hacc)|]. split; [reflexivity|discriminate]. }
        { lia. }
        exists h. split; [exact Eo|]. destruct (drain_any pv s i data lim Hr Hacc fuel (proj1_sig h) (hist_ok _ _ h) ltac:(lia) ltac:(lia)) as (h' & sz & Ed & Hh').
        exists h', sz. split; [exact Ed|]. split; [exact Hh'|]. intros _ _ H1 H2. tauto. }
    destruct (Z.ltb_spec (i_size i) 0) as [Hs|Hs].
    + exists h, h', sz. split; [exact Eo|]. split; [auto|]. split; [lia|]. split; [exact Hh'|]. constructor; assumption.
    + exists h, (proj1_sig h), real. split; [exact Eo|]. split; [lia|]. split; [auto|]. split; [apply hist_ok|exact HU].
  - cbn [n_info n_data] in *. unfold ent_call, ent_obs in Hat. cbn [n_seg n_data] in Hat.
    assert (forall h, Forall (seg_call lim tl) h -> exists st2 obs, pv_entry pv s h = Ret (st2, obs) /\ accepts_seg false data False view0 h obs) as Hacc.
    { intros h Hh'. destruct (Hat h Hh') as (s2 & obs & E & HA & _). eauto. }
    assert (lim <= INT32_MAX) as HI by (unfold INT32_MAX, BUF_LIM in *; lia).
    split; [apply (entry_len_seg pv s i data lim tl Hr Hacc Htl2 HI); [lia|unfold zlen in HN; lia]|].
    destruct (open_plain cz cg cb cl bufsize gas fuel big mktime (entry_ops pv s i (zlen data) lim) (fun h => h) data (at_start_seg pv s data lim tl (zlen data))) with (subs := subs) (p := @hist0 (zlen data) lim) as (h & Eo & (v & HA & Hv & _)); try assumption.
    { intros p m Hp Hm'. apply (peek_seg pv s i data lim tl Hr Hacc Htl1 Htl2 HI); assumption. }
    { exists view0. split; [exact (alive_seg0 pv s data lim tl Hacc)|]. cbn. lia. }
    destruct (drain_seg pv s i data lim tl Hr Hacc Htl2 HI fuel (proj1_sig h) v HA ltac:(rewrite Hv; pose proof (zlen_nonneg data); lia) ltac:(lia)) as (h' & sz & Ed & Hh' & Hsz).
    exists h, h', sz. split; [exact Eo|]. split; [auto|]. split; [lia|]. split; [exact Hh'|]. apply hu_seg; try assumption. intros _ _ _ _. tauto.
Qed.
Lemma hold_cons u us x xs : hold_u (u :: us) (x :: xs) -> e_info x = n_info u /\ hold_u us xs /\ (forall xs', hold_u us xs' -> hold_u (u :: us) (x :: xs')).
Proof. intros H. inversion H; subst; (split; [reflexivity|]; split; [assumption|]; intros; constructor; assumption). Qed.
Lemma hold_nil us : hold_u us [] -> us = [].
Proof. intros H. inversion H. reflexivity. Qed.
Lemma nil_hold xs : hold_u [] xs -> xs = [].
Proof. intros H. inversion H. reflexivity. Qed.

Lemma rrun_frame n : forall u us x xs d len St (pv : provider St) s i inp t (st : list rfr) rec,
  (cnt_l (x :: xs) <= n)%nat -> 0 <= d -> zget st d = Some (mkRF lim len (Found pv s i inp) (Some t)) -> at_u pv lim (u :: us) s i -> runs pv -> hold_u (u :: us) (x :: xs) ->
  d + Z.of_nat (lev_l (x :: xs)) + 2 <= zlen st -> (lev_l (x :: xs) < rec)%nat ->
  exists st' l' h, (forall m, rall (cnt_l (x :: xs) + m) rec st d = rall m rec st' d) /\ zget st' d = Some (mkRF lim len (NoArchive h) (Some (added t l'))) /\
    hold_u (u :: us) l' /\ same_l (x :: xs) l' /\ zlen st' = zlen st /\ (forall j, j < d -> zget st' j = zget st j) /\ exists r, rnext rec st d = Ret r.
Proof.
  induction n as [|n IH]; intros u us x xs d len St pv s i inp t st rec Hn Hd G Hat Hr HU HLv HF.
  { cbn [cnt_l fold_right] in Hn. destruct x. cbn [count_e] in Hn. lia. }
  cbn [cnt_l lev_l fold_right] in *. change (fold_right (fun x m => Nat.max (levels_e x) m) O xs) with (lev_l xs) in *. change (fold_right (fun x m => (count_e x + m)%nat) O xs) with (cnt_l xs) in *.
  destruct (hold_cons u us x xs HU) as (Hix & HUr & _).
  assert (e_info x = i) as Hxi by (rewrite Hix; symmetry; apply Hat).
  (* after [x] has been added *)
  assert (forall x' st1 k p', same_l [x] [x'] -> hold_u (u :: us) (x' :: xs) -> (k + cnt_l xs <= S n)%nat -> (1 <= k)%nat -> (forall m, rall (k + m) rec st d = rall m rec st1 d) ->
     zget st1 d = Some (mkRF lim len p' (Some (addEntry t (build (listed x'))))) ->
     match us with [] => exists hh, p' = NoArchive hh | w2 :: _ => exists s2, p' = Found pv s2 (n_info w2) inp /\ at_u pv lim us s2 (n_info w2) end ->
     zlen st1 = zlen st -> (forall j, j < d -> zget st1 j = zget st j) -> (exists r, rnext rec st d = Ret r) ->
     exists st' l' h, (forall m, rall (k + cnt_l xs + m) rec st d = rall m rec st' d) /\ zget st' d = Some (mkRF lim len (NoArchive h) (Some (added t l'))) /\
       hold_u (u :: us) l' /\ same_l (x :: xs) l' /\ zlen st' = zlen st /\ (forall j, j < d -> zget st' j = zget st j) /\ exists r, rnext rec st d = Ret r) as REST.
  { intros x' st1 k p' Hsame HU' Hk Hk1 E1 G1 Hp' L1 A1 Hret. destruct (hold_cons u us x' xs HU') as (_ & _ & Hcons).
    assert (forall l2, same_l xs l2 -> same_l (x :: xs) (x' :: l2)) as Hsl by (intros l2 H2; inversion Hsame; subst; constructor; assumption).
    destruct xs as [|y ys].
    - apply hold_nil in HUr. subst us. destruct Hp' as (hh & ->). exists st1, [x'], hh. split; [intros m; cbn [cnt_l fold_right]; replace (k + 0 + m)%nat with (k + m)%nat by lia; apply E1|].
      split; [exact G1|]. split; [exact HU'|]. split; [apply Hsl; constructor|]. auto.
    - destruct us as [|w us]; [apply nil_hold in HUr; discriminate|]. destruct Hp' as (s2 & -> & Hat2). cbn [lev_l cnt_l fold_right] in *.
      destruct (IH w us y ys d len St pv s2 (n_info w) inp (addEntry t (build (listed x'))) st1 rec) as (st2 & l2 & h2 & E2 & G2 & U2 & S2 & L2 & A2 & _); try assumption.
      + cbn [cnt_l fold_right]. lia.
      + rewrite L1. cbn [lev_l fold_right]. lia.
      + cbn [lev_l fold_right]. lia.
      + exists st2, (x' :: l2), h2. split; [intros q; rewrite <- E2, <- E1; f_equal; cbn [cnt_l fold_right]; lia|]. split; [exact G2|].
        split; [apply Hcons; exact U2|]. split; [apply Hsl; exact S2|]. split; [lia|]. split; [intros j Hj; rewrite A2 by exact Hj; apply A1; exact Hj|exact Hret]. }
  pose proof (zget_some_inv st d _ G) as B.
  destruct (zget_some st (d + 1)) as (f1 & G1); [lia|].
  destruct rec as [|rec]; [lia|].
  destruct x as [i0 r0 sx]. cbn [e_info] in Hxi. subst i0. destruct sx as [|e1 es1].
  - (* plain *)
    cbn [count_e count]. destruct (open_entry_plain St pv s i u us r0 xs Hr Hat HU) as (Elen & h & h' & sz & Eo & Hd1 & Hd2 & Hh' & HU').
    set (st0 := rput lim st (d + 1) (mkRF lim (zlen (n_data u)) (NoArchive h) (Some (T i [])))).
    assert (zlen st0 = zlen st) as L0 by (apply rlen_put; lia).
    assert (zget st0 d = Some (mkRF lim len (Found pv s i inp) (Some t))) as G0. { unfold st0. rewrite rget_put by lia. destruct (Z.eqb_spec d (d + 1)); [lia|exact G]. }
    destruct (add_ok st0 d len St pv s i inp t u us (T i []) (proj1_sig h) h' sz G0 Hat Hd1 ltac:(apply Hd2) Hh') as (p' & Ea & Hp').
    set (st1 := rput lim st0 d _) in Ea.
    assert (rnext (S rec) st d = Ret (st1, d)) as E.
    { cbn [rnext_entry]. destruct (Z.ltb_spec (zlen st) (d + 1)); [lia|]. unfold rat at 1 2. rewrite G, G1. cbn [bind r_p r_entry]. cbv zeta. rewrite Elen, Eo. cbn [bind]. exact Ea. }
    apply (REST (Entry i sz Plain) st1 1%nat p').
    + constructor; [constructor| |constructor]. destruct (Z.ltb_spec (i_size i) 0); [left; lia|right]. symmetry. apply Hd2. lia.
    + exact HU'.
    + destruct xs; cbn [cnt_l fold_right] in *; cbn [count_e count] in Hn; lia.
    + lia.
    + intros m. cbn [Nat.add rlist_all]. destruct (Z.ltb_spec d 0); [lia|]. rewrite E. reflexivity.
    + unfold st1. rewrite rget_put by lia. rewrite Z.eqb_refl. rewrite build_listed. cbn [t_info t_ch]. destruct (i_size i <? 0); [reflexivity|]. destruct i; reflexivity.
    + exact Hp'.
    + unfold st1. rewrite rlen_put by lia. exact L0.
    + intros j Hj. unfold st1, st0. rewrite !rget_put by (try rewrite rlen_put by lia; lia). destruct (Z.eqb_spec j d); [lia|]. destruct (Z.eqb_spec j (d + 1)); [lia|]. reflexivity.
    + eauto.
  - (* an archive *)
    cbn [count_e levels_e] in *. rewrite count_arch, levels_arch in *.
    inversion HU as [|i0 data real0 s0 us0 l0 Hh Hm HUr'|]; subst. cbn [n_info n_data] in *.
    assert (forall h, Forall (call_ok data lim) h -> exists st2 obs, pv_entry pv s h = Ret (st2, obs) /\ accepts data False view0 h obs) as Hacc.
    { intros h Hh'. destruct (proj2 Hat h Hh') as (s2 & obs & E & HA & _). eauto. }
    destruct (holds_len _ _ _ _ _ _ _ _ _ _ Hh) as (HB & HN). unfold maxline in HL.
    assert (entry_len pv s i fuel = zlen data) as Elen by (apply (entry_len_ok pv s i data lim Hr Hacc); [lia|unfold zlen in HN; lia]).
    destruct (open_arch (hist (zlen data) lim) _ (entry_ops pv s i (zlen data) lim) hist0 (fun h => h) false false data e1 es1 Hh) as (St' & pv' & s' & i' & inp' & us' & Eo & Hat' & Hr' & HU' & Hback).
    { exists view0. split; [apply (entry_conforms pv s i data lim Hr Hacc)|]. split; [reflexivity|discriminate]. } { right; reflexivity. }
    destruct us' as [|u' us']; [destruct Hat'|].
    set (st0 := rput lim st (d + 1) (mkRF lim (zlen data) (Found pv' s' i' inp') (Some (T (or_dir i) [])))).
    assert (zlen st0 = zlen st) as L0 by (apply rlen_put; lia).
    assert (zget st0 (d + 1) = Some (mkRF lim (zlen data) (Found pv' s' i' inp') (Some (T (or_dir i) [])))) as G0 by (unfold st0; rewrite rget_put by lia; rewrite Z.eqb_refl; reflexivity).
    assert (exists r, rnext rec st0 (d + 1) = Ret r) as (r1 & Er1).
    { destruct (IH u' us' e1 es1 (d + 1) (zlen data) St' pv' s' i' inp' (T (or_dir i) []) st0 rec) as (_ & _ & _ & _ & _ & _ & _ & _ & _ & H); try assumption.
      - unfold cnt_l in *; cbn [fold_right] in *; lia.
      - lia.
      - rewrite L0. unfold lev_l in *; cbn [fold_right] in *; lia.
      - unfold lev_l in *; cbn [fold_right] in *; lia. }
    assert (rnext (S rec) st d = Ret r1) as E.
    { cbn [rnext_entry]. destruct (Z.ltb_spec (zlen st) (d + 1)); [lia|]. unfold rat at 1 2. rewrite G, G1. cbn [bind r_p r_entry]. cbv zeta. rewrite Elen, Eo. cbn [bind]. exact Er1. }
    destruct (IH u' us' e1 es1 (d + 1) (zlen data) St' pv' s' i' inp' (T (or_dir i) []) st0 (S rec)) as (st2 & l2 & h2 & E2 & G2 & U2 & S2 & L2 & A2 & _); try assumption.
    { unfold cnt_l in *; cbn [fold_right] in *; lia. } { lia. } { rewrite L0. unfold lev_l in *; cbn [fold_right] in *; lia. } { unfold lev_l in *; cbn [fold_right] in *; lia. }
    destruct l2 as [|e2 es2]; [inversion S2|].
    assert (zget st2 d = Some (mkRF lim len (Found pv s i inp) (Some t))) as GD.
    { rewrite A2 by lia. unfold st0. rewrite rget_put by lia. destruct (Z.eqb_spec d (d + 1)); [lia|exact G]. }
    destruct (drain_any pv s i data lim Hr Hacc fuel (proj1_sig h2) (hist_ok _ _ h2) ltac:(lia) ltac:(lia)) as (h' & sz & Ed & Hh').
    set (ce := added (T (or_dir i) []) (e2 :: es2)) in *.
    set (h3 := if i_size i <? 0 then h' else proj1_sig h2). set (sz3 := if i_size i <? 0 then sz else r0).
    assert (i_size (t_info ce) = i_size i) as Hce by (unfold ce; rewrite added_info; reflexivity).
    destruct (add_ok st2 d len St pv s i inp t (mkEnt i data None) us ce (proj1_sig h2) h3 sz3 GD Hat) as (p' & Ea & Hp').
    { rewrite Hce. intros Hs. unfold h3, sz3. destruct (Z.ltb_spec (i_size i) 0); [exact Ed|lia]. }
    { rewrite Hce. intros Hs. unfold h3. destruct (Z.ltb_spec (i_size i) 0); [lia|reflexivity]. }
    { unfold h3, ent_call. cbn [n_seg n_data]. destruct (i_size i <? 0); [exact Hh'|apply hist_ok]. }
    set (st1 := rput lim st2 d _) in Ea.
    assert (rnext (S rec) st2 (d + 1) = Ret (st1, d)) as E3.
    { cbn [rnext_entry]. destruct (Z.ltb_spec (zlen st2) (d + 1 + 1)); [lia|]. unfold rat at 1. rewrite G2. cbn [bind].
      destruct (zget_some st2 (d + 1 + 1)) as (f2 & GF); [lia|]. unfold rat at 1. rewrite GF. cbn [bind r_p r_entry].
      destruct (Z.eqb_spec (d + 1) 0); [lia|]. cbn [negb]. replace (d + 1 - 1) with d by lia. exact Ea. }
    replace (S (cnt_l (e1 :: es1)) + cnt_l xs)%nat with ((cnt_l (e1 :: es1) + 1) + cnt_l xs)%nat by lia.
    apply (REST (Entry i sz3 (Arch e2 es2)) st1 (cnt_l (e1 :: es1) + 1)%nat p').
    + constructor; [constructor; exact S2| |constructor]. unfold sz3. destruct (Z.ltb_spec (i_size i) 0); [left; lia|right; reflexivity].
    + constructor; [apply Hback; exact U2|intros _ X; discriminate X|exact HUr].
    + unfold cnt_l in *; cbn [fold_right] in *; lia.
    + lia.
    + intros m. replace (cnt_l (e1 :: es1) + 1 + m)%nat with (cnt_l (e1 :: es1) + (1 + m))%nat by lia.
      transitivity (rall (cnt_l (e1 :: es1) + (1 + m)) (S rec) st0 (d + 1)).
      { replace (cnt_l (e1 :: es1) + (1 + m))%nat with (S (cnt_l (e1 :: es1) + m))%nat by lia. cbn [rlist_all].
        destruct (Z.ltb_spec d 0); [lia|]. destruct (Z.ltb_spec (d + 1) 0); [lia|]. rewrite E, (rnext_mono rec st0 (d + 1) r1 Er1). reflexivity. }
      rewrite E2. cbn [Nat.add rlist_all]. destruct (Z.ltb_spec (d + 1) 0); [lia|]. rewrite E3. reflexivity.
    + unfold st1. rewrite rget_put by lia. rewrite Z.eqb_refl. rewrite build_arch. cbv zeta. fold ce. reflexivity.
    + exact Hp'.
    + unfold st1. rewrite rlen_put by lia. lia.
    + intros j Hj. unfold st1. rewrite rget_put by lia. destruct (Z.eqb_spec j d); [lia|]. rewrite A2 by lia. unfold st0. rewrite rget_put by lia.
      destruct (Z.eqb_spec j (d + 1)); [lia|]. reflexivity.
    + eauto.
Qed.
End Traverse.
