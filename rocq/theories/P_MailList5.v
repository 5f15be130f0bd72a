From Verif Require Import Base StreamSpec P_Stream KmpSpec SegSpec M_Ar M_Mail M_Reader M_Sub M_Kmp M_Buffered M_Base64 B64Spec M_StringTerm ArchiveSpec M_MailList MailPartsSpec P_MailList1 P_MailList2 P_MailList3 P_MailList4.

Lemma slice_prefix {A} (l : list A) o n e : 0 <= o -> o + n <= zlen l -> e <= n -> slice (slice l o n) 0 e = slice l o e.
Proof.
  intros Ho Hn He. destruct (Z.le_gt_cases 0 e) as [Hp|Hp].
  - rewrite slice_slice by lia. rewrite Z.add_0_r. reflexivity.
  - unfold slice. replace (Z.to_nat e) with 0%nat by lia. reflexivity.
Qed.
Lemma hl_char_le st lp c e : hl_char st lp c = inl e -> e <= lp.
Proof.
  unfold hl_char. repeat match goal with |- context [if ?b then _ else _] => destruct b end; intros H; try discriminate; injection H as <-; lia.
Qed.
Lemma scan_le l : forall lp st e k, hl_scan l lp st = inl (e, k) -> e <= k.
Proof.
  induction l as [|c l IH]; intros lp st e k H; cbn [hl_scan] in H; [discriminate|].
  destruct (hl_char st lp c) as [e1|s1] eqn:E; [injection H as <- <-; eapply hl_char_le; eassumption|]. eapply IH; eassumption.
Qed.

Section RHL.
Context {P : Type}.
Variables (par : ops P Z) (full : list Z) (lim : Z) (R : P -> view -> Prop).
Hypothesis HS : sim par full False lim R.
Variables (maxl : Z) (fuel : nat).
Hypothesis Hm : 1 <= maxl.
Hypothesis Hmi : maxl <= INT32_MAX.
Hypothesis Hlim : maxl <= lim.

Definition from (next : Z) : list Z := skipn (Z.to_nat next) full.
(** the input can be reset to [next] *)
Definition at_ (p : P) (next : Z) : Prop := exists v, R p v /\ v_lo v <= next <= v_hi v.
Lemma reset_to p next : at_ p next -> exists p' v', o_reset par p next = Ret (p', next) /\ R p' v' /\ v_pos v' = next /\ v_lo v' <= next <= v_hi v' /\ o_status par p' <> Error.
Proof.
  intros (v & HR & Hv). pose proof (sim_view _ _ _ _ _ HS _ _ HR) as Hok. unfold view_ok in Hok.
  destruct (sim_reset _ _ _ _ _ p v next HS HR) as (p' & r & E & [[G HR']|(_ & [])]); [lia|].
  destruct G as (G1 & G2 & G3 & G4 & G5 & G6). cbn [next_view observe ob_ret ob_st ob_pos v_lo v_hi v_pos] in *.
  assert ((v_lo v <=? next) && (next <=? v_hi v) = true) as Ew by (rewrite andb_true_iff, !Z.leb_le; lia). rewrite Ew in *. cbn [v_pos] in *.
  exists p'. eexists. rewrite E, G5. split; [reflexivity|]. split; [exact HR'|]. cbn [v_pos v_lo v_hi]. split; [reflexivity|]. split; [lia|exact G1].
Qed.
Lemma from_split next a b : 0 <= next -> 0 <= a -> next + a + b <= zlen full -> 0 <= b ->
  skipn (Z.to_nat a) (from next) = slice full (next + a) b ++ from (next + a + b).
Proof.
  intros H1 H2 H3 H4. unfold from, slice. rewrite skipn_skipn'. replace (Z.to_nat a + Z.to_nat next)%nat with (Z.to_nat (next + a)) by lia.
  rewrite <- (firstn_skipn (Z.to_nat b) (skipn (Z.to_nat (next + a)) full)) at 1. f_equal. rewrite skipn_skipn'. f_equal. lia.
Qed.
Lemma skip_data next a n : 0 <= next -> 0 <= a <= n -> next + n <= zlen full -> skipn (Z.to_nat a) (slice full next n) = slice full (next + a) (n - a).
Proof.
  intros H1 H2 H3. unfold slice. rewrite skipn_firstn_comm, skipn_skipn'. f_equal; [lia|]. f_equal. lia.
Qed.
Lemma hl_loop_line e k next : 0 <= next -> k < maxl -> forall f p v lp st,
  R p v -> v_pos v = next -> v_lo v <= next -> 0 <= lp -> next + lp <= zlen full ->
  hl_scan (skipn (Z.to_nat lp) (from next)) lp st = inl (e, k) -> zlen full - next - lp < Z.of_nat f ->
  exists p' v', hl_loop par maxl f p next lp st = Ret (p', HLine (slice full next e) (next + k)) /\ R p' v' /\ v_pos v' = next /\ v_lo v' <= next /\ next + k <= v_hi v'.
Proof.
  intros Hn Hk. induction f as [|f IH]; intros p v lp st HR Hp Hlo Hlp0 Hlp Hs Hf; [lia|]. cbn [hl_loop].
  pose proof (sim_view _ _ _ _ _ HS _ _ HR) as Hok. unfold view_ok in Hok.
  assert (lp <= k < lp + zlen (skipn (Z.to_nat lp) (from next))) as Hb by (apply scan_bound in Hs; exact Hs).
  assert (zlen (skipn (Z.to_nat lp) (from next)) = zlen full - next - lp) as Lr by (unfold from, zlen in *; rewrite !skipn_length; lia).
  destruct (sim_read _ _ _ _ _ p v (lp + 1) maxl HS HR) as (p1 & n & d & E & [[G HR1]|(_ & [] & _)]); [cbn [call_ok]; lia|].
  rewrite E; cbn [bind].
  destruct G as (G1 & G2 & G3 & G4 & [(R1 & R2 & R3 & R4 & R5)|(R1 & R2 & R3 & R4)]); cbn [observe ob_ret ob_data ob_st ob_pos ob_size next_view] in *; [|lia].
  destruct (Z.ltb_spec n (lp + 1)) as [?|_]; [lia|]. destruct (Z.ltb_spec 0 n) as [_|?]; [|lia]. specialize (R4 ltac:(lia)).
  destruct (reset_to p1 next) as (p2 & v2 & E2 & HR2 & P2 & L2 & S2).
  { eexists; split; [exact HR1|]. cbn [v_lo v_hi]. lia. }
  assert (exists p2 v2, o_reset par p1 next = Ret (p2, next) /\ R p2 v2 /\ v_pos v2 = next /\ v_lo v2 <= next /\ next + n <= v_hi v2 /\ o_status par p2 <> Error) as (p3 & v3 & E3 & HR3 & P3 & L3 & H3 & S3).
  { destruct (sim_reset _ _ _ _ _ p1 _ next HS HR1) as (p' & r & E' & [[G HR']|(_ & [])]); [lia|].
    destruct G as (g1 & g2 & g3 & g4 & g5 & g6). cbn [next_view observe ob_ret ob_st ob_pos v_lo v_hi v_pos] in *.
    assert ((v_pos v <=? next) && (next <=? v_pos v + n) = true) as Ew by (rewrite andb_true_iff, !Z.leb_le; lia). rewrite Ew in *. cbn [v_pos] in *.
    exists p'. eexists. rewrite E', g5. split; [reflexivity|]. split; [exact HR'|]. cbn [v_pos v_lo v_hi]. split; [reflexivity|]. split; [lia|]. split; [lia|exact g1]. }
  clear p2 v2 E2 HR2 P2 L2 S2. rewrite E3; cbn [bind]. rewrite (is_error_false _ S3). destruct (Z.leb_spec maxl lp) as [?|_]; [lia|]. cbn [orb].
  assert (zlen d = n) as Zd by (rewrite R2; apply zlen_slice; lia).
  destruct (Z.ltb_spec (zlen d) n) as [?|_]; [lia|].
  assert (slice d 0 n = slice full next n) as Hd by (rewrite <- Zd at 1; rewrite slice_all, R2, Hp; reflexivity).
  rewrite Hd, skip_data by lia.
  rewrite (from_split next lp (n - lp)) in Hs by lia. rewrite hl_scan_app in Hs.
  destruct (hl_scan (slice full (next + lp) (n - lp)) lp st) as [(e1 & k1)|st'] eqn:Es.
  - injection Hs as E1 E4. subst e1 k1. apply scan_bound in Es as Hb'. rewrite zlen_slice in Hb' by lia. apply scan_le in Es.
    assert (slice d 0 e = slice full next e) as -> by (rewrite R2, slice_prefix by lia; rewrite Hp; reflexivity).
    exists p3, v3. split; [reflexivity|]. split; [exact HR3|]. split; [exact P3|]. split; [exact L3|lia].
  - rewrite zlen_slice in Hs by lia. replace (lp + (n - lp)) with n in Hs by lia.
    replace (next + lp + (n - lp)) with (next + n) in Hs by lia.
    apply (IH p3 v3 n st' HR3 P3 L3); [lia|lia| |lia]. rewrite (from_split next n 0) by lia.
    replace (slice full (next + n) 0) with (@nil Z) by reflexivity. cbn [app]. rewrite Z.add_0_r. exact Hs.
Qed.
Lemma readHeaderLine_line e k next p : 0 <= next -> k < maxl -> at_ p next -> hl_scan (from next) 0 0 = inl (e, k) -> zlen full < Z.of_nat fuel ->
  exists p' v', readHeaderLine par maxl fuel p next = Ret (p', HLine (slice full next e) (next + k)) /\ R p' v' /\ v_pos v' = next /\ v_lo v' <= next /\ next + k <= v_hi v'.
Proof.
  intros H1 H2 Ha Hs Hf. unfold readHeaderLine. destruct (reset_to p next Ha) as (p1 & v1 & E1 & HR1 & P1 & L1 & S1). rewrite E1; cbn [bind].
  pose proof (sim_view _ _ _ _ _ HS _ _ HR1) as Hok. unfold view_ok in Hok.
  apply (hl_loop_line e k next H1 H2 fuel p1 v1 0 0 HR1 P1); [lia|lia|lia|exact Hs|lia].
Qed.
(** the last line *)
Lemma hl_loop_eof next : 0 <= next -> zlen full - next < maxl -> forall f p v lp st,
  R p v -> v_pos v = next -> v_lo v <= next -> 0 <= lp -> next + lp <= zlen full ->
  (exists s, hl_scan (skipn (Z.to_nat lp) (from next)) lp st = inr s) -> zlen full - next - lp + 1 < Z.of_nat f ->
  exists p', hl_loop par maxl f p next lp st = Ret (p', HEof (from next)).
Proof.
  intros Hn Hk. induction f as [|f IH]; intros p v lp st HR Hp Hlo Hlp0 Hlp (s & Hs) Hf; [lia|]. cbn [hl_loop].
  pose proof (sim_view _ _ _ _ _ HS _ _ HR) as Hok. unfold view_ok in Hok.
  assert (slice full next (zlen full - next) = from next) as Lf.
  { unfold slice, from. apply firstn_all2. rewrite skipn_length. unfold zlen. lia. }
  destruct (sim_read _ _ _ _ _ p v (lp + 1) maxl HS HR) as (p1 & n & d & E & [[G HR1]|(_ & [] & _)]); [cbn [call_ok]; lia|].
  rewrite E; cbn [bind].
  destruct G as (G1 & G2 & G3 & G4 & [(R1 & R2 & R3 & R4 & R5)|(R1 & R2 & R3 & R4)]); cbn [observe ob_ret ob_data ob_st ob_pos ob_size next_view] in *.
  2:{ subst n d. destruct (Z.ltb_spec (-1) (lp + 1)) as [_|?]; [|lia]. exists p1. rewrite <- Lf. replace (zlen full - next) with 0 by lia. reflexivity. }
  specialize (R4 ltac:(lia)).
  assert (zlen d = n) as Zd by (rewrite R2; apply zlen_slice; lia).
  assert (slice d 0 n = slice full next n) as Hd by (rewrite <- Zd at 1; rewrite slice_all, R2, Hp; reflexivity).
  destruct (Z.ltb_spec n (lp + 1)) as [Hs1|Hs1].
  { exists p1. rewrite Hd. replace n with (zlen full - next) by lia. rewrite Lf. reflexivity. }
  destruct (Z.ltb_spec 0 n) as [_|?]; [|lia].
  destruct (sim_reset _ _ _ _ _ p1 _ next HS HR1) as (p3 & r & E3 & [[G HR3]|(_ & [])]); [lia|].
  destruct G as (g1 & g2 & g3 & g4 & g5 & g6). cbn [next_view observe ob_ret ob_st ob_pos v_lo v_hi v_pos] in *.
  assert ((v_pos v <=? next) && (next <=? v_pos v + n) = true) as Ew by (rewrite andb_true_iff, !Z.leb_le; lia). rewrite Ew in *. cbn [v_pos] in *.
  rewrite E3; cbn [bind]. rewrite (is_error_false _ g1). destruct (Z.leb_spec maxl lp) as [?|_]; [lia|]. cbn [orb].
  destruct (Z.ltb_spec (zlen d) n) as [?|_]; [lia|]. rewrite Hd, skip_data by lia.
  rewrite (from_split next lp (n - lp)) in Hs by lia. rewrite hl_scan_app in Hs.
  destruct (hl_scan (slice full (next + lp) (n - lp)) lp st) as [(e1 & k1)|st'] eqn:Es; [discriminate|].
  rewrite zlen_slice in Hs by lia. replace (lp + (n - lp)) with n in Hs by lia.
  replace (next + lp + (n - lp)) with (next + n) in Hs by lia.
  apply (IH p3 _ n st' HR3); [reflexivity|cbn [v_lo]; lia|lia|lia| |lia]. exists s. rewrite (from_split next n 0) by lia.
  replace (slice full (next + n) 0) with (@nil Z) by reflexivity. cbn [app]. rewrite Z.add_0_r. exact Hs.
Qed.
Lemma readHeaderLine_eof next p : 0 <= next -> zlen full - next < maxl -> at_ p next -> (exists s, hl_scan (from next) 0 0 = inr s) -> zlen full + 1 < Z.of_nat fuel ->
  exists p', readHeaderLine par maxl fuel p next = Ret (p', HEof (from next)).
Proof.
  intros H1 H2 Ha Hs Hf. unfold readHeaderLine. destruct (reset_to p next Ha) as (p1 & v1 & E1 & HR1 & P1 & L1 & S1). rewrite E1; cbn [bind].
  pose proof (sim_view _ _ _ _ _ HS _ _ HR1) as Hok. unfold view_ok in Hok.
  apply (hl_loop_eof next H1 H2 fuel p1 v1 0 0 HR1 P1); [lia|lia|lia|exact Hs|lia].
Qed.
End RHL.
