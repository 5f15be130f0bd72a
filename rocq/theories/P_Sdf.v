From Verif Require Import Base StreamSpec P_Stream M_StringStream P_StringStream M_Sub P_Sub P_Sub2 ArchiveSpec P_Archive P_Entry
  M_Kmp KmpSpec P_Kmp T_Kmp M_Ar M_Sdf SdfSpec.

(** decimal numbers *)
Lemma print_decimal f : forall n, (1 <= f)%nat -> 0 <= n < 10 ^ Z.of_nat f -> decimal n (print f n).
Proof.
  induction f as [|f IH]; intros n Hf Hn; [lia|]. cbn [print]. destruct (Z.ltb_spec n 10); [apply dec_digit; lia|].
  assert (n = n / 10 * 10 + n mod 10) as E by (rewrite Z.mul_comm; apply Z.div_mod; lia).
  pose proof (Z.mod_pos_bound n 10 ltac:(lia)).
  rewrite E at 1. apply dec_more; [|nia|lia].
  rewrite Nat2Z.inj_succ, Z.pow_succ_r in Hn by lia.
  destruct f as [|f']; [exfalso; change (10 ^ Z.of_nat 0) with 1 in Hn; lia|]. apply IH; [lia|].
  split; [apply Z.div_pos; lia|]. apply Z.div_lt_upper_bound; lia.
Qed.
Lemma decimal_nonneg n l : decimal n l -> 0 <= n.
Proof. induction 1; lia. Qed.
Lemma decimal_unique n l : decimal n l -> forall l', decimal n l' -> l = l'.
Proof.
  induction 1 as [d Hd|n l d H IH Hn Hd]; intros l' H'; inversion H' as [d' Hd' E1 E2|n' l1 d' H1 Hn' Hd' E1 E2]; subst.
  - reflexivity.
  - lia.
  - lia.
  - assert (n' = n /\ d' = d) as (-> & ->) by lia. rewrite (IH _ H1). reflexivity.
Qed.
Lemma entry_name_print k name : 0 <= k < 100000000000 -> entry_name k name -> molecule ++ print 11 k = name.
Proof.
  intros Hk (l & Hl & ->). unfold molecule. f_equal. eapply decimal_unique; [|exact Hl]. apply print_decimal; [lia|]. exact Hk.
Qed.

(** the delimiter *)
Lemma delim_bytes : KmpSpec.bytes delim. Proof. repeat (apply Forall_cons; [lia|]). apply Forall_nil. Qed.
Lemma occurs_bytes bytes d : occurs_at delim bytes d -> exists r, bytes = slice bytes 0 d ++ delim ++ r /\ zlen (slice bytes 0 d) = d.
Proof.
  intros (H1 & H2 & H3). change (zlen delim) with 4 in *. exists (slice bytes (d + 4) (zlen bytes - (d + 4))).
  split; [|apply zlen_slice; lia].
  rewrite <- (slice_all bytes) at 1.
  replace (zlen bytes) with (d + (4 + (zlen bytes - (d + 4)))) at 1 by lia.
  rewrite <- slice_app by lia. rewrite <- (slice_app _ _ 4) by lia. rewrite Z.add_0_l, H3. reflexivity.
Qed.
Lemma occurs_app a r : occurs_at delim (a ++ delim ++ r) (zlen a).
Proof.
  pose proof (zlen_nonneg a). pose proof (zlen_nonneg r). unfold occurs_at. rewrite !zlen_app. change (zlen delim) with 4.
  split; [lia|]. split; [lia|]. rewrite slice_app_r by lia. rewrite Z.sub_diag. rewrite slice_app_l by (change (zlen delim) with 4; lia). reflexivity.
Qed.
Lemma sdf_kmp : exists k, setQuery kmp_null delimiter = Ret k /\ forall hay, KmpSpec.bytes hay -> exists r, search k hay = Ret r /\
  match r with
  | Some j => occurs_at delim hay j /\ forall d, d < j -> ~ occurs_at delim hay d
  | None => forall d, ~ occurs_at delim hay d
  end.
Proof.
  assert (delim <> []) as Hne by (intros H; inversion H).
  assert (zlen delim <= 2 ^ 29 - 258) as Hl by (change (zlen delim) with 4; lia).
  destruct (setQuery_ok kmp_null delim (or_introl eq_refl) Hne delim_bytes Hl) as (k & E & _).
  exists k. split; [exact E|]. intros hay HB.
  destruct (C11_search_partial kmp_null delim hay prep_new Hne delim_bytes Hl HB) as (k' & r & E' & Er & H1 & H2).
  assert (k' = k) as -> by congruence. exists r. split; [exact Er|].
  destruct H2 as (H2 & H3); [left; change (zlen delim) with 4; lia|]. destruct r as [j|]; [split; [apply H1; reflexivity|apply H2; reflexivity]|apply H3; reflexivity].
Qed.

Section P.
Variable content : list Z.
Hypothesis Hlen : zlen content <= INT32_MAX.
Hypothesis HB : KmpSpec.bytes content.
Let L := zlen content.
Notation atq q := (mkSS content L q (if q <? L then Ok else Eof)).
Notation rest q := (slice content q (L - q)).

Lemma rest_bytes q n : KmpSpec.bytes (slice content q n).
Proof.
  unfold KmpSpec.bytes. pose proof HB as H. unfold KmpSpec.bytes in H. rewrite Forall_forall in *. intros x Hx. apply H. unfold slice in Hx. apply In_nth_error in Hx. destruct Hx as (i & Hi).
  rewrite nth_error_firstn' in Hi. destruct (_ <? _)%nat in Hi; [|discriminate]. rewrite nth_error_skipn' in Hi. eapply nth_error_In; exact Hi.
Qed.
Lemma at_read q mn mx : 0 <= q < L -> ss_read (atq q) mn mx =
  (let n := if (L - q <? mx) || (mx <? 1) then L - q else mx in Ret (atq (q + n), n, slice content q n)).
Proof.
  intros Hq. unfold ss_read. cbn [ss_size ss_pos ss_data ss_st]. destruct (Z.eqb_spec (L - q) 0) as [|Hne]; [lia|].
  rewrite wrap32_id by (unfold INT32_MIN, L in *; lia).
  cbv zeta. match goal with |- context [if ?c then L - q else mx] => set (n := if c then L - q else mx) end.
  assert (0 < n <= L - q) as Hn.
  { unfold n. destruct (Z.ltb_spec (L - q) mx), (Z.ltb_spec mx 1); cbn [orb]; lia. }
  clearbody n. destruct (Z.leb_spec 0 q), (Z.leb_spec 0 n), (Z.leb_spec (q + n) (zlen content)); unfold L in *; try lia. cbn [andb].
  destruct (Z.eqb_spec (q + n) (zlen content)), (Z.ltb_spec (q + n) (zlen content)), (Z.ltb_spec q (zlen content)); try lia; reflexivity.
Qed.
Lemma at_read_ok q mn mx : 0 <= q < L -> ss_read (mkSS content L q Ok) mn mx =
  (let n := if (L - q <? mx) || (mx <? 1) then L - q else mx in Ret (atq (q + n), n, slice content q n)).
Proof. intros Hq. rewrite <- (at_read q mn mx Hq). destruct (Z.ltb_spec q L); [reflexivity|lia]. Qed.
Lemma at_eof mn mx : ss_read (atq L) mn mx = Ret (atq L, -1, []).
Proof. unfold ss_read. cbn [ss_size ss_pos ss_data ss_st]. rewrite Z.sub_diag. cbn. rewrite Z.ltb_irrefl. reflexivity. Qed.
Lemma at_reset s v q : ss_R content s v -> 0 <= q <= L -> ss_reset s q = Ret (atq q, q).
Proof.
  intros (Hd & Hs & _) Hq. unfold ss_reset. rewrite Hd, Hs. fold L. destruct (Z.ltb_spec q 0); [lia|].
  destruct (Z.ltb_spec q L); cbn [ss_pos]; [reflexivity|]. assert (q = L) as -> by lia. rewrite ?Z.ltb_irrefl. reflexivity.
Qed.
Lemma at_R q : 0 <= q <= L -> ss_R content (atq q) (mkView q q q).
Proof.
  intros Hq. unfold ss_R, view_ok. cbn. fold L. destruct (Z.ltb_spec q L).
  all: do 4 (split; [reflexivity || lia|]); split; [congruence|]. all: intros; try discriminate; lia.
Qed.
Lemma at_reset' q' q : 0 <= q' <= L -> 0 <= q <= L -> ss_reset (atq q') q = Ret (atq q, q).
Proof. intros H1 H2. eapply at_reset; [apply at_R; exact H1|exact H2]. Qed.
Lemma at_reset_eof q : 0 <= q <= L -> ss_reset (mkSS content L L Eof) q = Ret (atq q, q).
Proof. intros H. pose proof (zlen_nonneg content). rewrite <- (at_reset' L q) by (unfold L in *; lia). rewrite Z.ltb_irrefl. reflexivity. Qed.
Lemma rest_cons q : 0 <= q < L -> exists c, zget content q = Some c /\ rest q = c :: rest (q + 1) /\ slice content q 1 = [c].
Proof.
  intros Hq. destruct (zget_some content q ltac:(unfold L in *; lia)) as (c & Ec). exists c. split; [exact Ec|].
  assert (slice content q 1 = [c]) as E1.
  { apply zget_ext_range; [rewrite zlen_slice by (unfold L in *; lia); reflexivity|]. intros i Hi.
    rewrite zlen_slice in Hi by (unfold L in *; lia). rewrite zget_slice by lia. assert (i = 0) as -> by lia. cbn [Z.leb Z.ltb]. change (zget [c] 0) with (Some c).
    rewrite Z.add_0_r. destruct ((0 <=? 0) && (0 <? 1)) eqn:E; [exact Ec|discriminate]. }
  split; [|exact E1]. replace (L - q) with (1 + (L - (q + 1))) by lia. rewrite <- slice_app by lia. rewrite E1. reflexivity.
Qed.

(** eating the newlines behind a delimiter *)
Lemma eat nl : forall q t fuel, 0 <= q <= L -> rest q = nl ++ t -> Forall newline nl -> (forall c u, t = c :: u -> ~ newline c) -> (length nl <= fuel)%nat ->
  (let* (p, _, b) := ss_read (atq q) 1 1 in sdf_newlines ss_ops fuel p b) = Ret (atq (q + zlen nl + zlen t - zlen (tl t))) /\
  rest (q + zlen nl + zlen t - zlen (tl t)) = tl t.
Proof.
  induction nl as [|c nl IH]; intros q t fuel Hq Hr Hn Ht Hf.
  - cbn [app] in Hr. rewrite zlen_nil, Z.add_0_r. destruct (Z.eq_dec q L) as [->|].
    + rewrite at_eof. cbn [bind]. assert (t = []) as -> by (rewrite <- Hr; apply slice_beyond; unfold L; lia).
      cbn [tl]. rewrite zlen_nil, Z.add_0_r, Z.sub_0_r. split; [|exact Hr]. destruct fuel; cbn [sdf_newlines ss_ops o_status ss_st]; rewrite Z.ltb_irrefl; reflexivity.
    + destruct (rest_cons q ltac:(lia)) as (c & Ec & E1 & E2). rewrite E1 in Hr. subst t.
      cbn [tl]. rewrite zlen_cons. replace (q + (1 + zlen (rest (q+1))) - zlen (rest (q+1))) with (q + 1) by lia. split; [|reflexivity].
      rewrite at_read by lia. cbv zeta. replace ((L - q <? 1) || (1 <? 1)) with false by (destruct (Z.ltb_spec (L - q) 1); [lia|reflexivity]).
      cbn [bind]. rewrite E2. specialize (Ht c _ eq_refl). unfold newline in Ht.
      assert ((c =? 10) || (c =? 13) = false) as Ec'. { destruct (Z.eqb_spec c 10), (Z.eqb_spec c 13); try reflexivity; tauto. }
      destruct fuel; cbn [sdf_newlines ss_ops o_status ss_st]; rewrite Ec'; destruct (q + 1 <? L); reflexivity.
  - assert (q < L) as HqL. { destruct (Z.eq_dec q L) as [->|]; [|lia]. rewrite slice_neg in Hr by lia. discriminate. }
    destruct (rest_cons q ltac:(lia)) as (c' & Ec & E1 & E2). rewrite E1 in Hr. cbn [app] in Hr. injection Hr as -> Hr.
    destruct fuel as [|fuel]; [cbn in Hf; lia|].
    destruct (IH (q + 1) t fuel ltac:(lia) Hr ltac:(inversion Hn; assumption) Ht ltac:(cbn in Hf; lia)) as (I1 & I2).
    rewrite zlen_cons. replace (q + (1 + zlen nl)) with (q + 1 + zlen nl) by lia. split; [|exact I2].
    rewrite at_read by lia. cbv zeta. replace ((L - q <? 1) || (1 <? 1)) with false by (destruct (Z.ltb_spec (L - q) 1); [lia|reflexivity]).
    cbn [bind]. rewrite E2. assert (newline c) as Hc by (inversion Hn; assumption).
    assert ((c =? 10) || (c =? 13) = true) as Ec'. { destruct Hc as [-> | ->]; reflexivity. }
    cbn [sdf_newlines ss_ops o_status ss_st o_read]. rewrite Ec'. destruct (Z.ltb_spec (q + 1) L) as [Hl|Hl]; [exact I1|].
    (* at the end: nothing is read any more *)
    assert (q + 1 = L) as Eq by lia. rewrite Eq in *. rewrite slice_neg in Hr by lia. symmetry in Hr. apply app_eq_nil in Hr as (-> & ->).
    cbn [tl]. rewrite zlen_nil. rewrite !Z.add_0_r, Z.sub_0_r, Z.ltb_irrefl. reflexivity.
Qed.

(** the search for the next delimiter *)
Variables (k : searcher).
Hypothesis Hk : forall hay, KmpSpec.bytes hay -> exists r, search k hay = Ret r /\
  match r with
  | Some j => occurs_at delim hay j /\ forall d, d < j -> ~ occurs_at delim hay d
  | None => forall d, ~ occurs_at delim hay d
  end.
Lemma search_at q fuel : 0 <= q <= L -> (1 <= fuel)%nat -> exists len, sdf_search ss_ops fuel k (atq q) 0 = Ret (atq L, len) /\
  ((occurs_at delim (rest q) len /\ forall d, d < len -> ~ occurs_at delim (rest q) d) \/ (len = 0 /\ forall d, ~ occurs_at delim (rest q) d)).
Proof.
  intros Hq Hf. destruct fuel as [|fuel]; [lia|]. destruct (Z.eq_dec q L) as [->|].
  - exists 0. cbn [sdf_search ss_ops o_status ss_st]. rewrite Z.ltb_irrefl. split; [reflexivity|]. right. split; [reflexivity|].
    rewrite slice_neg by lia. intros d (H1 & H2 & _). change (zlen delim) with 4 in H2. change (zlen (@nil Z)) with 0 in H2. lia.
  - cbn [sdf_search ss_ops o_status ss_st o_read]. destruct (Z.ltb_spec q L); [|lia].
    rewrite at_read_ok by lia. cbv zeta. replace ((L - q <? 0) || (0 <? 1)) with true by (destruct (L - q <? 0); reflexivity). cbn [bind].
    replace (q + (L - q)) with L by lia.
    destruct (Z.ltb_spec 0 (L - q)); [|lia]. destruct (Hk (rest q) (rest_bytes q (L - q))) as (r & Er & Hr). rewrite Er; cbn [bind].
    destruct r as [j|].
    + exists j. rewrite Z.add_0_r. split; [reflexivity|left; exact Hr].
    + exists 0. rewrite chk32_ok by (unfold INT32_MIN, L in *; lia). cbn [bind]. split; [|right; auto].
      destruct fuel; cbn [sdf_search ss_ops o_status ss_st]; rewrite Z.ltb_irrefl; reflexivity.
Qed.

(** leaving an entry *)
Lemma leave_at s v off n nl t fuel : sub_R content (ss_R content) off n s v -> 0 <= off -> 0 < n -> rest (off + n) = delim ++ nl ++ t -> off + n <= L ->
  Forall newline nl -> (forall c u, t = c :: u -> ~ newline c) -> (length content <= fuel)%nat ->
  exists q, (let* (p, _) := ss_reset (su_par s) (off + n) in sdf_leave ss_ops fuel (mkSub p (su_off s) (su_size s) (su_pos s) (su_st s)) (off + n)) = Ret (atq q, false) /\
    0 <= q <= L /\ off + n < q /\ rest q = tl t.
Proof.
  intros HR Ho Hn Hr Hfit Hnl Ht Hf.
  assert (L = off + n + 4 + zlen nl + zlen t) as HL.
  { assert (zlen (rest (off + n)) = L - (off + n)) as E by (apply zlen_slice; unfold L in *; lia). rewrite Hr, !zlen_app in E. change (zlen delim) with 4 in E. lia. }
  pose proof (zlen_nonneg nl). pose proof (zlen_nonneg t).
  destruct (gentry_parent content (ss_R content) off n Ho ltac:(unfold L, INT32_MAX in *; lia) ltac:(unfold L in *; lia) s v HR) as ((vp & HP & _) & Hsz & Hps & _).
  assert (su_off s = off) as Hoff by apply HR.
  rewrite (at_reset _ _ _ HP) by lia. cbn [bind]. unfold sdf_leave, sub_reset. cbn [su_par su_off su_size su_pos su_st]. cbn [Z.ltb Z.compare].
  rewrite Hoff, Hsz. cbn [ss_ops o_reset o_status]. rewrite Z.add_0_l. rewrite (at_reset' (off + n) off) by lia. cbn [bind].
  rewrite Z.ltb_irrefl, Z.sub_diag. cbn [bind]. cbn [ss_st].
  destruct fuel as [|fuel]. { unfold L, zlen in *. lia. }
  destruct (Z.ltb_spec off L); [|lia]. cbn [sdf_drain su_st].
  assert (exists s3, sub_read ss_ops (mkSub (mkSS content L off Ok) off n 0 Ok) 1 0 = Ret (mkSub s3 off n n Eof, n, slice content off n) /\ s3 = atq (off + n)) as (s3 & E3 & Es3).
  { unfold sub_read. cbn [su_size su_pos su_off su_par su_st]. destruct (Z.eqb_spec n (-1)); [lia|]. rewrite Z.sub_0_r. destruct (Z.eqb_spec n 0); [lia|].
    destruct (Z.ltb_spec n 1); [lia|]. cbn [Z.ltb Z.compare orb]. rewrite wrap32_id by (unfold INT32_MIN, L in *; lia).
    unfold sub_read_body. cbn [su_size su_pos su_off su_par su_st ss_ops o_read]. rewrite at_read_ok by lia. cbv zeta. destruct (Z.ltb_spec (L - off) n); [lia|]. destruct (Z.ltb_spec n 1); [lia|]. cbn [orb bind].
    destruct (Z.ltb_spec n 1); [lia|]. cbn [orb]. rewrite Z.leb_refl. cbn [negb]. destruct (Z.ltb_spec n (-1)); [lia|].
    rewrite Z.add_0_l, Z.eqb_refl. eexists; split; [reflexivity|reflexivity]. }
  rewrite E3. cbn [bind]. cbn [sdf_drain su_st bind is_error]. destruct fuel as [|fuel]. { unfold L, zlen in *. lia. }
  cbn [sdf_drain su_st bind is_error su_par]. subst s3. rewrite (at_reset' (off + n) (off + n)) by lia. cbn [bind ss_st o_read].
  destruct (Z.ltb_spec (off + n) L); [|lia].
  assert (ss_read (mkSS content L (off + n) Ok) 4 4 = Ret (atq (off + n + 4), 4, delim)) as E4.
  { rewrite at_read_ok by lia. cbv zeta.
    destruct (Z.ltb_spec (L - (off + n)) 4); [lia|]. change (4 <? 1) with false. cbn [orb]. cbv iota.
    assert (slice content (off + n) 4 = delim) as ->; [|reflexivity].
    transitivity (slice (rest (off + n)) 0 4); [rewrite slice_slice by lia; f_equal; lia|]. rewrite Hr. rewrite slice_app_l by (change (zlen delim) with 4; lia). reflexivity. }
  change (o_read ss_ops) with (@ss_read Z). rewrite E4. cbn [bind]. change ((4 =? 4) && list_eqb (slice delim 0 4) delimiter) with true. cbv iota.
  assert (rest (off + n + 4) = nl ++ t) as Hr4.
  { transitivity (slice (rest (off + n)) 4 (L - (off + n + 4))); [rewrite slice_slice by lia; f_equal; lia|]. rewrite Hr. rewrite slice_app_r by (change (zlen delim) with 4; lia).
    change (zlen delim) with 4. change (4 - 4) with 0. replace (L - (off + n + 4)) with (zlen (nl ++ t)) by (rewrite zlen_app; lia). apply slice_all. }
  destruct (eat nl (off + n + 4) t (S (S fuel)) ltac:(lia) Hr4 Hnl Ht) as (E5 & E6).
  { unfold L, zlen in *. lia. }
  assert (0 <= zlen t - zlen (tl t) <= 1) as Htl. { destruct t; cbn [tl]; rewrite ?zlen_cons; lia. }
  pose proof (zlen_nonneg (tl t)).
  exists (off + n + 4 + zlen nl + zlen t - zlen (tl t)). split; [|split; [lia|split; [lia|exact E6]]].
  destruct (ss_read (atq (off + n + 4)) 1 1) as [[[p5 n5] b5]| | |]; cbn [bind] in *; try discriminate. rewrite E5. cbn [bind]. reflexivity.
Qed.

(** what nextEntry() does first *)
Definition first_part (fuel : nat) (a : sdf (sstream Z)) : out (sstream Z * bool) :=
  match sd_cur a with
  | inl p => let* (p, _) := ss_reset p (sd_prev a) in Ret (p, false)
  | inr s => let* (p, _) := ss_reset (su_par s) (sd_prev a) in sdf_leave ss_ops fuel (mkSub p (su_off s) (su_size s) (su_pos s) (su_st s)) (sd_prev a)
  end.
Lemma split_nl (l : list Z) : exists nl t, l = nl ++ t /\ Forall newline nl /\ forall c u, t = c :: u -> ~ newline c.
Proof.
  induction l as [|c l (nl & t & -> & H1 & H2)].
  - exists [], []. split; [reflexivity|]. split; [constructor|]. intros c u H; discriminate.
  - destruct (Z.eq_dec c 10) as [->|N1]; [exists (10 :: nl), t; split; [reflexivity|]; split; [constructor; [left; reflexivity|exact H1]|exact H2]|].
    destruct (Z.eq_dec c 13) as [->|N2]; [exists (13 :: nl), t; split; [reflexivity|]; split; [constructor; [right; reflexivity|exact H1]|exact H2]|].
    exists [], (c :: nl ++ t). split; [reflexivity|]. split; [constructor|]. intros c' u H. injection H as <- <-. intros [X|X]; congruence.
Qed.
Lemma listing_run fuel : (length content + 1 <= fuel)%nat -> forall n bytes ms, sdf_listing n bytes ms -> forall a q, sd_st a = Ok -> sd_kmp a = k -> sd_num a = n -> 0 <= n <= q -> q <= L ->
  rest q = bytes -> first_part fuel a = Ret (atq q, false) -> lists (sdf_provider ss_ops fuel) INT32_MAX ms a.
Proof.
  intros Hfuel. induction 1 as [n bytes Hno|n rst|n bytes rec nl t name ms Hfd Hrec Hnl Ht Hname Hms IH]; intros a q Ha1 Ha2 Ha3 Hnq HqL Hq Hfp; cbn [lists_end].
  - (* no delimiter *)
    cbn [pv_next sdf_provider sdf_next]. unfold sdf_next. rewrite Ha1. change (o_reset ss_ops) with (@ss_reset Z). fold (first_part fuel a). rewrite Hfp. cbn [bind]. rewrite Ha2.
    destruct (search_at q fuel ltac:(lia) ltac:(lia)) as (len & E & [(E1 & _)|(-> & E1)]); rewrite Hq in *; [exfalso; exact (Hno _ E1)|].
    rewrite E. cbn [bind ss_ops o_status ss_st]. rewrite Z.ltb_irrefl. cbn [is_error]. cbn [ss_ops o_reset o_pos ss_pos]. rewrite at_reset_eof by lia. cbn [bind Z.ltb Z.compare].
    eexists; split; [reflexivity|]. reflexivity.
  - (* an empty record *)
    cbn [pv_next sdf_provider sdf_next]. unfold sdf_next. rewrite Ha1. change (o_reset ss_ops) with (@ss_reset Z). fold (first_part fuel a). rewrite Hfp. cbn [bind]. rewrite Ha2.
    assert (occurs_at delim (delim ++ rst) 0) as Hoc by exact (occurs_app [] rst).
    destruct (search_at q fuel ltac:(lia) ltac:(lia)) as (len & E & [(E1 & E2)|(-> & E1)]); rewrite Hq in *; [|exfalso; exact (E1 _ Hoc)].
    assert (len = 0) as ->. { destruct (Z.eq_dec len 0); [assumption|]. exfalso. destruct E1 as (E1 & _). exact (E2 0 ltac:(lia) Hoc). }
    rewrite E. cbn [bind ss_ops o_status ss_st]. rewrite Z.ltb_irrefl. cbn [is_error]. cbn [ss_ops o_reset o_pos ss_pos]. rewrite at_reset_eof by lia. cbn [bind Z.ltb Z.compare].
    eexists; split; [reflexivity|]. reflexivity.
  - (* a record *)
    destruct Hfd as (Hb & Hfirst). assert (0 < zlen rec) as Hpos. { destruct rec; [congruence|]. rewrite zlen_cons. pose proof (zlen_nonneg rec). lia. }
    assert (Hoc := occurs_app rec (nl ++ t)). rewrite <- Hb in Hoc.
    assert (zlen bytes = L - q) as Hbl by (rewrite <- Hq; apply zlen_slice; unfold L in *; lia).
    assert (zlen bytes = zlen rec + 4 + zlen nl + zlen t) as Hbl2 by (rewrite Hb, !zlen_app; change (zlen delim) with 4; lia).
    pose proof (zlen_nonneg nl). pose proof (zlen_nonneg t).
    assert (slice content q (zlen rec) = rec) as Hrecs.
    { transitivity (slice (rest q) 0 (zlen rec)); [rewrite slice_slice by lia; f_equal; lia|]. rewrite Hq, Hb, slice_app_l by lia. apply slice_all. }
    cbn [pv_next sdf_provider sdf_next]. unfold sdf_next. rewrite Ha1. change (o_reset ss_ops) with (@ss_reset Z). fold (first_part fuel a). rewrite Hfp. cbn [bind]. rewrite Ha2.
    destruct (search_at q fuel ltac:(lia) ltac:(lia)) as (len & E & [(E1 & E2)|(-> & E1)]); rewrite Hq in *; [|exfalso; exact (E1 _ Hoc)].
    assert (len = zlen rec) as ->. { destruct (Z.lt_trichotomy len (zlen rec)) as [X|[X|X]]; [exfalso; exact (Hfirst _ X E1)|exact X|exfalso; exact (E2 _ X Hoc)]. }
    rewrite E. cbn [bind ss_ops o_status ss_st]. rewrite Z.ltb_irrefl. cbn [is_error]. cbn [ss_ops o_reset o_pos ss_pos]. rewrite at_reset_eof by lia. cbn [bind].
    destruct (Z.ltb_spec 0 (zlen rec)); [|lia].
    destruct (gentry_new ss_ops content INT32_MAX (ss_R content) (ss_sim content Hlen) q (zlen rec) ltac:(unfold L in *; lia) _ _ (at_R q ltac:(lia)) eq_refl) as (s & Es & HR).
    rewrite Es. cbn [bind]. rewrite chk32_ok by (unfold INT32_MIN, L in *; lia). cbn [bind]. cbn [o_pos ss_ops ss_pos].
    rewrite (entry_name_print (sd_num a + 1) name); [|rewrite Ha3; unfold L, INT32_MAX in *; lia|rewrite Ha3; exact Hname].
    eexists; split; [reflexivity|split; [reflexivity|]].
    intros h Hh. cbn [m_data] in Hh.
    assert (Forall (call_ok (slice content q (zlen rec)) INT32_MAX) h) as Hh' by (rewrite Hrecs; exact Hh).
    destruct (gentry_run ss_ops content INT32_MAX (ss_R content) (ss_sim content Hlen) q (zlen rec) ltac:(lia) ltac:(unfold L in *; lia) ltac:(unfold L in *; lia) h s view0 HR Hh') as (s' & obs & v' & Er & Ac & HR').
    cbn [pv_entry sdf_provider sdf_entry sd_cur]. rewrite Er. cbn [bind]. do 2 eexists. split; [reflexivity|]. rewrite Hrecs in Ac. split; [exact Ac|].
    destruct (leave_at s' v' q (zlen rec) nl t fuel HR' ltac:(lia) Hpos) as (q' & Eq' & Hq'1 & Hq'2 & Hq'3); [|lia|exact Hnl|exact Ht|lia|].
    { transitivity (slice (rest q) (zlen rec) (L - (q + zlen rec))); [rewrite slice_slice by lia; f_equal; lia|]. rewrite Hq, Hb, slice_app_r by lia. rewrite Z.sub_diag.
      replace (L - (q + zlen rec)) with (zlen (delim ++ nl ++ t)) by (rewrite !zlen_app; change (zlen delim) with 4; lia). apply slice_all. }
    apply (IH _ q'); cbn [sd_st sd_kmp sd_num]; try reflexivity; try lia; try assumption.
Qed.
End P.

(** every file has exactly one listing *)
Lemma delim_dec bytes : KmpSpec.bytes bytes -> (forall d, ~ occurs_at delim bytes d) \/ exists rec rest, first_delim bytes rec rest.
Proof.
  intros HB. destruct sdf_kmp as (k & _ & Hk). destruct (Hk bytes HB) as ([j|] & _ & Hr); [right|left; exact Hr].
  destruct Hr as (Hr & Hf). destruct (occurs_bytes bytes j Hr) as (r & E & El). exists (slice bytes 0 j), r. split; [exact E|]. rewrite El. exact Hf.
Qed.
Lemma listing_exists n : forall bytes k, (length bytes <= n)%nat -> KmpSpec.bytes bytes -> 0 <= k -> k + Z.of_nat n < 100000000000 -> exists ms, sdf_listing k bytes ms.
Proof.
  induction n as [|n IH]; intros bytes k Hn HB Hk Hkn.
  - destruct bytes; [|cbn in Hn; lia]. exists []. apply sl_none. intros d (H1 & H2 & _). change (zlen delim) with 4 in H2. change (zlen (@nil Z)) with 0 in H2. lia.
  - destruct (delim_dec bytes HB) as [H|(rec & rst & Hf)]; [exists []; apply sl_none; exact H|].
    destruct rec as [|c rec]. { destruct Hf as (-> & _). exists []. apply sl_empty. }
    destruct (split_nl rst) as (nl & t & -> & Hnl & Ht).
    assert (Hb := proj1 Hf). 
    destruct (IH (tl t) (k + 1)) as (ms & Hms).
    + rewrite Hb in Hn. rewrite !app_length in Hn. cbn [length] in Hn. destruct t; cbn [tl length] in *; lia.
    + rewrite Hb in HB. unfold KmpSpec.bytes in *. rewrite !Forall_app in HB. destruct t; cbn [tl]; [constructor|]. destruct HB as (_ & _ & _ & HB). inversion HB; assumption.
    + lia.
    + lia.
    + eexists. eapply sl_record; [exact Hf|discriminate|exact Hnl|exact Ht| |exact Hms]. exists (print 11 (k + 1)). split; [|reflexivity]. apply print_decimal; [lia|]. change (10 ^ Z.of_nat 11) with 100000000000. lia.
Qed.
