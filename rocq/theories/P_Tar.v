From Verif Require Import Base StreamSpec P_Stream M_Sub P_Sub ArchiveSpec P_Archive M_Ar P_Ar P_Cpio M_Tar TarSpec.

Lemma zget_mid {A} (a b : list A) x i : i = zlen a -> zget (a ++ x :: b) i = Some x.
Proof. intros ->. rewrite zget_app, Z.ltb_irrefl, Z.sub_diag. reflexivity. Qed.
Lemma oct_val_app ds : Forall (fun c => 48 <= c <= 55) ds -> forall acc t r, is_oct t = false -> oct_val acc (ds ++ t :: r) = Ret (fold_left (fun a c => a * 8 + (c - 48)) ds acc).
Proof.
  induction 1 as [|c ds Hc Hds IH]; intros acc t r Ht; cbn [app oct_val fold_left].
  - rewrite Ht. reflexivity.
  - assert (is_oct c = true) as -> by (unfold is_oct; rewrite andb_true_iff, !Z.leb_le; lia). apply IH. exact Ht.
Qed.
Lemma octval_nonneg ds : Forall (fun c => 48 <= c <= 55) ds -> 0 <= octval ds.
Proof.
  unfold octval. assert (forall acc, 0 <= acc -> Forall (fun c => 48 <= c <= 55) ds -> 0 <= fold_left (fun a c => a * 8 + (c - 48)) ds acc) as H; [|intros; apply H; [lia|assumption]].
  induction ds as [|c ds IH]; intros acc Ha Hd; cbn; [lia|]. inversion Hd; subst. apply IH; [lia|assumption].
Qed.
Lemma scan_octal_field n f r : oct_field n f -> n <= INT32_MAX -> scan_octal (f ++ r) = Ret (Some n).
Proof.
  intros (k & ds & t & q & -> & Hne & Hds & Hv & Ht & Hq) Hn. induction k as [|k IH]; cbn [repeat app].
  - rewrite <- app_assoc. destruct ds as [|d ds]; [congruence|]. assert (48 <= d <= 55) as Hd0 by (inversion Hds; assumption). cbn [app scan_octal].
    assert (is_ws d = false) as -> by (unfold is_ws; rewrite orb_false_iff, andb_false_iff, Z.eqb_neq, !Z.leb_gt; lia).
    destruct (Z.eqb_spec d 45); [lia|]. destruct (Z.eqb_spec d 43); [lia|]. cbn [scan_digits].
    assert (is_oct d = true) as -> by (unfold is_oct; rewrite andb_true_iff, !Z.leb_le; lia).
    change (d :: ds ++ t :: q ++ r) with ((d :: ds) ++ t :: (q ++ r)). rewrite oct_val_app; [|exact Hds|destruct Ht as [-> | ->]; reflexivity]. cbn [bind].
    fold (octval (d :: ds)). rewrite Hv. pose proof (octval_nonneg _ Hds). unfold UINT64_MAX. unfold INT32_MAX in Hn. destruct (Z.ltb_spec 18446744073709551615 n); [lia|].
    rewrite wrap32_id by (unfold INT32_MIN, INT32_MAX; lia). reflexivity.
  - cbn [scan_octal]. change (is_ws 32) with true. exact IH.
Qed.
Lemma all_zero_true l : all_zero l = true <-> Forall (fun c => c = 0) l.
Proof. unfold all_zero. rewrite forallb_forall, Forall_forall. split; intros H x Hx; specialize (H x Hx); [apply Z.eqb_eq in H; lia|subst; reflexivity]. Qed.
Lemma all_zero_repeat k : all_zero (repeat 0 k) = true.
Proof. induction k; [reflexivity|exact IHk]. Qed.
Lemma all_zero_app a b : all_zero (a ++ b) = all_zero a && all_zero b.
Proof. unfold all_zero. apply forallb_app. Qed.
Lemma strlen_app name r : Forall (fun c => c <> 0) name -> strlen (name ++ 0 :: r) = Ret (zlen name).
Proof. induction 1 as [|c name Hc Hn IH]; [reflexivity|]. cbn [app strlen]. destruct (Z.eqb_spec c 0); [lia|]. rewrite IH; cbn [bind]. rewrite zlen_cons. reflexivity. Qed.
Lemma strlen_nonneg r : forall n, strlen r = Ret n -> 0 <= n.
Proof.
  induction r as [|c r IH]; intros n H; [discriminate|]. cbn [strlen] in H. destruct (c =? 0); [injection H as <-; lia|].
  destruct (strlen r) as [z| | |]; cbn [bind] in H; try discriminate. assert (n = 1 + z) as -> by congruence. specialize (IH z eq_refl). lia.
Qed.
Lemma strlen_ge name r : Forall (fun c => c <> 0) name -> forall n, strlen (name ++ r) = Ret n -> zlen name <= n.
Proof.
  intros Hn. induction Hn as [|c name Hc Hn IH]; intros n H; [apply strlen_nonneg in H; exact H|].
  cbn [app strlen] in H. destruct (Z.eqb_spec c 0); [lia|]. destruct (strlen (name ++ r)) as [z| | |] eqn:E; cbn [bind] in H; try discriminate. assert (n = 1 + z) as -> by congruence. specialize (IH _ eq_refl). rewrite zlen_cons. lia.
Qed.
Lemma strlen_total a r : exists n, strlen (a ++ 0 :: r) = Ret n /\ n <= zlen a.
Proof.
  induction a as [|c a (n & E & H)]; [exists 0; split; [reflexivity|unfold zlen; cbn; lia]|]. cbn [app strlen]. rewrite zlen_cons. pose proof (zlen_nonneg a). destruct (c =? 0); [exists 0; split; [reflexivity|lia]|]. rewrite E. exists (1 + n). split; [reflexivity|lia].
Qed.
Lemma drop_nonzero_app name k : Forall (fun c => c <> 0) name -> drop_nonzero (name ++ repeat 0 k) = repeat 0 k.
Proof. induction 1 as [|c name Hc Hn IH]; [destruct k; reflexivity|]. cbn. destruct (Z.eqb_spec c 0); [lia|]. exact IH. Qed.

Lemma hdr_parts name size mtime ty h : tar_hdr name size mtime ty h ->
  zlen h = 512 /\ octalField h 124 = Ret (Some size) /\ octalField h 136 = Ret (Some mtime) /\ zget h 156 = Some ty /\
  tar_checkHeader (slice h 0 257) = true /\ zlen name <= 100 /\
  (exists l, strlen h = Ret l /\ (if 100 <? l then 100 else l) = zlen name) /\ (exists r, h = name ++ r) /\ Forall (fun c => c <> 0) name /\ 0 <= size <= INT32_MAX /\ all_zero (slice h 0 512) = false.
Proof.
  intros (nf & mode & uid & gid & sz & mt & ck & link & r & Eh & Z1 & Z2 & Z3 & Z4 & Z5 & Z6 & Z7 & Z8 & Z9 & (k & Enf & Hname) & Hsz & Hmt & Bs & Bm & (c & m & Em & Hc) & (u & Eu) & (g & Eg) & (l & El)).
  assert (zlen [ty] = 1) as Zt by reflexivity.
  assert (zlen h = 512) as Zh by (rewrite Eh, !zlen_app; lia). split; [exact Zh|].
  split. { unfold octalField. rewrite Zh.
    replace h with ((nf ++ mode ++ uid ++ gid) ++ (sz ++ mt ++ ck ++ [ty] ++ link ++ r)) by (rewrite Eh, <- !app_assoc; reflexivity).
    rewrite slice_post by (rewrite !zlen_app; lia). apply scan_octal_field; [exact Hsz|lia]. }
  split. { unfold octalField. rewrite Zh.
    replace h with ((nf ++ mode ++ uid ++ gid ++ sz) ++ (mt ++ ck ++ [ty] ++ link ++ r)) by (rewrite Eh, <- !app_assoc; reflexivity).
    rewrite slice_post by (rewrite !zlen_app; lia). apply scan_octal_field; [exact Hmt|lia]. }
  split. { replace h with ((nf ++ mode ++ uid ++ gid ++ sz ++ mt ++ ck) ++ ty :: (link ++ r)) by (rewrite Eh, <- !app_assoc; reflexivity).
    apply zget_mid. rewrite !zlen_app; lia. }
  assert (zlen name <= 100) as Hn100 by (rewrite Enf, zlen_app, zlen_repeat in Z1; lia).
  assert (forall i x, zget h i = Some x -> 0 <= i < 257 -> zget (slice h 0 257) i = Some x) as Hsl.
  { intros i x H Hi. rewrite zget_slice by lia. destruct (Z.leb_spec 0 i), (Z.ltb_spec i 257); try lia. cbn [andb]. exact H. }
  assert (exists m', mode = m' ++ [0] /\ zlen m' = 7) as (m' & Em' & Zm').
  { exists (c :: m). split; [exact Em|]. rewrite Em in Z2. change (c :: m ++ [0]) with ((c :: m) ++ [0]) in Z2. rewrite zlen_app in Z2. change (zlen [0]) with 1 in Z2. lia. }
  assert (zlen u = 7) as Zu by (rewrite Eu, zlen_app in Z3; change (zlen [0]) with 1 in Z3; lia).
  assert (zlen g = 7) as Zg by (rewrite Eg, zlen_app in Z4; change (zlen [0]) with 1 in Z4; lia).
  assert (zlen l = 99) as Zl by (rewrite El, zlen_app in Z8; change (zlen [0]) with 1 in Z8; lia).
  assert (forall n f, oct_field n f -> exists f' t, f = f' ++ [t] /\ (t = 0 \/ t = 32)) as Hof.
  { intros n f (k1 & ds & t & q & -> & _ & _ & _ & Ht & Hq). destruct (rev q) as [|x q'] eqn:Er.
    - assert (q = []) as -> by (apply (f_equal (@rev Z)) in Er; rewrite rev_involutive in Er; exact Er). exists (repeat 32 k1 ++ ds), t. split; [rewrite <- app_assoc; reflexivity|exact Ht].
    - assert (q = rev q' ++ [x]) as Eq by (apply (f_equal (@rev Z)) in Er; rewrite rev_involutive in Er; exact Er).
      exists (repeat 32 k1 ++ ds ++ t :: rev q'), x. split; [rewrite Eq, <- !app_assoc; reflexivity|]. rewrite Eq in Hq. apply Forall_app in Hq as (_ & Hq). inversion Hq; assumption. }
  destruct (Hof _ _ Hsz) as (sz' & t1 & Esz & Ht1). destruct (Hof _ _ Hmt) as (mt' & t2 & Emt & Ht2).
  assert (zlen sz' = 11) as Zsz by (rewrite Esz, zlen_app in Z5; change (zlen [t1]) with 1 in Z5; lia).
  assert (zlen mt' = 11) as Zmt by (rewrite Emt, zlen_app in Z6; change (zlen [t2]) with 1 in Z6; lia).
  assert (all_zero (slice h 100 156) = false) as Hnz.
  { destruct (all_zero (slice h 100 156)) eqn:E; [|reflexivity]. exfalso. apply all_zero_true in E. 
    assert (zget (slice h 100 156) 0 = Some c) as Hg.
    { rewrite zget_slice by lia. cbn [Z.leb Z.ltb Z.compare andb]. replace h with (nf ++ c :: (m ++ [0]) ++ uid ++ gid ++ sz ++ mt ++ ck ++ [ty] ++ link ++ r) by (rewrite Eh, Em; cbn [app]; rewrite <- !app_assoc; reflexivity). apply zget_mid. lia. }
    unfold zget in Hg. cbn in Hg. destruct (slice h 100 156) as [|y q] eqn:Es; [discriminate|]. cbn in Hg. injection Hg as ->. inversion E. congruence. }
  split.
  { unfold tar_checkHeader. rewrite zlen_slice by lia. destruct (Z.ltb_spec 257 257); [lia|].
    rewrite slice_slice by lia. rewrite Z.add_0_r. assert (slice h 0 100 = nf) as -> by (rewrite Eh; apply slice_pre; lia).
    rewrite Enf, drop_nonzero_app, all_zero_repeat by exact Hname. cbn [negb].
    rewrite slice_slice by lia. change (0 + 100) with 100. rewrite Hnz.
    assert (zget h 107 = Some 0) as H107. { replace h with ((nf ++ m') ++ 0 :: (uid ++ gid ++ sz ++ mt ++ ck ++ [ty] ++ link ++ r)) by (rewrite Eh, Em', <- !app_assoc; reflexivity). apply zget_mid. rewrite zlen_app; lia. }
    assert (zget h 115 = Some 0) as H115. { replace h with ((nf ++ mode ++ u) ++ 0 :: (gid ++ sz ++ mt ++ ck ++ [ty] ++ link ++ r)) by (rewrite Eh, Eu, <- !app_assoc; reflexivity). apply zget_mid. rewrite !zlen_app; lia. }
    assert (zget h 123 = Some 0) as H123. { replace h with ((nf ++ mode ++ uid ++ g) ++ 0 :: (sz ++ mt ++ ck ++ [ty] ++ link ++ r)) by (rewrite Eh, Eg, <- !app_assoc; reflexivity). apply zget_mid. rewrite !zlen_app; lia. }
    assert (zget h 135 = Some t1) as H135. { replace h with ((nf ++ mode ++ uid ++ gid ++ sz') ++ t1 :: (mt ++ ck ++ [ty] ++ link ++ r)) by (rewrite Eh, Esz, <- !app_assoc; reflexivity). apply zget_mid. rewrite !zlen_app; lia. }
    assert (zget h 147 = Some t2) as H147. { replace h with ((nf ++ mode ++ uid ++ gid ++ sz ++ mt') ++ t2 :: (ck ++ [ty] ++ link ++ r)) by (rewrite Eh, Emt, <- !app_assoc; reflexivity). apply zget_mid. rewrite !zlen_app; lia. }
    assert (zget h 256 = Some 0) as H256. { replace h with ((nf ++ mode ++ uid ++ gid ++ sz ++ mt ++ ck ++ [ty] ++ l) ++ 0 :: r) by (rewrite Eh, El, <- !app_assoc; reflexivity). apply zget_mid. rewrite !zlen_app; lia. }
    rewrite (Hsl 107 0), (Hsl 115 0), (Hsl 123 0), (Hsl 135 t1), (Hsl 147 t2), (Hsl 256 0) by (assumption || lia).
    destruct Ht1 as [-> | ->], Ht2 as [-> | ->]; reflexivity. }
  split; [exact Hn100|]. split.
  { assert (exists R0, h = name ++ repeat 0 k ++ R0 /\ exists a R1, R0 = a ++ 0 :: R1 /\ exists a0, a = c :: a0) as (R0 & E0 & a & R1 & E1 & a0 & Ea).
    { exists (mode ++ uid ++ gid ++ sz ++ mt ++ ck ++ [ty] ++ link ++ r). split; [rewrite Eh, Enf, <- !app_assoc; reflexivity|]. exists (c :: m), (uid ++ gid ++ sz ++ mt ++ ck ++ [ty] ++ link ++ r). split; [rewrite Em; cbn [app]; rewrite <- app_assoc; reflexivity|]. eexists; reflexivity. }
    destruct k as [|k].
    - assert (zlen name = 100) as Hn by (rewrite Enf, zlen_app in Z1; cbn [repeat] in Z1; change (zlen []) with 0 in Z1; lia).
      destruct (strlen_total (name ++ a) R1) as (n & E & _). rewrite <- app_assoc in E. cbn [repeat app] in E0. rewrite E1 in E0. rewrite <- E0 in E. exists n. split; [exact E|].
      subst a. assert (zlen (name ++ [c]) <= n). { apply (strlen_ge (name ++ [c]) (a0 ++ 0 :: R1)); [apply Forall_app; split; [exact Hname|constructor; [exact Hc|constructor]]|]. rewrite <- app_assoc. rewrite E0 in E. exact E. }
      rewrite zlen_app in H. change (zlen [c]) with 1 in H. destruct (Z.ltb_spec 100 n); lia.
    - exists (zlen name). split; [rewrite E0; apply strlen_app; exact Hname|]. destruct (Z.ltb_spec 100 (zlen name)); lia. }
  split; [exists (repeat 0 k ++ mode ++ uid ++ gid ++ sz ++ mt ++ ck ++ [ty] ++ link ++ r); rewrite Eh, Enf, <- !app_assoc; reflexivity|].
  split; [exact Hname|]. split; [exact Bs|].
  rewrite <- Zh, slice_all. destruct (all_zero h) eqn:E; [|reflexivity]. rewrite <- Hnz. symmetry. apply all_zero_true. apply all_zero_true in E. rewrite Forall_forall in *. intros x Hx. apply E. unfold slice in Hx.
  revert Hx. generalize (Z.to_nat 156) as n1, (Z.to_nat 100) as n2. intros n1 n2 Hx. assert (In x (skipn n2 h)) as H1 by (rewrite <- (firstn_skipn n1); apply in_or_app; left; exact Hx). rewrite <- (firstn_skipn n2). apply in_or_app. right. exact H1.
Qed.
Lemma announced_code name : name <> [] -> exists c, zget name (zlen name - 1) = Some c /\ (if c =? 47 then slice name 0 (zlen name - 1) else name) = announced name.
Proof.
  intros Hne. unfold announced. destruct (rev name) as [|c r] eqn:E.
  - apply (f_equal (@rev Z)) in E. rewrite rev_involutive in E. cbn in E. congruence.
  - assert (name = rev r ++ [c]) as -> by (apply (f_equal (@rev Z)) in E; rewrite rev_involutive in E; exact E). exists c.
    rewrite zlen_app. change (zlen [c]) with 1. replace (zlen (rev r) + 1 - 1) with (zlen (rev r)) by lia. split; [apply zget_mid; reflexivity|].
    rewrite slice_pre by reflexivity. destruct (Z.eqb_spec c 47) as [->|N]; [reflexivity|].
    repeat (match goal with |- context [match ?z with _ => _ end] => destruct z; try reflexivity; try congruence end).
Qed.
Lemma no_dot_code name h r : h = name ++ r -> (1 <? zlen name) && list_eqb (slice h 0 2) [46;47] = match name with 46 :: 47 :: _ => true | _ => false end /\
  ((1 <? zlen name) && list_eqb (slice h 0 2) [46;47] = true -> slice h 2 (zlen name - 2) = no_dot name).
Proof.
  intros ->. destruct name as [|a [|b name]]; cbn [app].
  - split; [reflexivity|discriminate].
  - change (1 <? zlen [a]) with false. split; [|discriminate]. cbn [andb]. repeat (match goal with |- context [match ?z with _ => _ end] => destruct z; try reflexivity end).
  - assert ((1 <? zlen (a :: b :: name)) = true) as -> by (apply Z.ltb_lt; unfold zlen; cbn [length]; lia). cbn [andb].
    change (slice (a :: b :: name ++ r) 0 2) with [a; b].
    destruct (Z.eq_dec a 46) as [->|Na]; [destruct (Z.eq_dec b 47) as [->|Nb]|].
    + rewrite list_eqb_refl. split; [reflexivity|]. intros _. cbn [no_dot]. rewrite !zlen_cons. change (46 :: 47 :: name ++ r) with ([46;47] ++ name ++ r). replace (1 + (1 + zlen name) - 2) with (zlen name) by lia. apply slice_mid; reflexivity.
    + rewrite list_eqb_false by congruence. split; [|discriminate]. repeat (match goal with |- context [match ?z with _ => _ end] => destruct z; try reflexivity; try congruence end).
    + rewrite list_eqb_false by congruence. split; [|discriminate]. repeat (match goal with |- context [match ?z with _ => _ end] => destruct z; try reflexivity; try congruence end).
Qed.
Lemma read_exact_st {P} (par : ops P Z) full lim p v k : Conforms par full False lim p v -> 1 <= k <= lim -> k <= INT32_MAX -> v_pos v + k <= zlen full ->
  exists p', o_read par p k k = Ret (p', k, slice full (v_pos v) k) /\ o_status par p' <> Error /\ (o_status par p' = Eof -> v_pos v + k = zlen full) /\
    Conforms par full False lim p' (mkView (v_pos v + k) (v_pos v) (v_pos v + k)).
Proof.
  intros HC Hk Hk2 Hf. destruct (sim_read _ _ _ _ _ p v k k (conforms_sim _ _ _ _) HC) as (p' & n & d & E & Hres); [cbn; lia|].
  destruct Hres as [[G HR]|(_ & [] & _)]. exists p'.
  destruct G as (G1 & G2 & G3 & G4 & [(R1 & R2 & R3 & R4 & R5)|(R1 & R2 & R3 & R4)]); cbn [observe ob_ret ob_data ob_st next_view v_pos] in *; [|lia].
  assert (n = k) as -> by lia. destruct (Z.ltb_spec 0 k); [|lia]. subst d. auto.
Qed.

Lemma skip_exact_before {P} (par : ops P Z) full lim p v k : Conforms par full False lim p v -> 0 <= k <= INT32_MAX -> v_pos v + k <= zlen full ->
  exists p' r, o_skip par p k = Ret (p', r) /\ (v_pos v + k < zlen full -> r = k) /\
    Conforms par full False lim p' (mkView (v_pos v + k) (v_pos v + k) (v_pos v + k)).
Proof.
  intros HC Hk Hf. assert (HV := HC). destruct HV as (HV & _). unfold view_ok in HV. destruct (sim_skip _ _ _ _ _ p v k (conforms_sim _ _ _ _) HC Hk) as (p' & r & E & [[G HR]|(_ & [[]|(B1 & B2)])]); [|lia].
  exists p', r. split; [exact E|]. destruct G as (G1 & G2 & G3 & G4 & G5). cbn [observe ob_ret next_view] in *.
  assert (v_pos v + Z.max 0 r = v_pos v + k) as Hr by lia. rewrite Hr in HR. split; [lia|exact HR].
Qed.

Section Tar.
Context {P : Type}.
Variables (par : ops P Z) (full : list Z) (lim : Z).
Hypothesis Hlim : 512 <= lim.
Let R := Conforms par full False lim.

Lemma tar_block_at pre b rest p v : full = pre ++ b ++ rest -> zlen b = 512 -> R p v -> v_pos v = zlen pre ->
  exists p', (tar_block par p = Ret (p', Ok, b) /\ R p' (mkView (zlen pre + 512) (zlen pre) (zlen pre + 512))) \/ (tar_block par p = Ret (p', Eof, []) /\ rest = []).
Proof.
  intros Hfull Hb HR Hv. unfold tar_block. pose proof (zlen_nonneg rest).
  destruct (read_exact_st par full lim p v 512 HR) as (p' & E & S1 & S2 & HR'); [lia|unfold INT32_MAX; lia|rewrite Hv, Hfull, !zlen_app; lia|].
  exists p'. rewrite E; cbn [bind]. change (512 =? 0) with false. cbn [orb]. rewrite Hv in *. 
  assert (slice full (zlen pre) 512 = b) as -> by (rewrite Hfull; apply slice_mid; lia).
  destruct (o_status par p') eqn:Es; [|right|congruence].
  - left. cbn [is_eof]. change (512 =? 512) with true. rewrite Hb. change (512 <=? 512) with true. cbn [negb]. split; [reflexivity|exact HR'].
  - cbn [is_eof]. split; [reflexivity|]. specialize (S2 eq_refl). rewrite Hfull, !zlen_app in S2. apply zlen_0_nil. lia.
Qed.
Lemma tar_block_eof p v : R p v -> v_pos v = zlen full -> exists p', tar_block par p = Ret (p', Eof, []).
Proof.
  intros HR Hv. destruct (at_end_read par full lim p v 512 512 HR) as (p' & E & Hs); [cbn; unfold INT32_MAX; lia|exact Hv|].
  exists p'. unfold tar_block. rewrite E; cbn [bind]. rewrite Hs. reflexivity.
Qed.
Lemma zeros_split k : repeat 0 (512 * S k) = repeat 0 512 ++ repeat 0 (512 * k).
Proof. rewrite <- repeat_app. f_equal. lia. Qed.
Lemma tar_zeros_ok fuel : forall k first pre p v, full = pre ++ repeat 0 (512 * k) -> R p v -> v_pos v = zlen pre -> (k < fuel)%nat ->
  exists p' st, tar_zeros par fuel first p = Ret (p', st) /\ st <> Ok /\ ((first = true -> (2 <= k)%nat) -> st = Eof).
Proof.
  induction fuel as [|fuel IH]; intros k first pre p v Hfull HR Hv Hk; [lia|]. cbn [tar_zeros]. destruct k as [|k].
  - cbn [Nat.mul repeat] in Hfull. rewrite app_nil_r in Hfull. destruct (tar_block_eof p v HR) as (p' & E); [rewrite Hv, Hfull; reflexivity|]. rewrite E; cbn [bind].
    do 2 eexists; split; [reflexivity|]. destruct first; (split; [congruence|]); intros H; [specialize (H eq_refl); lia|reflexivity].
  - rewrite zeros_split in Hfull. set (zs := repeat 0 512) in *. assert (zlen zs = 512) as Zz by (unfold zs; rewrite zlen_repeat; reflexivity).
    assert (all_zero (slice zs 0 512) = true) as Haz by (rewrite <- Zz, slice_all; apply all_zero_repeat). clearbody zs.
    destruct (tar_block_at pre zs (repeat 0 (512 * k)) p v Hfull) as (p' & [(E & HR')|(E & Er)]); [exact Zz|exact HR|exact Hv| |]; rewrite E; cbn [bind].
    + rewrite Haz. 
      destruct (IH k false (pre ++ zs) p' _ ltac:(rewrite <- app_assoc; exact Hfull) HR') as (p2 & st & E2 & S1 & S2); [cbn [v_pos]; rewrite zlen_app; lia|lia|].
      rewrite E2. do 2 eexists; split; [reflexivity|]. split; [exact S1|]. intros _. apply S2. discriminate.
    + do 2 eexists; split; [reflexivity|]. destruct first; (split; [congruence|]); intros H; [|reflexivity]. specialize (H eq_refl).
      apply (f_equal (@length Z)) in Er. rewrite repeat_length in Er. cbn [length] in Er. lia.
Qed.
Lemma tar_nonempty k bytes ms : (1 <= k)%nat -> tar_archive lim k bytes ms -> bytes <> [].
Proof.
  intros Hk H E. assert (0 < zlen bytes); [|rewrite E in H0; unfold zlen in H0; cbn in H0; lia]. clear E.
  induction H as [|name mtime ty h data padded rest ms Hh _ _ _ _ HM IH|mtime ty h rest ms Hh HM IH|lname mtime0 ty0 h0 padded0 name mtime ty h data padded rest ms Hh0 _ _ _ Hh _ HM IH].
  - rewrite zlen_repeat. lia.
  - apply hdr_parts in Hh as (Zh & _). rewrite !zlen_app. pose proof (zlen_nonneg padded). lia.
  - apply hdr_parts in Hh as (Zh & _). rewrite !zlen_app. lia.
  - apply hdr_parts in Hh as (Zh & _). rewrite !zlen_app. pose proof (zlen_nonneg padded). pose proof (zlen_nonneg padded0). pose proof (zlen_nonneg h0). lia.
Qed.
Lemma tar_pad_ok data padded : blocks data padded -> exists pad, padded = data ++ pad /\ zlen pad = (let q := 512 - Z.rem (zlen data) 512 in if q =? 512 then 0 else q) /\ 0 <= zlen pad < 512.
Proof.
  intros (pad & -> & Hp & Hm). exists pad. split; [reflexivity|]. split; [|exact Hp]. rewrite zlen_app in Hm. pose proof (zlen_nonneg data). cbv zeta. rewrite Z.rem_mod_nonneg by lia.
  pose proof (Z.div_mod (zlen data) 512 ltac:(lia)). pose proof (Z.div_mod (zlen data + zlen pad) 512 ltac:(lia)). pose proof (Z.mod_pos_bound (zlen data) 512 ltac:(lia)).
  set (x := zlen data / 512) in *. set (y := (zlen data + zlen pad) / 512) in *. destruct (Z.eqb_spec (512 - zlen data mod 512) 512); lia.
Qed.
Lemma tar_fields_ok (p : P) pad inf nm size mtime ty h name : tar_hdr nm size mtime ty h -> name <> [] ->
  tar_fields p pad inf h name = Ret (p, (let q := 512 - Z.rem size 512 in if q =? 512 then 0 else q), Ok, mkInfo (announced name) size mtime (tar_type ty)).
Proof.
  intros Hh Hne. apply hdr_parts in Hh as (_ & E1 & E2 & E3 & _). unfold tar_fields. rewrite E1; cbn [bind]. rewrite E2; cbn [bind]. rewrite E3.
  destruct (announced_code name Hne) as (c & -> & ->). reflexivity.
Qed.
Lemma tar_parse_ok k fuel : (1 <= k)%nat -> forall bytes ms pre p v inf pad, tar_archive lim k bytes ms -> full = pre ++ bytes -> R p v -> v_pos v = zlen pre -> (length bytes < fuel)%nat ->
  exists p' pad' st' inf', tar_parse par fuel p pad inf = Ret (p', pad', st', inf') /\
    match ms with
    | [] => st' <> Ok /\ ((3 <= k)%nat -> st' = Eof)
    | m :: ms' => st' = Ok /\ inf' = m_info m /\ i_size inf' = zlen (m_data m) /\
        exists pre2 padl rest v', full = pre2 ++ m_data m ++ padl ++ rest /\ zlen padl = pad' /\ 0 <= pad' < 512 /\ zlen (m_data m) <= INT32_MAX /\
          tar_archive lim k rest ms' /\ R p' v' /\ v_pos v' = zlen pre2 /\ (length rest < length bytes)%nat
    end.
Proof.
  intros Hk. induction fuel as [|fuel IH]; intros bytes ms pre p v inf pad HM Hfull HR Hv Hf; [lia|]. cbn [tar_parse].
  assert (forall h rest', bytes = h ++ rest' -> zlen h = 512 -> rest' <> [] -> exists p1, tar_block par p = Ret (p1, Ok, h) /\ R p1 (mkView (zlen pre + 512) (zlen pre) (zlen pre + 512))) as Hblk.
  { intros h rest' Eb Zh Hr. destruct (tar_block_at pre h rest' p v) as (p' & [(E & HR')|(E & Er)]); [rewrite Hfull, Eb; reflexivity|exact Zh|exact HR|exact Hv| |congruence]. exists p'. split; [exact E|exact HR']. }
  inversion HM as [Eb Em|name mtime ty h data padded rest ms' Hh N1 N2 N3 Hbl HM' Eb Em|mtime ty h rest ms' Hh HM' Eb Em|lname mtime0 ty0 h0 padded0 name mtime ty h data padded rest ms' Hh0 Hl1 Hl2 Hbl0 Hh Hbl HM' Eb Em].
  - destruct k as [|k]; [lia|]. assert (Hfull' := Hfull). rewrite <- Eb, zeros_split in Hfull'.
    assert (length bytes = 512 * S k)%nat as Hlb by (rewrite <- Eb; apply repeat_length).
    set (zs := repeat 0 512) in *. assert (zlen zs = 512) as Zz by (unfold zs; rewrite zlen_repeat; reflexivity).
    assert (all_zero (slice zs 0 512) = true) as Haz by (rewrite <- Zz, slice_all; apply all_zero_repeat). clearbody zs.
    destruct (tar_block_at pre zs (repeat 0 (512 * k)) p v Hfull') as (p' & [(E & HR')|(E & Er)]); [exact Zz|exact HR|exact Hv| |]; rewrite E; cbn [bind].
    + rewrite Haz. destruct (tar_zeros_ok fuel k true (pre ++ zs) p' _ ltac:(rewrite <- app_assoc; exact Hfull') HR') as (p2 & st & E2 & S1 & S2); [cbn [v_pos]; rewrite zlen_app; lia|lia|].
      rewrite E2; cbn [bind]. do 4 eexists; split; [reflexivity|]. split; [exact S1|]. intros H. apply S2. intros _. lia.
    + do 4 eexists; split; [reflexivity|]. split; [congruence|]. intros H. apply (f_equal (@length Z)) in Er. rewrite repeat_length in Er. cbn [length] in Er. lia.
  - assert (Hh' := Hh). apply hdr_parts in Hh' as (Zh & F1 & F2 & F3 & F4 & F5 & (l & F6 & F7) & (r & F8) & F9 & F10 & F11).
    destruct (Hblk h (padded ++ rest) (eq_sym Eb) Zh) as (p1 & E1 & HR1).
    { pose proof (tar_nonempty _ _ _ Hk HM') as Hn. destruct padded; [exact Hn|discriminate]. }
    rewrite E1; cbn [bind]. rewrite F11, F4; cbn [negb]. rewrite F6; cbn [bind].
    assert (zlen name <> 0) as Hn0 by (intros E; apply zlen_0_nil in E; congruence).
    destruct (Z.eqb_spec l 0) as [->|_]; [cbn in F7; lia|]. rewrite F7.
    assert ((zlen name =? 13) && list_eqb (slice h 0 13) longlink = false) as ->.
    { destruct (Z.eqb_spec (zlen name) 13) as [E|_]; [|reflexivity]. cbn [andb]. apply list_eqb_false. rewrite F8, slice_pre by lia. exact N2. }
    destruct (tar_pad_ok _ _ Hbl) as (padl & Ep & Zp & Bp).
    destruct (no_dot_code name h r F8) as (D1 & D2).
    assert (exists nm, nm = no_dot name /\ nm <> [] /\
      (if (1 <? zlen name) && list_eqb (slice h 0 2) [46;47] then if zlen name =? 2 then tar_parse par fuel p1 pad (mkInfo [] (i_size inf) (i_mtime inf) (i_type inf)) else tar_fields p1 pad inf h (slice h 2 (zlen name - 2)) else tar_fields p1 pad inf h (slice h 0 (zlen name))) = tar_fields p1 pad inf h nm) as (nm & Enm & Hnm & ->).
    { exists (no_dot name). split; [reflexivity|]. destruct ((1 <? zlen name) && list_eqb (slice h 0 2) [46;47]) eqn:Ed.
      - rewrite (D2 eq_refl). destruct name as [|a [|b [|c name]]]; try (discriminate D1 || (exfalso; revert D1; repeat (match goal with |- context [match ?z with _ => _ end] => destruct z; try discriminate end); fail)).
        + exfalso. revert D1 N3. repeat (match goal with |- context [match ?z with _ => _ end] => destruct z; try discriminate end); congruence.
        + assert (a = 46 /\ b = 47) as (-> & ->) by (revert D1; repeat (match goal with |- context [match ?z with _ => _ end] => destruct z; try discriminate end); auto).
          split; [discriminate|]. destruct (Z.eqb_spec (zlen (46 :: 47 :: c :: name)) 2) as [E|_]; [unfold zlen in E; cbn [length] in E; lia|]. reflexivity.
      - assert (no_dot name = name) as Hnd by (revert D1; unfold no_dot; repeat (match goal with |- context [match ?z with _ => _ end] => destruct z; try discriminate; try reflexivity end)).
        rewrite Hnd. split; [exact N1|]. f_equal. rewrite F8. apply slice_pre. reflexivity. }
    rewrite (tar_fields_ok _ _ _ _ _ _ _ _ nm Hh Hnm). do 4 eexists; split; [reflexivity|]. split; [reflexivity|]. cbn [m_info m_data i_size]. rewrite Enm. split; [reflexivity|]. split; [reflexivity|].
    exists (pre ++ h), padl, rest, (mkView (zlen pre + 512) (zlen pre) (zlen pre + 512)).
    split; [rewrite Hfull, <- Eb, Ep, <- !app_assoc; reflexivity|]. split; [exact Zp|]. split; [cbv zeta in Zp |- *; rewrite <- Zp; exact Bp|]. split; [lia|]. split; [exact HM'|]. split; [exact HR1|]. split; [cbn [v_pos]; rewrite zlen_app; lia|].
    rewrite !app_length. unfold zlen in Zh. lia.
  - assert (Hh' := Hh). apply hdr_parts in Hh' as (Zh & F1 & F2 & F3 & F4 & F5 & (l & F6 & F7) & (r & F8) & F9 & F10 & F11).
    destruct (Hblk h rest (eq_sym Eb) Zh) as (p1 & E1 & HR1). { apply (tar_nonempty _ _ _ Hk HM'). }
    rewrite E1; cbn [bind]. rewrite F11, F4; cbn [negb]. rewrite F6; cbn [bind]. change (zlen [46;47]) with 2 in F7.
    destruct (Z.eqb_spec l 0) as [->|_]; [cbn in F7; lia|]. rewrite F7.
    change (2 =? 13) with false. change (1 <? 2) with true. change (2 =? 2) with true. cbn [andb]. assert (slice h 0 2 = [46;47]) as -> by (rewrite F8; reflexivity). rewrite list_eqb_refl.
    assert (full = (pre ++ h) ++ rest) as A1 by (rewrite Hfull, <- Eb, <- app_assoc; reflexivity).
    assert (length rest < fuel)%nat as A2 by (rewrite <- Eb, app_length in Hf; unfold zlen in Zh; lia).
    assert (zlen pre + 512 = zlen (pre ++ h)) as A3 by (rewrite zlen_app; lia).
    match goal with |- context [tar_parse par fuel p1 ?pd ?i] => destruct (IH rest ms (pre ++ h) p1 _ i pd HM' A1 HR1 A3 A2) as (p' & pad' & st' & inf' & E & Hres) end.
    rewrite E. do 4 eexists; split; [reflexivity|]. destruct ms as [|m ms1]; [exact Hres|].
    destruct Hres as (Q1 & Q2 & Q3 & pre2 & padl & rest2 & v2 & Q4 & Q5 & Q6 & Q7 & Q8 & Q9 & Q10 & Q11). split; [exact Q1|]. split; [exact Q2|]. split; [exact Q3|].
    exists pre2, padl, rest2, v2. do 7 (split; [assumption|]). rewrite app_length. lia.
  - assert (Hh0' := Hh0). apply hdr_parts in Hh0' as (Zh0 & F1 & F2 & F3 & F4 & F5 & (l & F6 & F7) & (r & F8) & F9 & F10 & F11).
    assert (Hh' := Hh). apply hdr_parts in Hh' as (Zh & _ & _ & _ & _ & _ & _ & _ & _ & G10 & _).
    destruct (Hblk h0 (padded0 ++ h ++ padded ++ rest) (eq_sym Eb) Zh0) as (p1 & E1 & HR1).
    { intros E. apply (f_equal zlen) in E. rewrite !zlen_app in E. change (zlen []) with 0 in E. pose proof (zlen_nonneg padded0). pose proof (zlen_nonneg padded). pose proof (zlen_nonneg rest). lia. }
    rewrite E1; cbn [bind]. rewrite F11, F4; cbn [negb]. rewrite F6; cbn [bind]. change (zlen longlink_name) with 13 in F7.
    destruct (Z.eqb_spec l 0) as [->|_]; [cbn in F7; lia|]. rewrite F7.
    change (13 =? 13) with true. cbn [andb]. assert (slice h0 0 13 = longlink) as -> by (rewrite F8; reflexivity). rewrite list_eqb_refl.
    destruct (tar_pad_ok _ _ Hbl0) as (padl0 & Ep0 & Zp0 & Bp0). destruct (tar_pad_ok _ _ Hbl) as (padl & Ep & Zp & Bp).
    unfold tar_longLink. rewrite F1; cbn [bind].
    assert (0 < zlen lname) as Hl0 by (destruct lname; [congruence|rewrite zlen_cons; pose proof (zlen_nonneg lname); lia]).
    pose proof (zlen_nonneg padded). pose proof (zlen_nonneg rest).
    assert (full = (pre ++ h0) ++ lname ++ padl0 ++ h ++ padded ++ rest) as B1 by (rewrite Hfull, <- Eb, Ep0, <- !app_assoc; reflexivity).
    destruct (read_exact par full lim p1 _ (zlen lname) HR1) as (p2 & E2 & _ & HR2); [lia|lia|cbn [v_pos]; rewrite B1, !zlen_app; lia|].
    rewrite E2; cbn [bind v_pos]. rewrite Z.eqb_refl; cbn [negb].
    assert (slice full (zlen pre + 512) (zlen lname) = lname) as -> by (rewrite B1; apply slice_mid; [rewrite zlen_app; lia|reflexivity]).
    destruct (Z.ltb_spec (zlen lname) 0); [lia|]. rewrite Z.leb_refl; cbn [negb]. rewrite slice_all.
    assert ((if Z.rem (zlen lname) 512 =? 0 then 0 else 512 - Z.rem (zlen lname) 512) = zlen padl0) as ->.
    { rewrite Zp0. cbv zeta. destruct (Z.eqb_spec (Z.rem (zlen lname) 512) 0) as [E0|N0]; [rewrite E0; reflexivity|]. destruct (Z.eqb_spec (512 - Z.rem (zlen lname) 512) 512); lia. }
    destruct (skip_exact_before par full lim p2 _ (zlen padl0) HR2) as (p3 & k3 & E3 & S3 & HR3); [unfold INT32_MAX; lia|cbn [v_pos]; rewrite B1, !zlen_app; lia|].
    cbn [v_pos] in S3.
    rewrite E3; cbn [bind]. cbn [v_pos] in HR3.
    destruct (Z.eqb_spec k3 (zlen padl0)) as [Ek|Nk]; cbn [negb bind].
    + set (pre3 := pre ++ h0 ++ lname ++ padl0). assert (full = pre3 ++ h ++ (padded ++ rest)) as B3 by (unfold pre3; rewrite B1, <- !app_assoc; reflexivity).
      assert (zlen pre3 = zlen pre + 512 + zlen lname + zlen padl0) as Zpre3 by (unfold pre3; rewrite !zlen_app; lia).
      destruct (tar_block_at pre3 h (padded ++ rest) p3 _ B3 Zh HR3) as (p4 & [(E4 & HR4)|(_ & Er)]); [cbn [v_pos]; lia| |].
      2:{ exfalso. pose proof (tar_nonempty _ _ _ Hk HM') as Hn. destruct padded; [exact (Hn Er)|discriminate]. }
      rewrite E4; cbn [bind]. rewrite (tar_fields_ok _ _ _ _ _ _ _ _ lname Hh Hl1). do 4 eexists; split; [reflexivity|]. split; [reflexivity|]. cbn [m_info m_data i_size]. split; [reflexivity|]. split; [reflexivity|].
      exists (pre3 ++ h), padl, rest, (mkView (zlen pre3 + 512) (zlen pre3) (zlen pre3 + 512)).
      split; [rewrite B3, Ep, <- !app_assoc; reflexivity|]. split; [exact Zp|]. split; [cbv zeta in Zp |- *; rewrite <- Zp; exact Bp|]. split; [lia|]. split; [exact HM'|]. split; [exact HR4|]. split; [cbn [v_pos]; rewrite zlen_app; lia|].
      rewrite !app_length. unfold zlen in Zh, Zh0. lia.
    + exfalso. specialize (S3 ltac:(rewrite B1, !zlen_app; lia)). congruence.
Qed.
Definition tar_ready (a : tar P) (pre pad : list Z) : Prop :=
  t_st a = Ok /\
  match t_cur a with
  | inl p => (exists v, R p v /\ v_pos v = zlen pre) /\ pad = []
  | inr s => zlen pad = t_pad a /\ exists off n v, 0 <= off /\ 0 <= n <= INT32_MAX /\ off + n <= zlen full /\ off + n = zlen pre /\ sub_R full R off n s v
  end.
Lemma tar_lists k fuel : (1 <= k)%nat -> forall ms bytes pre pad a, tar_archive lim k bytes ms -> full = pre ++ pad ++ bytes -> 0 <= zlen pad <= INT32_MAX -> tar_ready a pre pad -> (length bytes < fuel)%nat ->
  lists_end (fun st => st <> Ok /\ ((3 <= k)%nat -> st = Eof)) (tar_provider par fuel) lim ms a.
Proof.
  intros Hk. induction ms as [|m ms IH]; intros bytes pre pad a HM Hfull Hpad (Hst & Hcur) Hf.
  all: cbn [lists_end pv_next pv_entry pv_status tar_provider]; unfold tar_next; rewrite Hst.
  all: match goal with |- context [bind ?e _] => assert (exists p v, e = Ret p /\ R p v /\ v_pos v = zlen (pre ++ pad)) as (p & v & -> & HR & Hv) end.
  1,3: destruct (t_cur a) as [p|s];
    [destruct Hcur as ((v & HR & Hv) & ->); exists p, v; (split; [reflexivity|]); (split; [exact HR|]); rewrite app_nil_r; exact Hv|];
    destruct Hcur as (Hzp & off & n & v & H1 & H2 & H3 & H4 & HRs);
    destruct (entry_finish par full lim off n H1 H2 H3 s v HRs) as (s' & k' & E & HRs' & _); rewrite E; cbn [bind];
    destruct (entry_parent par full lim off n H1 H2 H3 s' _ HRs') as (HRp & _); cbn [v_pos] in HRp;
    destruct (skip_exact_before par full lim _ _ (t_pad a) HRp) as (p1 & r & Es & _ & HR1); [lia|cbn [v_pos]; rewrite H4, <- Hzp, Hfull, !zlen_app; pose proof (zlen_nonneg bytes); lia|];
    rewrite Es; cbn [bind]; do 2 eexists; (split; [reflexivity|]); (split; [exact HR1|]); cbn [v_pos]; rewrite zlen_app; lia.
  all: assert (full = (pre ++ pad) ++ bytes) as Hfull2 by (rewrite <- app_assoc; exact Hfull).
  all: cbn [bind]; destruct (tar_parse_ok k fuel Hk bytes _ (pre ++ pad) p v (t_info a) (t_pad a) HM Hfull2 HR Hv Hf) as (p' & pad' & st' & inf' & E & Hres); rewrite E; cbn [bind].
  - destruct Hres as (S1 & S2). destruct st'; [congruence| |]; eexists; (split; [reflexivity|]); cbn [t_st]; (split; [congruence|exact S2]).
  - destruct Hres as (-> & Q2 & Q3 & pre2 & padl & rest & v2 & Q4 & Q5 & Q6 & Q7 & Q8 & Q9 & Q10 & Q11). rewrite Q3. pose proof (zlen_nonneg pre2). pose proof (zlen_nonneg (m_data m)).
    destruct (Z.leb_spec 0 (zlen (m_data m))); [|lia].
    assert (zlen pre2 + zlen (m_data m) <= zlen full) as Hfit by (rewrite Q4, !zlen_app; pose proof (zlen_nonneg padl); pose proof (zlen_nonneg rest); lia).
    assert (slice full (zlen pre2) (zlen (m_data m)) = m_data m) as Hdata by (rewrite Q4; apply slice_mid; reflexivity).
    destruct (entry_new par full lim (zlen pre2) (zlen (m_data m)) ltac:(lia) p' v2 Q9 Q10) as (s & En & HRs). rewrite En; cbn [bind].
    rewrite Q2. eexists; split; [reflexivity|]. split; [reflexivity|]. intros h Hh. unfold tar_entry. cbn [t_cur].
    destruct (entry_run par full lim (zlen pre2) (zlen (m_data m)) ltac:(lia) ltac:(lia) ltac:(lia) h s view0 HRs) as (s' & obs & v' & Er & Ha & HRs'); [rewrite Hdata; exact Hh|].
    rewrite Er; cbn [bind]. rewrite Hdata in Ha. do 2 eexists; split; [reflexivity|]. split; [exact Ha|].
    apply (IH rest (pre2 ++ m_data m) padl); [exact Q8|rewrite Q4, <- app_assoc; reflexivity|unfold INT32_MAX; lia| |lia].
    split; [reflexivity|]. cbn [t_cur t_pad]. split; [exact Q5|]. exists (zlen pre2), (zlen (m_data m)), v'. rewrite zlen_app. do 4 (split; [lia|]). exact HRs'.
Qed.
End Tar.
