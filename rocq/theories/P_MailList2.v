From Verif Require Import Base StreamSpec P_Stream KmpSpec M_Ar M_Mail M_MailList MailPartsSpec P_MailList1.

Lemma skipn_app_exact (a b : list Z) : skipn (length a) (a ++ b) = b.
Proof. rewrite skipn_app, skipn_all, Nat.sub_diag. reflexivity. Qed.
Lemma firstn_app_exact (a b : list Z) : firstn (length a) (a ++ b) = a.
Proof. rewrite firstn_app, firstn_all, Nat.sub_diag. cbn. apply app_nil_r. Qed.
Lemma low_tolower c : low c = tolower c. Proof. reflexivity. Qed.
Lemma ci_prefix_ok n : forall s, ci_prefix n s = true <-> occurs_ci n s 0.
Proof.
  unfold occurs_ci. induction n as [|c n IH]; intros s.
  - cbn [ci_prefix]. split; [intros _|reflexivity]. split; [lia|]. change (zlen (@nil Z)) with 0. pose proof (zlen_nonneg s). split; [lia|reflexivity].
  - destruct s as [|d s]; cbn [ci_prefix].
    + split; [discriminate|]. intros (_ & H & _). rewrite zlen_cons in H. pose proof (zlen_nonneg n). change (zlen (@nil Z)) with 0 in H. lia.
    + rewrite andb_true_iff, Z.eqb_eq, IH, !zlen_cons. pose proof (zlen_nonneg n).
      assert (slice (d :: s) 0 (1 + zlen n) = d :: slice s 0 (zlen n)) as E.
      { unfold slice. cbn [skipn Z.to_nat]. replace (Z.to_nat (1 + zlen n)) with (S (Z.to_nat (zlen n))) by lia. reflexivity. }
      rewrite E. cbn [map]. change (low d) with (tolower d). split.
      * intros (-> & H1 & H2 & H3). split; [lia|]. split; [lia|]. rewrite H3. reflexivity.
      * intros (H1 & H2 & H3). injection H3 as H3 H4. split; [symmetry; exact H3|]. split; [lia|]. split; [lia|exact H4].
Qed.
Lemma occurs_ci_cons n c s d : 0 <= d -> occurs_ci n (c :: s) (d + 1) <-> occurs_ci n s d.
Proof.
  intros Hd. unfold occurs_ci. rewrite zlen_cons. assert (slice (c :: s) (d + 1) (zlen n) = slice s d (zlen n)) as ->.
  { unfold slice. replace (Z.to_nat (d + 1)) with (S (Z.to_nat d)) by lia. reflexivity. }
  split; intros (H1 & H2 & H3); (split; [lia|]; split; [lia|exact H3]).
Qed.
Lemma strcasestr_first n : forall s i, occurs_ci n s i -> (forall d, d < i -> ~ occurs_ci n s d) -> strcasestr n s = Some i.
Proof.
  induction s as [|c s IH]; intros i Hi Hf; cbn [strcasestr].
  - assert (i = 0) as -> by (destruct Hi as (H1 & H2 & _); pose proof (zlen_nonneg n); change (zlen (@nil Z)) with 0 in H2; lia).
    apply ci_prefix_ok in Hi. rewrite Hi. reflexivity.
  - destruct (ci_prefix n (c :: s)) eqn:E.
    + apply ci_prefix_ok in E. f_equal. assert (0 <= i) by apply Hi. destruct (Z.eq_dec i 0) as [->|Ni]; [reflexivity|]. exfalso. apply (Hf 0); [lia|exact E].
    + assert (i <> 0) as Ni by (intros ->; apply ci_prefix_ok in Hi; congruence). assert (0 <= i) by apply Hi.
      rewrite (IH (i - 1)).
      * f_equal. lia.
      * apply (occurs_ci_cons n c); [lia|]. replace (i - 1 + 1) with i by lia. exact Hi.
      * intros d Hd Ho. assert (0 <= d) by apply Ho. apply (Hf (d + 1)); [lia|]. apply occurs_ci_cons; assumption.
Qed.
Lemma strcasestr_none n : forall s, absent n s -> strcasestr n s = None.
Proof.
  induction s as [|c s IH]; intros H; cbn [strcasestr].
  - destruct (ci_prefix n []) eqn:E; [|reflexivity]. apply ci_prefix_ok in E. exfalso. exact (H 0 E).
  - destruct (ci_prefix n (c :: s)) eqn:E; [apply ci_prefix_ok in E; exfalso; exact (H 0 E)|]. rewrite IH; [reflexivity|].
    intros d Hd. assert (0 <= d) by apply Hd. apply (H (d + 1)). apply occurs_ci_cons; assumption.
Qed.
Lemma strcasestr_some n : forall s d, occurs_ci n s d -> exists i, strcasestr n s = Some i.
Proof.
  induction s as [|c s IH]; intros d H; cbn [strcasestr].
  - assert (d = 0) as -> by (destruct H as (H1 & H2 & _); pose proof (zlen_nonneg n); change (zlen (@nil Z)) with 0 in H2; lia). apply ci_prefix_ok in H. rewrite H. eauto.
  - destruct (ci_prefix n (c :: s)) eqn:E; [eauto|]. assert (0 <= d) by apply H. assert (d <> 0) by (intros ->; apply ci_prefix_ok in H; congruence).
    destruct (IH (d - 1)) as (i & ->); [|eauto]. apply (occurs_ci_cons n c); [lia|]. replace (d - 1 + 1) with d by lia. exact H.
Qed.
Lemma c_str_id s : ~ In 0 s -> c_str s = s.
Proof.
  induction s as [|c s IH]; intros H; cbn [c_str]; [reflexivity|]. destruct (Z.eqb_spec c 0) as [->|]; [exfalso; apply H; left; reflexivity|].
  f_equal. apply IH. intros X. apply H. right. exact X.
Qed.
Lemma c_str_prefix s : exists r, s = c_str s ++ r.
Proof.
  induction s as [|c s (r & IH)]; [exists []; reflexivity|]. cbn [c_str]. destruct (c =? 0); [exists (c :: s); reflexivity|].
  exists r. cbn [app]. rewrite <- IH. reflexivity.
Qed.
Lemma occurs_ci_app n a b d : occurs_ci n a d -> occurs_ci n (a ++ b) d.
Proof.
  intros (H1 & H2 & H3). pose proof (zlen_nonneg b). pose proof (zlen_nonneg n). split; [exact H1|]. rewrite zlen_app. split; [lia|]. rewrite slice_app_l by lia. exact H3.
Qed.
Lemma absent_c_str n s : absent n s -> absent n (c_str s).
Proof. intros H d Hd. destruct (c_str_prefix s) as (r & E). apply (H d). rewrite E. apply occurs_ci_app. exact Hd. Qed.
Lemma value_absent n s : absent n s -> value n s = [].
Proof. intros H. unfold value. rewrite strcasestr_none by (apply absent_c_str; exact H). reflexivity. Qed.

Lemma find_semi_app v t : ~ In 59 v -> find_semi (v ++ t) = match find_semi t with Some k => Some (zlen v + k) | None => None end.
Proof.
  induction v as [|c v IH]; intros H; cbn [app find_semi].
  - change (zlen (@nil Z)) with 0. destruct (find_semi t) as [k|]; [rewrite Z.add_0_l|]; reflexivity.
  - destruct (Z.eqb_spec c 59) as [->|]; [exfalso; apply H; left; reflexivity|]. rewrite IH by (intros X; apply H; right; exact X).
    destruct (find_semi t) as [k|]; [rewrite zlen_cons; f_equal; lia|reflexivity].
Qed.
Lemma nth_skipn (l : list Z) d : forall i, nth i l d = hd d (skipn i l).
Proof. induction l as [|c l IH]; intros [|i]; cbn; try reflexivity. apply IH. Qed.
Lemma value_param n v s : has_param n v s -> value n s = v.
Proof.
  intros (pre & nm & post & Hnm & Hpost & Hv & Hsemi & H0 & Hs & Hf). unfold value. rewrite (c_str_id s H0).
  assert (zlen nm = zlen n) as Ln by (rewrite <- Hnm; unfold zlen; rewrite map_length; reflexivity).
  assert (exists rest, s = pre ++ nm ++ rest) as (rest & Er) by (destruct Hs as [Hs|(Hs & _)]; eexists; exact Hs).
  pose proof (zlen_nonneg pre). pose proof (zlen_nonneg nm). pose proof (zlen_nonneg rest).
  rewrite (strcasestr_first n s (zlen pre)); [|split; [apply zlen_nonneg|]|exact Hf].
  2:{ rewrite Er, !zlen_app. split; [lia|]. rewrite slice_app_r by lia. rewrite Z.sub_diag, <- Ln, slice_app_l, slice_all by lia. exact Hnm. }
  assert (skipn (Z.to_nat (zlen pre + zlen n)) s = rest) as Sk.
  { rewrite Er, <- Ln, app_assoc. replace (Z.to_nat (zlen pre + zlen nm)) with (length (pre ++ nm)) by (rewrite app_length; unfold zlen; lia). apply skipn_app_exact. }
  assert (forall k x y, rest = x ++ y -> k = zlen x -> skipn (Z.to_nat (zlen pre + zlen n + k)) s = y) as Sk2.
  { intros k x y Exy ->. pose proof (zlen_nonneg x). replace (Z.to_nat (zlen pre + zlen n + zlen x)) with (Z.to_nat (zlen x) + Z.to_nat (zlen pre + zlen n))%nat by lia.
    rewrite <- skipn_skipn', Sk, Exy. replace (Z.to_nat (zlen x)) with (length x) by (unfold zlen; lia). apply skipn_app_exact. }
  assert (forall k x y z, rest = x ++ y ++ z -> k = zlen x -> slice s (zlen pre + zlen n + k) (zlen y) = y) as Sl.
  { intros k x y z Exy ->. unfold slice. rewrite (Sk2 (zlen x) x (y ++ z) Exy eq_refl). replace (Z.to_nat (zlen y)) with (length y) by (unfold zlen; lia). apply firstn_app_exact. }
  rewrite Sk. set (o := zlen pre + zlen n) in *.
  assert (0 < zlen v) as Lv by (destruct v; [congruence|rewrite zlen_cons; pose proof (zlen_nonneg v); lia]).
  destruct Hs as [Hs|(Hs & Hh)].
  - assert (rest = [61] ++ 34 :: v ++ 34 :: post) as Erest.
    { rewrite Er in Hs. apply app_inv_head in Hs. apply app_inv_head in Hs. exact Hs. }
    assert (span_eq rest = 1) as -> by (rewrite Erest; reflexivity).
    rewrite (Sk2 1 [61] _ Erest eq_refl), nth_skipn, (Sk2 1 [61] _ Erest eq_refl). cbn [hd]. change (34 =? 34) with true. cbn [andb find_semi]. change (34 =? 59) with false. cbv iota.
    rewrite (find_semi_app v) by exact Hsemi. cbn [find_semi]. change (34 =? 59) with false. cbv iota.
    assert (zlen s = o + 1 + (zlen v + 2) + zlen post) as Ls by (rewrite Er, Erest; rewrite !zlen_app, !zlen_cons, zlen_app, zlen_cons; unfold o; change (zlen (@nil Z)) with 0; lia).
    destruct Hpost as [-> |(r & ->)].
    + cbn [find_semi]. rewrite Ls. change (zlen (@nil Z)) with 0. destruct (Z.ltb_spec 2 (o + 1 + (zlen v + 2) + 0 - (o + 1))); [|lia].
      replace (o + 1 + (zlen v + 2) + 0 - (o + 1) - 2) with (zlen v) by lia. replace (o + 1 + 1) with (o + 2) by lia. apply (Sl 2 [61;34] v [34]); [exact Erest|reflexivity].
    + cbn [find_semi]. change (59 =? 59) with true. cbv iota. 
      replace (o + 1 + (zlen v + (0 + 1) + 1) - (o + 1)) with (zlen v + 2) by lia. destruct (Z.ltb_spec 2 (zlen v + 2)); [|lia].
      replace (zlen v + 2 - 2) with (zlen v) by lia. replace (o + 1 + 1) with (o + 2) by lia. apply (Sl 2 [61;34] v (34 :: 59 :: r)); [exact Erest|reflexivity].
  - assert (rest = [61] ++ v ++ post) as Erest.
    { rewrite Er in Hs. apply app_inv_head in Hs. apply app_inv_head in Hs. exact Hs. }
    assert (span_eq rest = 1) as ->.
    { rewrite Erest. destruct v as [|c v]; [congruence|]. cbn [app span_eq].
      destruct ((c =? 61) || (c =? 32) || (c =? 10) || (c =? 13)) eqn:E; [|reflexivity]. exfalso. apply Hh. rewrite !orb_true_iff, !Z.eqb_eq in E. exists v. destruct E as [[[-> | ->]| ->]| ->]; tauto. }
    rewrite (Sk2 1 [61] _ Erest eq_refl), nth_skipn, (Sk2 1 [61] _ Erest eq_refl).
    assert (hd 0 (v ++ post) =? 34 = false) as ->.
    { destruct v as [|c v]; [congruence|]. cbn [app hd]. apply Z.eqb_neq. intros ->. apply Hh. exists v. left. reflexivity. }
    cbn [andb]. rewrite (find_semi_app v) by exact Hsemi.
    assert (zlen s = o + 1 + zlen v + zlen post) as Ls by (rewrite Er, Erest; rewrite !zlen_app; change (zlen [61]) with 1; unfold o; lia).
    destruct Hpost as [-> |(r & ->)].
    + cbn [find_semi]. rewrite Ls. change (zlen (@nil Z)) with 0. replace (o + 1 + zlen v + 0 - (o + 1)) with (zlen v) by lia. apply (Sl 1 [61] v []); [exact Erest|reflexivity].
    + cbn [find_semi]. change (59 =? 59) with true. cbv iota. replace (o + 1 + (zlen v + 0) - (o + 1)) with (zlen v) by lia. apply (Sl 1 [61] v (59 :: r)); [exact Erest|reflexivity].
Qed.

(** leading white space and the name of the header do not matter *)
Lemma occurs_head n c s : n <> [] -> (forall x, hd_error n = Some x -> low c <> x) -> ~ occurs_ci n (c :: s) 0.
Proof.
  intros Hn Hc H. apply ci_prefix_ok in H. destruct n as [|x n]; [congruence|]. cbn [ci_prefix] in H. apply andb_true_iff in H. destruct H as (H & _). apply Z.eqb_eq in H. apply (Hc x eq_refl). rewrite H. reflexivity.
Qed.
Lemma absent_cons n c s : n <> [] -> (forall x, hd_error n = Some x -> low c <> x) -> (absent n (c :: s) <-> absent n s).
Proof.
  intros Hn Hc. split; intros H d Hd.
  - assert (0 <= d) by apply Hd. apply (H (d + 1)). apply occurs_ci_cons; assumption.
  - assert (0 <= d) by apply Hd. destruct (Z.eq_dec d 0) as [->|]; [exact (occurs_head n c s Hn Hc Hd)|]. apply (H (d - 1)). apply (occurs_ci_cons n c); [lia|]. replace (d - 1 + 1) with d by lia. exact Hd.
Qed.
Lemma param_tail n v c s : n <> [] -> (forall x, hd_error n = Some x -> low c <> x) -> has_param n v (c :: s) -> has_param n v s.
Proof.
  intros Hn Hc (pre & nm & post & Hnm & Hpost & Hv & Hsemi & H0 & Hs & Hf).
  assert (exists pre', pre = c :: pre') as (pre' & ->).
  { destruct pre as [|x pre].
    - exfalso. cbn [app] in Hs. destruct nm as [|y nm]; [apply Hn; rewrite <- Hnm; reflexivity|]. assert (y = c) as -> by (destruct Hs as [Hs|(Hs & _)]; injection Hs; congruence).
      apply (Hc (low c)); [rewrite <- Hnm; reflexivity|reflexivity].
    - exists pre. f_equal. destruct Hs as [Hs|(Hs & _)]; injection Hs; congruence. }
  exists pre', nm, post. split; [exact Hnm|]. split; [exact Hpost|]. split; [exact Hv|]. split; [exact Hsemi|]. split; [intros X; apply H0; right; exact X|]. split.
  - destruct Hs as [Hs|(Hs & Hh)]; injection Hs as Hs; [left; exact Hs|right; split; [exact Hs|exact Hh]].
  - intros d Hd Ho. assert (0 <= d) by apply Ho. apply (Hf (d + 1)); [rewrite zlen_cons; lia|]. apply occurs_ci_cons; assumption.
Qed.
Lemma param_cons n v c s : n <> [] -> (forall x, hd_error n = Some x -> low c <> x) -> c <> 0 -> has_param n v s -> has_param n v (c :: s).
Proof.
  intros Hn Hc Hc0 (pre & nm & post & Hnm & Hpost & Hv & Hsemi & H0 & Hs & Hf).
  exists (c :: pre), nm, post. split; [exact Hnm|]. split; [exact Hpost|]. split; [exact Hv|]. split; [exact Hsemi|]. split; [intros [X|X]; [congruence|exact (H0 X)]|]. split.
  - destruct Hs as [Hs|(Hs & Hh)]; [left|right; split; [|exact Hh]]; rewrite Hs; reflexivity.
  - intros d Hd Ho. assert (0 <= d) by apply Ho. rewrite zlen_cons in Hd. destruct (Z.eq_dec d 0) as [->|]; [exact (occurs_head n c s Hn Hc Ho)|].
    apply (Hf (d - 1)); [lia|]. apply (occurs_ci_cons n c); [lia|]. replace (d - 1 + 1) with d by lia. exact Ho.
Qed.
Definition keyword (n : list Z) : Prop := exists x r, n = x :: r /\ 97 <= x <= 122.
Lemma kw_ws n c : keyword n -> is_ws c = true -> n <> [] /\ forall x, hd_error n = Some x -> low c <> x.
Proof.
  intros (x & r & -> & Hx) Hc. apply is_ws_white in Hc. split; [discriminate|]. intros y E. injection E as <-. unfold low, white in *.
  destruct (Z.leb_spec 65 c), (Z.leb_spec c 90); cbn [andb]; lia.
Qed.
Lemma param_drop_ws n v s : keyword n -> has_param n v s -> has_param n v (drop_ws s).
Proof.
  intros Hk. induction s as [|c s IH]; intros H; cbn [drop_ws]; [exact H|]. destruct (is_ws c) eqn:E; [|exact H].
  destruct (kw_ws n c Hk E). apply IH. eapply param_tail; eassumption.
Qed.
Lemma absent_drop_ws n s : keyword n -> absent n s -> absent n (drop_ws s).
Proof.
  intros Hk. induction s as [|c s IH]; intros H; cbn [drop_ws]; [exact H|]. destruct (is_ws c) eqn:E; [|exact H].
  destruct (kw_ws n c Hk E). apply IH. eapply absent_cons; eassumption.
Qed.
