From Verif Require Import Base StreamSpec P_Stream KmpSpec M_Ar M_Mail M_MailList MailPartsSpec P_MailList1 P_MailList2.

Definition line_of (h : header) : list Z := h_name h ++ 58 :: h_value h.
Lemma low58 c : low c = 58 -> c = 58.
Proof. unfold low. destruct (Z.leb_spec 65 c), (Z.leb_spec c 90); cbn [andb]; lia. Qed.
Lemma ci_name n : forall nm v, ~ In 58 n -> ~ In 58 nm -> ci_prefix (n ++ [58]) (nm ++ 58 :: v) = true <-> map low nm = n.
Proof.
  induction n as [|x n IH]; intros nm v Hn Hnm; cbn [app ci_prefix].
  - destruct nm as [|c nm]; cbn [app map].
    + change (tolower 58) with 58. rewrite Z.eqb_refl. split; reflexivity.
    + split; [|discriminate]. intros H. apply andb_true_iff in H. destruct H as (H & _). apply Z.eqb_eq in H. exfalso. apply Hnm. left. apply low58. symmetry. exact H.
  - destruct nm as [|c nm]; cbn [app map].
    + split; [|discriminate]. intros H. apply andb_true_iff in H. destruct H as (H & _). apply Z.eqb_eq in H. exfalso. apply Hn. left. exact H.
    + rewrite andb_true_iff, Z.eqb_eq, IH by (intros X; first [apply Hn; right; exact X|apply Hnm; right; exact X]). change (tolower c) with (low c). split.
      * intros (-> & ->). reflexivity.
      * intros E. injection E as E1 E2. split; [symmetry; exact E1|exact E2].
Qed.
Lemma namedb_iff n h : namedb n h = true <-> named n h.
Proof. unfold namedb, named. destruct (list_eq_dec Z.eq_dec (map low (h_name h)) n); split; congruence. Qed.
Lemma ci_namedb n h : ~ In 58 n -> ~ In 58 (h_name h) -> ci_prefix (n ++ [58]) (line_of h) = namedb n h.
Proof.
  intros H1 H2. pose proof (ci_name n (h_name h) (h_value h) H1 H2) as H. pose proof (namedb_iff n h) as H'. unfold named in H'.
  unfold line_of. destruct (ci_prefix _ _), (namedb n h); try reflexivity; [symmetry; apply H', H; reflexivity|apply H, H'; reflexivity].
Qed.
Lemma rest_named n h k : namedb n h = true -> k = S (length n) -> drop_ws (skipn k (line_of h)) = drop_ws (h_value h).
Proof.
  intros H ->. apply namedb_iff in H. unfold named in H. f_equal. unfold line_of. replace (S (length n)) with (length (h_name h ++ [58])).
  - change (58 :: h_value h) with ([58] ++ h_value h). rewrite app_assoc. apply skipn_app_exact.
  - rewrite app_length, <- H, map_length. cbn. lia.
Qed.
Definition field_name (f : field) : list Z :=
  match f with
  | FSubject => [115;117;98;106;101;99;116] | FTo => [116;111] | FFrom => [102;114;111;109] | FCc => [99;99] | FBcc => [98;99;99]
  | FMessageId => [109;101;115;115;97;103;101;45;105;100] | FInReplyTo => [105;110;45;114;101;112;108;121;45;116;111] | FReferences => [114;101;102;101;114;101;110;99;101;115]
  end.
Ltac no58 := intros X; repeat (destruct X as [X|X]; [discriminate X|]); exact X.
Lemma hh_eq hd h : ~ In 58 (h_name h) -> handleHeaderLine hd (line_of h) =
  if zlen (line_of h) <? 8 then hd
  else if namedb (field_name FSubject) h then set_meta hd FSubject (drop_ws (h_value h))
  else if namedb (field_name FTo) h then set_meta hd FTo (drop_ws (h_value h))
  else if namedb (field_name FFrom) h then set_meta hd FFrom (drop_ws (h_value h))
  else if namedb (field_name FCc) h then set_meta hd FCc (drop_ws (h_value h))
  else if namedb (field_name FBcc) h then set_meta hd FBcc (drop_ws (h_value h))
  else if namedb (field_name FMessageId) h then set_meta hd FMessageId (drop_ws (h_value h))
  else if namedb (field_name FInReplyTo) h then set_meta hd FInReplyTo (drop_ws (h_value h))
  else if namedb (field_name FReferences) h then set_meta hd FReferences (drop_ws (h_value h))
  else if namedb content_type h then
    mkHd (hd_meta hd) (drop_ws (h_value h)) (hd_cte hd) (hd_cd hd)
      (match value s_boundary (drop_ws (h_value h)) with [] => hd_bound hd | b => b :: hd_bound hd end)
  else if namedb content_transfer_encoding h then mkHd (hd_meta hd) (hd_ct hd) (line_of h) (hd_cd hd) (hd_bound hd)
  else if namedb content_disposition h then mkHd (hd_meta hd) (hd_ct hd) (hd_cte hd) (line_of h) (hd_bound hd)
  else hd.
Proof.
  intros H. unfold handleHeaderLine.
  change (ci_prefix [115;117;98;106;101;99;116;58] (line_of h)) with (ci_prefix (field_name FSubject ++ [58]) (line_of h)). rewrite (ci_namedb (field_name FSubject) h) by (assumption || no58).
  change (ci_prefix [116;111;58] (line_of h)) with (ci_prefix (field_name FTo ++ [58]) (line_of h)). rewrite (ci_namedb (field_name FTo) h) by (assumption || no58).
  change (ci_prefix [102;114;111;109;58] (line_of h)) with (ci_prefix (field_name FFrom ++ [58]) (line_of h)). rewrite (ci_namedb (field_name FFrom) h) by (assumption || no58).
  change (ci_prefix [99;99;58] (line_of h)) with (ci_prefix (field_name FCc ++ [58]) (line_of h)). rewrite (ci_namedb (field_name FCc) h) by (assumption || no58).
  change (ci_prefix [98;99;99;58] (line_of h)) with (ci_prefix (field_name FBcc ++ [58]) (line_of h)). rewrite (ci_namedb (field_name FBcc) h) by (assumption || no58).
  change (ci_prefix [109;101;115;115;97;103;101;45;105;100;58] (line_of h)) with (ci_prefix (field_name FMessageId ++ [58]) (line_of h)). rewrite (ci_namedb (field_name FMessageId) h) by (assumption || no58).
  change (ci_prefix [105;110;45;114;101;112;108;121;45;116;111;58] (line_of h)) with (ci_prefix (field_name FInReplyTo ++ [58]) (line_of h)). rewrite (ci_namedb (field_name FInReplyTo) h) by (assumption || no58).
  change (ci_prefix [114;101;102;101;114;101;110;99;101;115;58] (line_of h)) with (ci_prefix (field_name FReferences ++ [58]) (line_of h)). rewrite (ci_namedb (field_name FReferences) h) by (assumption || no58).
  change (ci_prefix [99;111;110;116;101;110;116;45;116;121;112;101;58] (line_of h)) with (ci_prefix (content_type ++ [58]) (line_of h)). rewrite (ci_namedb (content_type) h) by (assumption || no58).
  change (ci_prefix [99;111;110;116;101;110;116;45;116;114;97;110;115;102;101;114;45;101;110;99;111;100;105;110;103;58] (line_of h)) with (ci_prefix (content_transfer_encoding ++ [58]) (line_of h)). rewrite (ci_namedb (content_transfer_encoding) h) by (assumption || no58).
  change (ci_prefix [99;111;110;116;101;110;116;45;100;105;115;112;111;115;105;116;105;111;110;58] (line_of h)) with (ci_prefix (content_disposition ++ [58]) (line_of h)). rewrite (ci_namedb (content_disposition) h) by (assumption || no58).
  destruct (zlen (line_of h) <? 8); [reflexivity|].
  repeat match goal with |- (if namedb ?n h then _ else _) = _ => destruct (namedb n h) eqn:?; [try (erewrite rest_named by (first [eassumption|reflexivity]); reflexivity); try reflexivity|] end.
  all: try reflexivity.
  rewrite (rest_named content_type h 13) by (assumption || reflexivity). destruct (value s_boundary (drop_ws (h_value h))); reflexivity.
Qed.
Lemma named_len n h : named n h -> zlen (line_of h) = zlen n + 1 + zlen (h_value h).
Proof. intros H. unfold line_of. rewrite zlen_app, zlen_cons, <- H. unfold zlen. rewrite map_length. lia. Qed.
Lemma namedb_other n m h : namedb n h = true -> n <> m -> namedb m h = false.
Proof. intros H N. destruct (namedb m h) eqn:E; [|reflexivity]. apply namedb_iff in H, E. unfold named in *. congruence. Qed.

(** what headers do *)
Definition apply_headers (hd : headers) (hs : list header) : headers := fold_left (fun hd h => handleHeaderLine hd (line_of h)) hs hd.
Lemma last_named_app n a b : last_named n (a ++ b) = match last_named n b with Some s => Some s | None => last_named n a end.
Proof.
  unfold last_named. rewrite filter_app, map_app, rev_app_distr. destruct (rev (map h_value (filter (namedb n) b))) as [|x r]; reflexivity.
Qed.
Lemma last_named_one n h : last_named n [h] = if namedb n h then Some (h_value h) else None.
Proof. unfold last_named. cbn [filter]. destruct (namedb n h); reflexivity. Qed.
Lemma apply_snoc hd hs h : apply_headers hd (hs ++ [h]) = handleHeaderLine (apply_headers hd hs) (line_of h).
Proof. unfold apply_headers. rewrite fold_left_app. reflexivity. Qed.
Ltac hcases h := repeat match goal with |- context [if namedb ?n h then _ else _] => destruct (namedb n h) eqn:?; cbn [set_meta hd_meta hd_ct hd_cte hd_cd hd_bound] end.
Ltac hclash := exfalso; match goal with H : namedb ?n ?h = true, H' : namedb ?m ?h = true |- _ => let X := fresh in assert (namedb m h = false) as X by (apply (namedb_other n m h H); discriminate); congruence end.
Section Effects.
Variable hd : headers.
Lemma eff_ct hs : Forall (fun h => ~ In 58 (h_name h)) hs -> hd_ct (apply_headers hd hs) = match last_named content_type hs with Some s => drop_ws s | None => hd_ct hd end.
Proof.
  induction hs as [|h hs IH] using rev_ind; intros H; [reflexivity|]. apply Forall_app in H. destruct H as (H1 & H2). specialize (IH H1). inversion H2 as [|? ? H58 _]; subst.
  rewrite apply_snoc, last_named_app, last_named_one, (hh_eq _ h H58).
  destruct (Z.ltb_spec (zlen (line_of h)) 8) as [L|L].
  - destruct (namedb content_type h) eqn:E; [|exact IH]. apply namedb_iff, named_len in E. pose proof (zlen_nonneg (h_value h)). rewrite E in L. change (zlen content_type) with 12 in L. lia.
  - hcases h; first [hclash|exact IH|reflexivity].
Qed.
Lemma eff_cte hs : Forall (fun h => ~ In 58 (h_name h)) hs ->
  match last_named content_transfer_encoding hs with
  | Some s => exists nm, map low nm = content_transfer_encoding /\ hd_cte (apply_headers hd hs) = nm ++ 58 :: s
  | None => hd_cte (apply_headers hd hs) = hd_cte hd end.
Proof.
  induction hs as [|h hs IH] using rev_ind; intros H; [reflexivity|]. apply Forall_app in H. destruct H as (H1 & H2). specialize (IH H1). inversion H2 as [|? ? H58 _]; subst.
  rewrite apply_snoc, last_named_app, last_named_one, (hh_eq _ h H58).
  destruct (Z.ltb_spec (zlen (line_of h)) 8) as [L|L].
  - destruct (namedb content_transfer_encoding h) eqn:E; [|exact IH]. apply namedb_iff, named_len in E. pose proof (zlen_nonneg (h_value h)). rewrite E in L. change (zlen content_transfer_encoding) with 25 in L. lia.
  - hcases h; first [hclash|exact IH|eexists; split; [apply namedb_iff; eassumption|reflexivity]].
Qed.
Lemma eff_cd hs : Forall (fun h => ~ In 58 (h_name h)) hs ->
  match last_named content_disposition hs with
  | Some s => exists nm, map low nm = content_disposition /\ hd_cd (apply_headers hd hs) = nm ++ 58 :: s
  | None => hd_cd (apply_headers hd hs) = hd_cd hd end.
Proof.
  induction hs as [|h hs IH] using rev_ind; intros H; [reflexivity|]. apply Forall_app in H. destruct H as (H1 & H2). specialize (IH H1). inversion H2 as [|? ? H58 _]; subst.
  rewrite apply_snoc, last_named_app, last_named_one, (hh_eq _ h H58).
  destruct (Z.ltb_spec (zlen (line_of h)) 8) as [L|L].
  - destruct (namedb content_disposition h) eqn:E; [|exact IH]. apply namedb_iff, named_len in E. pose proof (zlen_nonneg (h_value h)). rewrite E in L. change (zlen content_disposition) with 19 in L. lia.
  - hcases h; first [hclash|exact IH|eexists; split; [apply namedb_iff; eassumption|reflexivity]].
Qed.
Lemma eff_bound_other hs : Forall (fun h => ~ In 58 (h_name h)) hs -> (forall h, In h hs -> ~ named content_type h) -> hd_bound (apply_headers hd hs) = hd_bound hd.
Proof.
  induction hs as [|h hs IH] using rev_ind; intros H Hn; [reflexivity|]. apply Forall_app in H. destruct H as (H1 & H2). specialize (IH H1). inversion H2 as [|? ? H58 _]; subst.
  specialize (IH ltac:(intros; apply Hn, in_or_app; left; assumption)).
  rewrite apply_snoc, (hh_eq _ h H58). destruct (zlen (line_of h) <? 8); [exact IH|]. hcases h; try exact IH.
  exfalso. apply (Hn h); [apply in_or_app; right; left; reflexivity|apply namedb_iff; assumption].
Qed.
Lemma kw_boundary : keyword k_boundary. Proof. do 2 eexists; split; [reflexivity|lia]. Qed.
Lemma eff_bound_leaf hs : Forall (fun h => ~ In 58 (h_name h)) hs -> leaf_headers hs -> hd_bound (apply_headers hd hs) = hd_bound hd.
Proof.
  induction hs as [|h hs IH] using rev_ind; intros H Hn; [reflexivity|]. apply Forall_app in H. destruct H as (H1 & H2). specialize (IH H1). inversion H2 as [|? ? H58 _]; subst.
  specialize (IH ltac:(intros x Hx; apply Hn, in_or_app; left; assumption)).
  rewrite apply_snoc, (hh_eq _ h H58). destruct (zlen (line_of h) <? 8); [exact IH|]. hcases h; try exact IH.
  assert (value s_boundary (drop_ws (h_value h)) = []) as E; [|rewrite E; exact IH].
  apply value_absent, absent_drop_ws; [exact kw_boundary|]. apply Hn; [apply in_or_app; right; left; reflexivity|apply namedb_iff; assumption].
Qed.
Lemma eff_meta f hs : Forall (fun h => ~ In 58 (h_name h)) hs -> (forall h, In h hs -> named (field_name f) h -> 8 <= zlen (line_of h)) ->
  hd_meta (apply_headers hd hs) f = match last_named (field_name f) hs with Some s => drop_ws s | None => hd_meta hd f end.
Proof.
  induction hs as [|h hs IH] using rev_ind; intros H Hn; [reflexivity|]. apply Forall_app in H. destruct H as (H1 & H2). specialize (IH H1). inversion H2 as [|? ? H58 _]; subst.
  specialize (IH ltac:(intros; apply Hn; [apply in_or_app; left|]; assumption)).
  rewrite apply_snoc, last_named_app, last_named_one, (hh_eq _ h H58). destruct (Z.ltb_spec (zlen (line_of h)) 8) as [L|L].
  - destruct (namedb (field_name f) h) eqn:E; [|exact IH]. apply namedb_iff in E. apply Hn in E; [lia|apply in_or_app; right; left; reflexivity].
  - destruct f; hcases h; cbn [field_eqb]; first [hclash|exact IH|reflexivity].
Qed.
End Effects.
Lemma eff_bound_multi hd hs b : Forall (fun h => ~ In 58 (h_name h)) hs -> multipart_headers hs b -> hd_bound (apply_headers hd hs) = b :: hd_bound hd.
Proof.
  intros H (hs1 & h & hs2 & -> & Hn & Hp & Ho). apply Forall_app in H. destruct H as (H1 & H). inversion H as [|? ? H58 H2]; subst.
  change (hs1 ++ h :: hs2) with (hs1 ++ [h] ++ hs2). unfold apply_headers. rewrite !fold_left_app. cbn [fold_left]. fold (apply_headers hd hs1).
  match goal with |- hd_bound (fold_left _ hs2 ?x) = _ => fold (apply_headers x hs2) end.
  rewrite eff_bound_other; [|exact H2|intros h' Hh'; apply Ho, in_or_app; right; exact Hh'].
  assert (hd_bound (apply_headers hd hs1) = hd_bound hd) as E1 by (apply eff_bound_other; [exact H1|intros h' Hh'; apply Ho, in_or_app; left; exact Hh']).
  assert (value s_boundary (drop_ws (h_value h)) = b) as Ev by (apply value_param, param_drop_ws; [exact kw_boundary|exact Hp]).
  assert (b <> []) as Hb by (destruct Hp as (? & ? & ? & _ & _ & Hb & _); exact Hb).
  rewrite (hh_eq _ h H58). assert (8 <= zlen (line_of h)) as L by (rewrite (named_len _ _ Hn); change (zlen content_type) with 12; pose proof (zlen_nonneg (h_value h)); lia).
  destruct (Z.ltb_spec (zlen (line_of h)) 8); [lia|]. apply namedb_iff in Hn.
  hcases h; first [hclash|congruence|idtac]. rewrite Ev. destruct b; [congruence|]. rewrite E1. reflexivity.
Qed.
(** the keywords looked for do not occur in the names of the headers *)
Lemma in_named nm n v k : map low nm = n -> keyword k -> ~ In 58 k -> absent k n -> forall d, occurs_ci k (nm ++ 58 :: v) d -> zlen nm + 1 <= d.
Proof.
  intros Hn Hk Hk58 Ha d Hd. destruct (Z_lt_le_dec d (zlen nm + 1)) as [L|L]; [exfalso|exact L].
  destruct Hd as (D0 & D1 & D2). assert (zlen nm = zlen n) as Ln by (rewrite <- Hn; unfold zlen; rewrite map_length; reflexivity).
  destruct (Z_le_gt_dec (d + zlen k) (zlen nm)) as [Le|Gt].
  - apply (Ha d). split; [exact D0|]. split; [lia|]. pose proof (zlen_nonneg k). rewrite slice_app_l in D2 by lia. transitivity (map low (slice nm d (zlen k))); [|exact D2]. clear D2. rewrite <- Hn.
    unfold slice. rewrite skipn_map, firstn_map. rewrite map_map. apply map_ext_in. intros x Hx.
    assert (forall y, low (low y) = low y) as LL. { intros y. unfold low. destruct (Z.leb_spec 65 y), (Z.leb_spec y 90); cbn [andb]; destruct (Z.leb_spec 65 y), (Z.leb_spec y 90); cbn [andb]; try lia; destruct (Z.leb_spec 65 (y + 32)), (Z.leb_spec (y + 32) 90); cbn [andb]; lia. }
    apply LL.
  - apply Hk58. rewrite <- D2. replace 58 with (low 58) by reflexivity. apply in_map.
    assert (zget (slice (nm ++ 58 :: v) d (zlen k)) (zlen nm - d) = Some 58) as E.
    { rewrite zget_slice by lia. destruct (Z.leb_spec 0 (zlen nm - d)), (Z.ltb_spec (zlen nm - d) (zlen k)); try lia; cbn [andb].
      replace (d + (zlen nm - d)) with (zlen nm) by lia. rewrite zget_app. destruct (Z.ltb_spec (zlen nm) (zlen nm)); [lia|]. rewrite Z.sub_diag. reflexivity. }
    unfold zget in E. destruct (zlen nm - d <? 0); [discriminate|]. apply nth_error_In in E. exact E.
Qed.

Lemma absent_named nm n v k : map low nm = n -> keyword k -> ~ In 58 k -> absent k n -> absent k v -> absent k (nm ++ 58 :: v).
Proof.
  intros Hn Hk H58 Ha Hv d Hd. pose proof (in_named nm n v k Hn Hk H58 Ha d Hd) as L. apply (Hv (d - (zlen nm + 1))).
  destruct Hd as (D0 & D1 & D2). rewrite zlen_app, zlen_cons in D1. split; [lia|]. split; [lia|]. rewrite <- D2 at 2. f_equal.
  change (58 :: v) with ([58] ++ v). rewrite app_assoc. rewrite slice_app_r by (rewrite zlen_app; change (zlen [58]) with 1; lia). f_equal. rewrite zlen_app. change (zlen [58]) with 1. lia.
Qed.
Lemma param_named nm n w v k : map low nm = n -> keyword k -> ~ In 58 k -> absent k n -> ~ In 0 nm -> has_param k v w -> has_param k v (nm ++ 58 :: w).
Proof.
  intros Hn Hk H58 Ha H0n (pre & nm' & post & Hnm & Hpost & Hv & Hsemi & H0 & Hs & Hf).
  exists (nm ++ 58 :: pre), nm', post. split; [exact Hnm|]. split; [exact Hpost|]. split; [exact Hv|]. split; [exact Hsemi|]. split.
  - intros X. apply in_app_or in X. destruct X as [X|[X|X]]; [exact (H0n X)|discriminate X|exact (H0 X)].
  - split.
    + destruct Hs as [Hs|(Hs & Hq)]; [left|right; split; [|exact Hq]]; rewrite Hs at 1; rewrite <- app_assoc; reflexivity.
    + intros d Hd Hocc. pose proof (in_named nm n w k Hn Hk H58 Ha d Hocc) as L. apply (Hf (d - (zlen nm + 1))).
      * rewrite zlen_app, zlen_cons in Hd. lia.
      * destruct Hocc as (D0 & D1 & D2). rewrite zlen_app, zlen_cons in D1. split; [lia|]. split; [lia|]. transitivity (map low (slice (nm ++ 58 :: w) d (zlen k))); [|exact D2]. f_equal.
        change (58 :: w) with ([58] ++ w). rewrite app_assoc. rewrite slice_app_r by (rewrite zlen_app; change (zlen [58]) with 1; lia). f_equal. rewrite zlen_app. change (zlen [58]) with 1. lia.
Qed.
