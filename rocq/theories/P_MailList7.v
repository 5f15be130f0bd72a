From Verif Require Import Base StreamSpec P_Stream KmpSpec SegSpec M_Ar M_Mail M_Reader P_Reader2 M_Sub M_Kmp P_Kmp M_Buffered BufferedSpec M_Base64 B64Spec M_StringTerm P_StringTerm ArchiveSpec M_MailList MailPartsSpec P_MailList1 P_MailList2 P_MailList3 P_MailList4 P_MailList5 P_MailList6.

Lemma strncmp_line b : forall x, ~ In 0 b -> strncmp_eq x b (length b) = true <-> exists r, x = b ++ r.
Proof.
  induction b as [|c b IH]; intros x H; cbn [length strncmp_eq].
  - split; [intros _; exists x; reflexivity|reflexivity].
  - cbn [hd tl]. assert (c <> 0) as Nc by (intros ->; apply H; left; reflexivity). assert (~ In 0 b) as Hb by (intros C; apply H; right; exact C). destruct x as [|d x]; cbn [hd tl].
    + destruct (Z.eqb_spec 0 c); [congruence|]. split; [discriminate|]. intros (r & C). discriminate.
    + destruct (Z.eqb_spec d c) as [->|NE].
      * destruct (Z.eqb_spec c 0); [congruence|]. rewrite (IH x Hb). split; intros (r & E); exists r; [rewrite E; reflexivity|cbn in E; congruence].
      * split; [discriminate|]. intros (r & E). cbn in E. congruence.
Qed.
Lemma folded_plain nl l : ~ In 13 l -> ~ In 10 l -> folded nl l.
Proof.
  induction l as [|c l IH]; intros H1 H2; constructor.
  - intros ->. apply H1. left. reflexivity.
  - intros ->. apply H2. left. reflexivity.
  - apply IH; intros X; [apply H1|apply H2]; right; exact X.
Qed.
Lemma folded_app nl a b : ~ In 13 a -> ~ In 10 a -> folded nl b -> folded nl (a ++ b).
Proof.
  induction a as [|c a IH]; intros H1 H2 Hb; cbn [app]; [exact Hb|]. constructor.
  - intros ->. apply H1. left. reflexivity.
  - intros ->. apply H2. left. reflexivity.
  - apply IH; [intros X; apply H1; right; exact X|intros X; apply H2; right; exact X|exact Hb].
Qed.
Lemma header_line nl maxl h : header_ok nl maxl h -> folded nl (line_of h) /\ (forall c, hd_error (line_of h) = Some c -> c <> 13 /\ c <> 10) /\ line_of h <> [] /\ zlen (line_of h) + zlen nl < maxl /\
  checkHeaderLine (line_of h) = true /\ exists c r, line_of h = c :: r /\ ~ white c.
Proof.
  intros ((c & r & Ec & Hc) & H13 & H10 & H58 & Hf & Hl). unfold line_of. split; [|split; [|split; [|split; [|split]]]].
  - apply folded_app; [exact H13|exact H10|]. constructor; [discriminate|discriminate|exact Hf].
  - rewrite Ec. cbn [app hd_error]. intros x E. injection E as <-. unfold white in Hc. lia.
  - rewrite Ec. discriminate.
  - rewrite zlen_app, zlen_cons. lia.
  - rewrite Ec. cbn [app checkHeaderLine]. rewrite (existsb_app (Z.eqb 58) (c :: r) (58 :: h_value h) : existsb (Z.eqb 58) (c :: r ++ 58 :: h_value h) = _). cbn [existsb]. change (58 =? 58) with true. cbn [orb]. rewrite !orb_true_r. reflexivity.
  - rewrite Ec. cbn [app]. eauto.
Qed.
Lemma delim_line maxl b : boundary_ok maxl b -> (~ In 13 (delimiter b) /\ ~ In 10 (delimiter b)) /\ (~ In 13 (close_delimiter b) /\ ~ In 10 (close_delimiter b)).
Proof.
  intros (_ & _ & H13 & H10 & _). unfold delimiter, close_delimiter. split; split; intros [X|[X|X]]; try discriminate X; try tauto.
  - apply in_app_or in X. destruct X as [X|[X|[X|[]]]]; [tauto|discriminate X|discriminate X].
  - apply in_app_or in X. destruct X as [X|[X|[X|[]]]]; [tauto|discriminate X|discriminate X].
Qed.
Lemma unfolded_headers nl maxl hs t : newline nl -> Forall (header_ok nl maxl) hs -> unfolded nl (headers_text nl hs ++ nl ++ t).
Proof.
  intros Hnl H. destruct hs as [|h hs].
  - cbn. destruct Hnl as [-> | ->]; cbn; eexists _, _; (split; [reflexivity|]); right; reflexivity.
  - inversion H as [|? ? H1 _]; subst. destruct H1 as ((c & r & Ec & Hc) & _). unfold headers_text. cbn [map concat]. unfold header_text. rewrite Ec. cbn [app]. eexists _, _; split; [reflexivity|]. left. exact Hc.
Qed.
Lemma parts_nonempty nl maxl bs t ps : newline nl -> parts nl maxl bs t ps -> bs <> [] -> t <> [].
Proof.
  intros Hnl H Hb. destruct H; try discriminate; try congruence.
  intros E. apply app_eq_nil in E. destruct E as (_ & E). apply app_eq_nil in E. destruct E as (E & _). destruct Hnl as [-> | ->]; discriminate.
Qed.

Section Scan.
Context {P : Type}.
Variables (par : ops P Z) (full : list Z) (lim : Z) (R : P -> view -> Prop).
Hypothesis HS : sim par full False lim R.
Hypothesis HB : bytes full.
Hypothesis HL : zlen full <= INT32_MAX.
Variables (nl : list Z) (maxl : Z) (fuel : nat).
Hypothesis Hnl : newline nl.
Hypothesis Hm : 16 <= maxl.
Hypothesis Hmi : maxl <= 2 ^ 29 - 258.
Hypothesis Hlim : maxl <= lim.
Hypothesis Hfuel : zlen full + 1 < Z.of_nat fuel.

Notation from := (from full).
Definition ready (m : ml P) (t : list Z) : Prop := 0 <= l_next m /\ from (l_next m) = t /\ at_ R (l_in m) (l_next m).

Lemma from_app next a t : 0 <= next -> from next = a ++ t -> from (next + zlen a) = t.
Proof.
  intros Hn E. unfold P_MailList5.from in *. replace (Z.to_nat (next + zlen a)) with (length a + Z.to_nat next)%nat by (unfold zlen; lia).
  rewrite <- skipn_skipn', E. apply skipn_app_exact.
Qed.
Lemma from_slice next a t : 0 <= next -> from next = a ++ t -> slice full next (zlen a) = a.
Proof. intros Hn E. unfold slice. unfold P_MailList5.from in E. rewrite E. unfold zlen. rewrite Nat2Z.id. apply firstn_app_exact. Qed.
Lemma from_len next t : 0 <= next -> from next = t -> t <> [] -> next + zlen t = zlen full.
Proof. intros Hn <- Hne. unfold P_MailList5.from, zlen in *. destruct (Nat.le_gt_cases (length full) (Z.to_nat next)) as [L|L]; [exfalso; apply Hne, skipn_all2; exact L|]. rewrite skipn_length. lia. Qed.

Lemma line_ok m l t : ready m (l ++ nl ++ t) -> folded nl l -> (forall c, hd_error l = Some c -> c <> 13 /\ c <> 10) ->
  (l = [] /\ nl = [13;10] /\ t <> [] \/ unfolded nl t) -> zlen l + zlen nl < maxl ->
  exists p', l_line par maxl fuel m = Ret (mkMl p' (l_next m + zlen l + zlen nl) (l_hd m) (l_st m), HLine l (l_next m + zlen l + zlen nl)) /\
    ready (mkMl p' (l_next m + zlen l + zlen nl) (l_hd m) (l_st m)) t /\ exists v', R p' v' /\ v_pos v' = l_next m.
Proof.
  intros (Hn & Hf & Ha) H1 H2 H3 H4. pose proof (scan_line nl l t Hnl H1 H2 H3) as Hs. unfold l_line. rewrite <- Hf in Hs.
  assert (2 ^ 29 - 258 <= INT32_MAX) as Hc by (unfold INT32_MAX; lia).
  destruct (readHeaderLine_line par full lim R HS maxl fuel ltac:(lia) Hlim _ _ (l_next m) (l_in m) Hn H4 Ha Hs ltac:(lia)) as (p' & v' & E & HR & P1 & L1 & H5).
  rewrite E; cbn [bind]. rewrite Z.add_assoc. rewrite (from_slice _ _ _ Hn Hf). exists p'. split; [reflexivity|]. pose proof (zlen_nonneg l). pose proof (nl_len nl Hnl).
  split; [|exists v'; split; [exact HR|exact P1]].
  split; [cbn [l_next]; lia|]. split.
  - cbn [l_next]. rewrite <- Z.add_assoc, <- zlen_app. apply from_app; [exact Hn|]. rewrite <- app_assoc. exact Hf.
  - cbn [l_next l_in]. exists v'. split; [exact HR|]. lia.
Qed.

Lemma partHeader_ok t : blank_ok nl t -> t <> [] -> forall hs m f, ready m (headers_text nl hs ++ nl ++ t) -> l_st m = Ok -> Forall (header_ok nl maxl) hs -> zlen (headers_text nl hs) < Z.of_nat f ->
  exists m', partHeader par maxl fuel f m = Ret m' /\ ready m' t /\ l_st m' = Ok /\ l_hd m' = apply_headers (l_hd m) hs.
Proof.
  intros Hb Ht. induction hs as [|h hs IH]; intros m f Hr Hst Hh Hf.
  - destruct f as [|f]; [pose proof (zlen_nonneg (headers_text nl [])); lia|]. cbn [partHeader]. unfold headers_text in Hr. cbn [map concat app] in Hr.
    destruct (line_ok m [] t Hr) as (p' & E & Hr' & Hend); [constructor|discriminate| |change (zlen (@nil Z)) with 0; pose proof (nl_len nl Hnl); lia|].
    { destruct Hb as [Hb|Hb]; [left; auto|right; exact Hb]. }
    rewrite E; cbn [bind l_st]. rewrite Hst. cbn [checkHeaderLine]. eexists; split; [reflexivity|]. rewrite Hst in Hr'. split; [exact Hr'|]. split; reflexivity.
  - inversion Hh as [|? ? Hh1 Hh2]; subst. assert (Hh1' := Hh1). apply header_line in Hh1'. destruct Hh1' as (F1 & F2 & F3 & F4 & F5 & F6).
    assert (headers_text nl (h :: hs) = line_of h ++ nl ++ headers_text nl hs) as Eh.
    { unfold headers_text. cbn [map concat]. unfold header_text, line_of. rewrite <- !app_assoc. cbn [app]. rewrite <- !app_assoc. reflexivity. }
    rewrite Eh in Hr, Hf. rewrite !zlen_app in Hf. destruct f as [|f]; [pose proof (zlen_nonneg (line_of h)); pose proof (zlen_nonneg nl); pose proof (zlen_nonneg (headers_text nl hs)); lia|]. cbn [partHeader].
    rewrite <- !app_assoc in Hr.
    destruct (line_ok m _ _ Hr) as (p' & E & Hr' & _); [assumption|assumption|right; eapply unfolded_headers; eassumption|assumption|].
    rewrite E; cbn [bind l_st]. rewrite Hst, F5. cbn [l_in l_next l_hd].
    match type of Hr' with ready ?m0 _ => destruct (IH (mkMl (l_in m0) (l_next m0) (handleHeaderLine (l_hd m) (line_of h)) Ok) f) as (m' & E' & R' & S' & D') end.
    { rewrite Hst in Hr'. exact Hr'. } { reflexivity. } { exact Hh2. } { pose proof (nl_len nl Hnl). pose proof (zlen_nonneg (line_of h)). lia. }
    cbn [l_in l_next] in E'. exists m'. split; [exact E'|]. split; [exact R'|]. split; [exact S'|]. rewrite D'. reflexivity.
Qed.
Lemma readHeader_ok t : blank_ok nl t -> t <> [] -> forall hs m f, ready m (headers_text nl hs ++ nl ++ t) -> l_st m = Ok -> Forall (header_ok nl maxl) hs -> zlen (headers_text nl hs) < Z.of_nat f ->
  exists m', readHeader par maxl fuel f m = Ret m' /\ ready m' t /\ l_st m' = Ok /\ l_hd m' = apply_headers (l_hd m) hs /\ exists v', R (l_in m') v' /\ v_pos v' = l_next m' - zlen nl.
Proof.
  intros Hb Ht. induction hs as [|h hs IH]; intros m f Hr Hst Hh Hf.
  - destruct f as [|f]; [pose proof (zlen_nonneg (headers_text nl [])); lia|]. cbn [readHeader]. unfold headers_text in Hr. cbn [map concat app] in Hr.
    destruct (line_ok m [] t Hr) as (p' & E & Hr' & Hend); [constructor|discriminate| |change (zlen (@nil Z)) with 0; pose proof (nl_len nl Hnl); lia|].
    { destruct Hb as [Hb|Hb]; [left; auto|right; exact Hb]. }
    rewrite E; cbn [bind l_st]. eexists; split; [reflexivity|]. split; [exact Hr'|]. split; [exact Hst|]. split; [reflexivity|]. destruct Hend as (v' & Hv' & Pv'). exists v'. cbn [l_in l_next]. split; [exact Hv'|]. change (zlen (@nil Z)) with 0. lia.
  - inversion Hh as [|? ? Hh1 Hh2]; subst. assert (Hh1' := Hh1). apply header_line in Hh1'. destruct Hh1' as (F1 & F2 & F3 & F4 & F5 & F6).
    assert (headers_text nl (h :: hs) = line_of h ++ nl ++ headers_text nl hs) as Eh.
    { unfold headers_text. cbn [map concat]. unfold header_text, line_of. rewrite <- !app_assoc. cbn [app]. rewrite <- !app_assoc. reflexivity. }
    rewrite Eh in Hr, Hf. rewrite !zlen_app in Hf. destruct f as [|f]; [pose proof (zlen_nonneg (line_of h)); pose proof (zlen_nonneg nl); pose proof (zlen_nonneg (headers_text nl hs)); lia|]. cbn [readHeader].
    rewrite <- !app_assoc in Hr.
    destruct (line_ok m _ _ Hr) as (p' & E & Hr' & _); [assumption|assumption|right; eapply unfolded_headers; eassumption|assumption|].
    rewrite E; cbn [bind l_st]. cbn [l_in l_next l_hd].
    match type of Hr' with ready ?m0 _ => destruct (IH (mkMl (l_in m0) (l_next m0) (handleHeaderLine (l_hd m) (line_of h)) (l_st m)) f) as (m' & E' & R' & S' & D' & V') end.
    { exact Hr'. } { exact Hst. } { exact Hh2. } { pose proof (nl_len nl Hnl). pose proof (zlen_nonneg (line_of h)). lia. }
    cbn [l_in l_next] in E'. exists m'. split; [|split; [exact R'|]; split; [exact S'|]; split; [rewrite D'; reflexivity|exact V']].
    destruct F6 as (c & r & Ec & _). rewrite Ec in *. exact E'.
Qed.

(** the stream of a part, freshly made *)
Definition opened (b body t : list Z) (s : sts P) : Prop :=
  exists key off, pctx full lim (delimiter b) key off (zlen body + zlen nl) /\ tinv full R key off (zlen body + zlen nl) true s view0 /\
    cont full off (zlen body + zlen nl) = body ++ nl /\ from (off + (zlen body + zlen nl)) = t.

Lemma handle_leaf m b bs hs body t r : ready m (headers_text nl hs ++ nl ++ body ++ nl ++ t) -> l_st m = Ok -> hd_bound (l_hd m) = b :: bs -> boundary_ok maxl b ->
  Forall (header_ok nl maxl) hs -> leaf_headers hs -> t = delimiter b ++ r -> (forall d, 0 <= d < zlen body + zlen nl -> ~ occurs_at (delimiter b) (body ++ nl ++ t) d) ->
  blank_ok nl (body ++ nl ++ t) -> short_start nl maxl (body ++ nl ++ t) ->
  exists m' s, handleBodyLine par maxl fuel m = Ret (m', Some (if encoded (apply_headers (cleared (l_hd m)) hs) then CB64 (bs_new (b64_new s)) else CPart s, the_name (apply_headers (cleared (l_hd m)) hs))) /\
    l_st m' = Ok /\ hd_bound (l_hd m') = b :: bs /\ opened b body t s.
Proof.
  intros Hr Hst Hbd Hbo Hh Hlf Ht Hno Hbl Hsh. unfold handleBodyLine.
  assert (ready (mkMl (l_in m) (l_next m) (cleared (l_hd m)) (l_st m)) (headers_text nl hs ++ nl ++ body ++ nl ++ t)) as Hr0 by exact Hr.
  assert (body ++ nl ++ t <> []) as Hne. { destruct body; [|discriminate]. destruct Hnl as [-> | ->]; discriminate. }
  destruct Hr as (Hn & Hf & Ha). assert (l_next m + zlen (headers_text nl hs ++ nl ++ body ++ nl ++ t) = zlen full) as Hlen.
  { apply from_len; [exact Hn|exact Hf|]. rewrite app_assoc. intros X. apply app_eq_nil in X. tauto. }
  rewrite !zlen_app in Hlen. pose proof (nl_len nl Hnl) as Lnl. pose proof (zlen_nonneg body). pose proof (zlen_nonneg t). pose proof (zlen_nonneg (headers_text nl hs)).
  destruct (partHeader_ok _ Hbl Hne hs _ fuel Hr0 Hst Hh ltac:(lia)) as (m1 & E1 & R1 & S1 & D1). cbn [l_hd] in D1. fold (cleared (l_hd m)). rewrite E1; cbn [bind].
  assert (hd_bound (l_hd m1) = b :: bs) as B1. { rewrite D1, eff_bound_leaf; [exact Hbd|eapply hok58; exact Hh|exact Hlf]. }
  rewrite B1, Hbd. rewrite Nat.ltb_irrefl.
  destruct R1 as (Hn1 & Hf1 & Ha1). destruct (scan_short nl maxl _ Hnl Hsh) as (e & k & Hsc & Hk). rewrite <- Hf1 in Hsc.
  assert (2 ^ 29 - 258 <= INT32_MAX) as Hc by (unfold INT32_MAX; lia).
  destruct (readHeaderLine_line par full lim R HS maxl fuel ltac:(lia) Hlim _ _ (l_next m1) (l_in m1) Hn1 Hk Ha1 Hsc ltac:(lia)) as (p' & v' & E2 & HR2 & P2 & L2 & H2).
  unfold l_line. rewrite E2; cbn [bind l_st l_in l_hd]. rewrite S1. cbv zeta iota. fold (delimiter b).
  assert (l_next m1 + zlen (body ++ nl ++ t) = zlen full) as Hlen1 by (apply from_len; assumption). rewrite !zlen_app in Hlen1.
  assert (zlen t = zlen (delimiter b) + zlen r) as Lt by (rewrite Ht, zlen_app; reflexivity). pose proof (zlen_nonneg r).
  assert (zlen (delimiter b) = zlen b + 2) as Lb by (unfold delimiter; rewrite !zlen_cons; lia). pose proof (zlen_nonneg b).
  destruct Hbo as (Bne & B0 & B13 & B10 & Btail & Blen).
  assert (bytes (delimiter b)) as Bby.
  { assert (bytes t) as Bt.
    { unfold bytes in *. rewrite Forall_forall in *. intros x Hx. apply HB. rewrite <- (firstn_skipn (Z.to_nat (l_next m1)) full). apply in_or_app. right.
      unfold P_MailList5.from in Hf1. rewrite Hf1. apply in_or_app. right. apply in_or_app. right. exact Hx. }
    unfold bytes in *. rewrite Forall_forall in *. intros x Hx. apply Bt. rewrite Ht. apply in_or_app. left. exact Hx. }
  unfold st_new. destruct (setQuery_ok kmp_null (delimiter b) (or_introl eq_refl)) as (key & Ek & Hkey & Eq); [discriminate|exact Bby|lia|]. rewrite Ek; cbn [bind].
  eexists _, _. split.
  { match goal with |- Ret (?a, Some (?c, ?n)) = _ => assert (c = if encoded (apply_headers (cleared (l_hd m)) hs) then CB64 (bs_new (b64_new (mkSts p' key (o_pos par p') 0 0 (-1) Ok))) else CPart (mkSts p' key (o_pos par p') 0 0 (-1) Ok)) as EC end.
    { unfold encoded. rewrite <- D1. destruct (strcasestr s_base64 (c_str (hd_cte (l_hd m1)))); reflexivity. }
    rewrite EC. do 3 f_equal. unfold the_name. rewrite <- D1. destruct (value s_filename (hd_cd (l_hd m1))); reflexivity. }
  cbn [l_st l_hd]. split; [first [exact S1|reflexivity]|]. split; [exact B1|].
  pose proof (sim_pos _ _ _ _ _ HS _ _ HR2) as Hpos. rewrite Hpos, P2.
  assert (slice full (l_next m1) (zlen body + zlen nl) = body ++ nl) as Hcont. { rewrite <- zlen_app. apply (from_slice _ _ t); [exact Hn1|]. rewrite <- app_assoc. exact Hf1. }
  assert (from (l_next m1 + (zlen body + zlen nl)) = t) as Hft. { rewrite <- zlen_app. apply from_app; [exact Hn1|]. rewrite <- app_assoc. exact Hf1. }
  assert (forall d, l_next m1 <= d -> P_StringTerm.occ full (delimiter b) d -> occurs_at (delimiter b) (body ++ nl ++ t) (d - l_next m1)) as Hocc.
  { intros d Hd (O1 & O2 & O3). split; [lia|]. rewrite !zlen_app. split; [lia|]. rewrite <- Hf1. unfold slice, P_MailList5.from in *. rewrite skipn_skipn'. rewrite <- O3 at 2. f_equal. f_equal. lia. }
  exists key, (l_next m1). split; [|split; [|split; [exact Hcont|exact Hft]]].
  - constructor; try assumption; try lia.
    + intros d Hd Ho. apply Hocc in Ho; [|lia]. revert Ho. apply Hno. lia.
    + split; [lia|]. split; [lia|]. rewrite Ht in Hft. apply (from_slice _ _ r); [lia|exact Hft].
  - unfold tinv. cbn [t_key t_off t_pos t_size t_far t_in t_st view0 v_pos v_lo v_hi]. split; [unfold view_ok, view0; cbn [v_pos v_lo v_hi]; unfold cont; rewrite zlen_slice by lia; lia|].
    split; [reflexivity|]. split; [reflexivity|]. split; [reflexivity|]. split; [left; reflexivity|]. split; [lia|]. split; [lia|]. split; [lia|]. split.
    + exists v'. split; [exact HR2|]. pose proof (sim_view _ _ _ _ _ HS _ _ HR2) as Hok. unfold view_ok in Hok. rewrite Z.add_0_r. split; [lia|]. split; [lia|]. intros _. exact P2.
    + left. split; [reflexivity|lia].
Qed.
Lemma handle_open m b bs hs b' t : ready m (headers_text nl hs ++ nl ++ t) -> l_st m = Ok -> hd_bound (l_hd m) = b :: bs ->
  Forall (header_ok nl maxl) hs -> multipart_headers hs b' -> blank_ok nl t -> t <> [] ->
  exists m', handleBodyLine par maxl fuel m = Ret (m', None) /\ l_st m' = Ok /\ hd_bound (l_hd m') = b' :: b :: bs /\ ready m' t.
Proof.
  intros Hr Hst Hbd Hh Hmp Hbl Hne. unfold handleBodyLine.
  assert (ready (mkMl (l_in m) (l_next m) (cleared (l_hd m)) (l_st m)) (headers_text nl hs ++ nl ++ t)) as Hr0 by exact Hr.
  destruct Hr as (Hn & Hf & Ha). assert (l_next m + zlen (headers_text nl hs ++ nl ++ t) = zlen full) as Hlen.
  { apply from_len; [exact Hn|exact Hf|]. rewrite app_assoc. intros X. apply app_eq_nil in X. tauto. }
  rewrite !zlen_app in Hlen. pose proof (nl_len nl Hnl) as Lnl. pose proof (zlen_nonneg t). pose proof (zlen_nonneg (headers_text nl hs)).
  destruct (partHeader_ok _ Hbl Hne hs _ fuel Hr0 Hst Hh ltac:(lia)) as (m1 & E1 & R1 & S1 & D1). cbn [l_hd] in D1. fold (cleared (l_hd m)). rewrite E1; cbn [bind].
  assert (hd_bound (l_hd m1) = b' :: b :: bs) as B1. { rewrite D1, (eff_bound_multi _ _ b'); [cbn [cleared hd_bound]; rewrite Hbd; reflexivity|eapply hok58; exact Hh|exact Hmp]. }
  rewrite B1, Hbd. cbn [length]. destruct (Nat.ltb_spec (S (length bs)) (S (S (length bs)))) as [_|?]; [|lia].
  exists m1. split; [reflexivity|]. auto.
Qed.
End Scan.
