From Verif Require Import Base StreamSpec P_Stream KmpSpec SegSpec M_Ar M_Mail M_Reader M_Sub M_Kmp P_Kmp M_Buffered BufferedSpec M_Base64 B64Spec P_Base64 P_Base64b M_StringTerm P_StringTerm ArchiveSpec M_MailList MailPartsSpec P_MailList1 P_MailList2 P_MailList3 P_MailList4 P_MailList5 P_MailList6 P_MailList7 P_MailList8.

(** decimal numbers *)
Definition val (s : list Z) : Z := fold_left (fun a c => 10 * a + (c - 48)) s 0.
Lemma fold_val s : forall a, fold_left (fun a c => 10 * a + (c - 48)) s a = 10 ^ zlen s * a + val s.
Proof.
  induction s as [|c s IH]; intros a; cbn [fold_left].
  - unfold val; cbn. change (zlen (@nil Z)) with 0. rewrite Z.pow_0_r. lia.
  - unfold val. cbn [fold_left]. rewrite IH. rewrite (IH (10 * 0 + (c - 48))). rewrite zlen_cons. pose proof (zlen_nonneg s). rewrite Z.pow_add_r by lia. change (10 ^ 1) with 10. ring.
Qed.
Lemma digits_ok f : forall n acc, 1 <= n < 2 ^ Z.of_nat f -> Forall (fun c => 48 <= c <= 57) acc ->
  exists c r, digits f n acc = c :: r /\ c <> 48 /\ Forall (fun c => 48 <= c <= 57) (c :: r) /\ val (c :: r) = n * 10 ^ zlen acc + val acc.
Proof.
  induction f as [|f IH]; intros n acc Hn Ha; cbn [digits].
  - change (2 ^ Z.of_nat 0) with 1 in Hn. lia.
  - pose proof (Z.mod_pos_bound n 10 ltac:(lia)) as Hmod. pose proof (Z.div_mod n 10 ltac:(lia)) as Hdm.
    assert (Forall (fun c => 48 <= c <= 57) ((48 + n mod 10) :: acc)) as Ha' by (constructor; [lia|exact Ha]).
    assert (val ((48 + n mod 10) :: acc) = (n mod 10) * 10 ^ zlen acc + val acc) as Ev.
    { unfold val at 1. cbn [fold_left]. rewrite fold_val. replace (10 * 0 + (48 + n mod 10 - 48)) with (n mod 10) by lia. lia. }
    destruct (Z.ltb_spec n 10) as [L|L].
    + eexists _, _. split; [reflexivity|]. rewrite Z.mod_small in * by lia. split; [lia|]. split; [exact Ha'|exact Ev].
    + destruct (IH (n / 10) ((48 + n mod 10) :: acc)) as (c & r & E & H1 & H2 & H3); [|exact Ha'|].
      { rewrite Nat2Z.inj_succ, Z.pow_succ_r in Hn by lia. split; [apply Z.div_le_lower_bound; lia|]. apply Z.div_lt_upper_bound; lia. }
      exists c, r. split; [exact E|]. split; [exact H1|]. split; [exact H2|]. rewrite H3, Ev, zlen_cons. pose proof (zlen_nonneg acc). rewrite Z.pow_add_r by lia. change (10 ^ 1) with 10.
      rewrite Hdm at 3. ring.
Qed.
Lemma number_decimal n : 1 <= n -> decimal n (number n) /\ number n <> [].
Proof.
  intros Hn. unfold number. destruct (digits_ok (S (Z.to_nat (Z.log2 n))) n []) as (c & r & E & H1 & H2 & H3); [|constructor|].
  { rewrite Nat2Z.inj_succ, Z2Nat.id by apply Z.log2_nonneg. pose proof (Z.log2_spec n ltac:(lia)). lia. }
  rewrite E. split; [|discriminate]. split; [exact H2|]. split; [eauto|]. unfold val in H3. rewrite H3. change (zlen (@nil Z)) with 0. cbn [fold_left]. rewrite Z.pow_0_r. lia.
Qed.
(** line breaks do not count in base64 *)
Lemma decoded_nl body nl : newline nl -> b64decoded (body ++ nl) = b64decoded body.
Proof.
  intros Hnl. rewrite <- (filter_decoded (body ++ nl)), <- (filter_decoded body). rewrite filter_app.
  replace (filter relevant nl) with (@nil Z) by (destruct Hnl as [-> | ->]; reflexivity). rewrite app_nil_r. reflexivity.
Qed.

Section Mail.
Context {P : Type}.
Variables (par : ops P Z) (full : list Z) (lim : Z) (R : P -> view -> Prop).
Hypothesis HS : sim par full False lim R.
Hypothesis HB : bytes full.
Hypothesis HL : zlen full <= INT32_MAX.
Variables (nl : list Z) (maxl : Z) (fuel : nat).
Hypothesis Hnl : newline nl.
Hypothesis Hm : 16 <= maxl.
Hypothesis Hmi : maxl <= 2 ^ 29 - 258.
Hypothesis Hlim : maxl <= lim.
Hypothesis Hfuel : zlen full + 1 < Z.of_nat fuel.
Notation from := (from full).
Notation ready := (ready full R).

(** between two parts *)
Definition minv (k : Z) (ps : list mpart) (a : mail P) : Prop :=
  exists bs t, l_st (a_ml a) = Ok /\ hd_bound (l_hd (a_ml a)) = bs /\ bs <> [] /\ Forall (boundary_ok maxl) bs /\ (i_size (a_info a) = -1 /\ i_mtime (a_info a) = 0) /\ a_num a + 1 = k /\ parts nl maxl bs t ps /\
    (a_cur a = None /\ ready (a_ml a) t \/
     exists c s q key off len v, a_cur a = Some c /\ cur_sub c = Some s /\ pctx full lim q key off len /\ tinv full R key off len true s v /\ from (off + len) = t).

Lemma next_ok k ps a : minv k ps a -> 1 <= k ->
  match ps with
  | [] => exists a', mail_next par maxl fuel a = Ret (a', None) /\ l_st (a_ml a') = Eof
  | p :: ps' => exists a' i, mail_next par maxl fuel a = Ret (a', Some i) /\ l_st (a_ml a') = Ok /\ a_info a' = i /\ a_num a' = k /\
      match p_name p with Some v => i_name i = v | None => decimal k (i_name i) end /\ (i_size i = -1 /\ i_mtime i = 0) /\ i_type i = 2 /\
      exists b bs body t s, a_cur a' = Some (if p_enc p then CB64 (bs_new (b64_new s)) else CPart s) /\ opened full lim R nl b body t s /\
        p_data p = (if p_enc p then b64decoded body else body ++ nl) /\ p_tl p = zlen (delimiter b) /\ hd_bound (l_hd (a_ml a')) = b :: bs /\
        Forall (boundary_ok maxl) (b :: bs) /\ parts nl maxl (b :: bs) t ps'
  end.
Proof.
  intros (bs & t & H1 & H2 & H3 & H4 & H5 & H6 & H7 & H8) Hk. unfold mail_next. rewrite H1, H2. destruct bs as [|b0 bs0]; [congruence|]. set (bs := b0 :: bs0) in *.
  set (rest := match match a_cur a with Some c => cur_sub c | None => None end with None => Ret (a_ml a) | Some _ => _ end).
  assert (exists m, rest = Ret m /\ ready m t /\ l_st m = Ok /\ hd_bound (l_hd m) = bs) as (m & Em & Hr & Hst & Hbd).
  { unfold rest. destruct H8 as [(-> & Hr)|(c & s & q & key & off & len & v & -> & -> & HC & Ht & Hf)].
    - exists (a_ml a). auto.
    - destruct (drain_ok par full lim R HS HB HL q key off len HC fuel s v Ht) as (s' & E & S1 & S2 & S3 & S4).
      { assert (view_ok (cont full off len) v) as Hv by apply Ht. unfold view_ok in Hv. pose proof (pc_offl _ _ _ _ _ _ HC). pose proof (pc_off _ _ _ _ _ _ HC). lia. }
      rewrite E; cbn [bind]. rewrite S1. eexists; split; [reflexivity|]. rewrite S2, S3. pose proof (pc_len _ _ _ _ _ _ HC). pose proof (pc_off _ _ _ _ _ _ HC).
      split; [|split; [reflexivity|exact H2]]. split; [cbn [l_next]; lia|]. split; [exact Hf|exact S4]. }
  rewrite Em; cbn [bind]. clear rest Em. rewrite Hst.
  assert (zlen t < Z.of_nat fuel) as Hlt.
  { destruct Hr as (Hn & Hf & _). rewrite <- Hf. unfold P_MailList5.from, zlen. rewrite skipn_length. unfold zlen in Hfuel. lia. }
  destruct (scan_ok par full lim R HS HB nl maxl fuel Hnl Hm Hmi Hlim Hfuel bs t ps H7 m fuel H3 H4 Hr Hst Hbd Hlt) as (m' & r & E & Hsc).
  rewrite E; cbn [bind]. destruct r as [(c & name)|]; cbn [scanned] in Hsc.
  - destruct Hsc as (b & bs' & body & t' & ps' & s & nm & enc & -> & S1 & S2 & S3 & S4 & S5 & S6 & S7 & S8). cbn [p_name p_enc p_data p_tl].
    do 2 eexists. split; [reflexivity|]. cbn [a_ml a_cur a_num a_info i_name i_size i_type]. split; [exact S1|]. split; [reflexivity|]. split; [exact H6|]. split.
    + rewrite S5. destruct nm as [w|].
      * specialize (S6 w eq_refl). destruct w; [congruence|reflexivity].
      * rewrite H6. apply number_decimal. exact Hk.
    + split; [exact H5|]. split; [reflexivity|]. exists b, bs', body, t', s. rewrite S4. split; [reflexivity|]. split; [exact S7|]. split; [reflexivity|]. split; [reflexivity|]. split; [exact S2|]. split; [exact S3|exact S8].
  - subst ps. eexists. split; [reflexivity|reflexivity].
Qed.
Theorem lists_ok : forall ps k a, minv k ps a -> 1 <= k -> lists_parts (mail_provider par maxl fuel) lim k ps a.
Proof.
  induction ps as [|p ps IH]; intros k a Hi Hk; pose proof (next_ok k _ a Hi Hk) as Hn; cbn beta iota in Hn; cbn [lists_parts].
  - exact Hn.
  - destruct Hn as (a' & i & E & S1 & S2 & S3 & S4 & S5 & S6 & b & bs & body & t & s & C1 & C2 & C3 & C4 & C5 & C6 & C7).
    exists a', i. split; [exact E|]. split; [exact S1|]. split; [exact S4|]. split; [exact S5|]. split; [exact S6|].
    intros h Hh. cbn [mail_provider pv_entry]. unfold mail_entry. rewrite C1.
    destruct C2 as (key & off & PC & Ht & Hcont & Hf). unfold part_call, part_obs in *. destruct (p_enc p).
    + assert (edata full off (zlen body + zlen nl) = p_data p) as Ed by (unfold edata; rewrite Hcont, C3; apply decoded_nl; exact Hnl).
      rewrite <- Ed in *. destruct (b_run par full lim R HS HB HL _ key off _ PC fuel ltac:(lia) s h Ht Hh) as (x & obs & Er & Ac & v' & Ht').
      rewrite Er; cbn [bind]. do 2 eexists; split; [reflexivity|]. split; [exact Ac|]. apply IH; [|lia].
      exists (b :: bs), t. cbn [a_ml a_cur a_num a_info]. rewrite S2, S3. split; [exact S1|]. split; [exact C5|]. split; [discriminate|]. split; [exact C6|]. split; [exact S5|]. split; [reflexivity|]. split; [exact C7|].
      right. eexists _, _, _, _, _, _, _. split; [reflexivity|]. split; [reflexivity|]. split; [exact PC|]. split; [exact Ht'|exact Hf].
    + assert (cont full off (zlen body + zlen nl) = p_data p) as Ed by (rewrite Hcont, C3; reflexivity).
      rewrite C4 in Hh. destruct (p_run par full lim R HS HB HL _ key off _ PC s view0 h Ht Hh) as (s' & obs & Er & Ac & v' & Ht'). rewrite Ed in Ac.
      rewrite Er; cbn [bind]. do 2 eexists; split; [reflexivity|]. split; [exact Ac|]. apply IH; [|lia].
      exists (b :: bs), t. cbn [a_ml a_cur a_num a_info]. rewrite S2, S3. split; [exact S1|]. split; [exact C5|]. split; [discriminate|]. split; [exact C6|]. split; [exact S5|]. split; [reflexivity|]. split; [exact C7|].
      right. eexists _, _, _, _, _, _, _. split; [reflexivity|]. split; [reflexivity|]. split; [exact PC|]. split; [exact Ht'|exact Hf].
Qed.
Theorem new_ok ps p v : R p v -> v_lo v <= 0 -> message nl maxl full ps ->
  exists hs b t a, full = headers_text nl hs ++ nl ++ t /\ Forall (header_ok nl maxl) hs /\ multipart_headers hs b /\
    mail_new par maxl fuel p = Ret a /\ l_st (a_ml a) = Ok /\ l_hd (a_ml a) = apply_headers (mkHd (fun _ => []) [] [] [] []) hs /\ minv 1 ps a.
Proof.
  intros HR Hlo (hs & b & t & Ef & Hh & Hmp & Hbo & Hbl & Hp). exists hs, b, t. unfold mail_new.
  pose proof (sim_view _ _ _ _ _ HS _ _ HR) as Hok. unfold view_ok in Hok.
  assert (t <> []) as Hne by (eapply parts_nonempty; [exact Hnl|exact Hp|discriminate]).
  destruct (readHeader_ok par full lim R HS nl maxl fuel Hnl Hm Hmi Hlim Hfuel t Hbl Hne hs (mkMl p 0 (mkHd (fun _ => []) [] [] [] []) Ok) fuel) as (m' & E & Hr & Hst & Hd & _); [|reflexivity|exact Hh| |].
  { split; [cbn; lia|]. split; [cbn [l_next]; unfold P_MailList5.from; cbn; exact Ef|]. exists v. split; [exact HR|]. cbn [l_next]. lia. }
  { rewrite Ef, !zlen_app in Hfuel. pose proof (zlen_nonneg nl). pose proof (zlen_nonneg t). lia. }
  rewrite E; cbn [bind]. eexists. split; [exact Ef|]. split; [exact Hh|]. split; [exact Hmp|]. split; [reflexivity|]. cbn [a_ml]. split; [exact Hst|]. cbn [l_hd] in Hd. split; [exact Hd|].
  exists [b], t. cbn [a_ml a_cur a_num a_info i_size]. split; [exact Hst|]. split; [rewrite Hd, (eff_bound_multi _ _ b); [reflexivity|eapply hok58; exact Hh|exact Hmp]|].
  split; [discriminate|]. split; [constructor; [exact Hbo|constructor]|]. split; [split; reflexivity|]. split; [reflexivity|]. split; [exact Hp|]. left. auto.
Qed.
End Mail.
