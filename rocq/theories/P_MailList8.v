From Verif Require Import Base StreamSpec P_Stream KmpSpec SegSpec M_Ar M_Mail M_Reader P_Reader2 M_Sub M_Kmp P_Kmp M_Buffered BufferedSpec M_Base64 B64Spec P_Base64 M_StringTerm P_StringTerm ArchiveSpec M_MailList MailPartsSpec P_MailList1 P_MailList2 P_MailList3 P_MailList4 P_MailList5 P_MailList6 P_MailList7.

Section Scan2.
Context {P : Type}.
Variables (par : ops P Z) (maxl : Z) (fuel : nat).
Lemma scan_stop f m : l_st m = Eof -> scanBody par maxl fuel f m = Ret (m, None).
Proof. intros H. destruct f; cbn [scanBody]; rewrite H; reflexivity. Qed.
Lemma slice02 (l : list Z) : slice l 0 2 = [45;45] -> exists r, l = 45 :: 45 :: r.
Proof. unfold slice. cbn. destruct l as [|a [|b l]]; cbn; intros E; try discriminate. injection E as -> ->. eauto. Qed.
Definition sbody (f : nat) (m : ml P) (l : list Z) : out (ml P * option (cur P * list Z)) :=
  if (2 <? zlen l) && list_eqb (slice l 0 2) [45;45] then
    match hd_bound (l_hd m) with
    | [] => UB
    | b :: bs =>
        if (zlen l =? zlen b + 4) && list_eqb (slice l (2 + zlen b) 2) [45;45] && strncmp_eq (skipn 2 l) b (length b) then
          let hd := l_hd m in
          scanBody par maxl fuel f (mkMl (l_in m) (l_next m) (mkHd (hd_meta hd) (hd_ct hd) (hd_cte hd) (hd_cd hd) bs) (match bs with [] => Eof | _ => l_st m end))
        else if (zlen l =? zlen b + 2) && strncmp_eq (skipn 2 l) b (length b) then
          let* (m, r) := handleBodyLine par maxl fuel m in
          match r with Some e => Ret (m, Some e) | None => scanBody par maxl fuel f m end
        else scanBody par maxl fuel f m
    end
  else scanBody par maxl fuel f m.
Lemma scan_unfold f m m1 l n : l_st m = Ok -> l_line par maxl fuel m = Ret (m1, HLine l n) -> scanBody par maxl fuel (S f) m = sbody f m1 l.
Proof. intros H E. cbn [scanBody]. rewrite H, E. reflexivity. Qed.
Lemma scan_unfold_eof f m m1 l : l_st m = Ok -> l_line par maxl fuel m = Ret (m1, HEof l) -> scanBody par maxl fuel (S f) m = sbody f m1 l.
Proof. intros H E. cbn [scanBody]. rewrite H, E. reflexivity. Qed.
Lemma sbody_text f m l b bs : hd_bound (l_hd m) = b :: bs -> ~ In 0 b -> l <> delimiter b -> l <> close_delimiter b -> sbody f m l = scanBody par maxl fuel f m.
Proof.
  intros Hb H0 N1 N2. unfold sbody. destruct ((2 <? zlen l) && list_eqb (slice l 0 2) [45; 45]) eqn:E; [|reflexivity].
  apply andb_true_iff in E. destruct E as (E1 & E2). destruct (list_eqb_spec (slice l 0 2) [45;45]) as [E3|]; [|discriminate]. apply slice02 in E3. destruct E3 as (r & ->). rewrite Hb. cbn [skipn].
  rewrite !zlen_cons.
  destruct (strncmp_eq r b (length b)) eqn:Es; [|rewrite !andb_false_r; reflexivity].
  apply strncmp_line in Es; [|exact H0]. destruct Es as (r' & ->). rewrite !andb_true_r. rewrite zlen_app. pose proof (zlen_nonneg r').
  destruct (Z.eqb_spec (1 + (1 + (zlen b + zlen r'))) (zlen b + 4)) as [L|L]; cbn [andb].
  - destruct (list_eqb_spec (slice (45 :: 45 :: b ++ r') (2 + zlen b) 2) [45;45]) as [E4|E4].
    + exfalso. apply N2. unfold close_delimiter. do 2 f_equal. f_equal. rewrite <- E4.
      change (45 :: 45 :: b ++ r') with ([45;45] ++ b ++ r'). rewrite app_assoc, slice_app_r by (rewrite zlen_app; change (zlen [45;45]) with 2; lia).
      replace (2 + zlen b - zlen ([45;45] ++ b)) with 0 by (rewrite zlen_app; change (zlen [45;45]) with 2; lia). replace 2 with (zlen r') by lia. symmetry. apply slice_all.
    + destruct (Z.eqb_spec (1 + (1 + (zlen b + zlen r'))) (zlen b + 2)); [lia|]. reflexivity.
  - destruct (Z.eqb_spec (1 + (1 + (zlen b + zlen r'))) (zlen b + 2)) as [L2|]; [|reflexivity]. exfalso. apply N1. unfold delimiter. assert (r' = []) as -> by (destruct r'; [reflexivity|rewrite zlen_cons in L2; pose proof (zlen_nonneg r'); lia]). rewrite app_nil_r. reflexivity.
Qed.
Lemma sbody_delim f m b bs : hd_bound (l_hd m) = b :: bs -> ~ In 0 b -> b <> [] ->
  sbody f m (delimiter b) = let* (m, r) := handleBodyLine par maxl fuel m in match r with Some e => Ret (m, Some e) | None => scanBody par maxl fuel f m end.
Proof.
  intros Hb H0 Hne. unfold sbody. assert (zlen (delimiter b) = zlen b + 2) as L by (unfold delimiter; rewrite !zlen_cons; lia). rewrite L.
  assert (0 < zlen b) by (destruct b; [congruence|rewrite zlen_cons; pose proof (zlen_nonneg b); lia]).
  destruct (Z.ltb_spec 2 (zlen b + 2)) as [_|?]; [|lia]. change (slice (delimiter b) 0 2) with [45;45]. change (list_eqb [45;45] [45;45]) with true. cbn [andb]. rewrite Hb.
  destruct (Z.eqb_spec (zlen b + 2) (zlen b + 4)); [lia|]. cbn [andb]. destruct (Z.eqb_spec (zlen b + 2) (zlen b + 2)); [|lia]. cbn [andb].
  change (skipn 2 (delimiter b)) with b. assert (strncmp_eq b b (length b) = true) as -> by (apply strncmp_line; [exact H0|exists []; symmetry; apply app_nil_r]). reflexivity.
Qed.
Lemma sbody_close f m b bs : hd_bound (l_hd m) = b :: bs -> ~ In 0 b ->
  sbody f m (close_delimiter b) = scanBody par maxl fuel f (mkMl (l_in m) (l_next m) (mkHd (hd_meta (l_hd m)) (hd_ct (l_hd m)) (hd_cte (l_hd m)) (hd_cd (l_hd m)) bs) (match bs with [] => Eof | _ => l_st m end)).
Proof.
  intros Hb H0. unfold sbody. assert (zlen (close_delimiter b) = zlen b + 4) as L by (unfold close_delimiter; rewrite !zlen_cons, zlen_app; change (zlen [45;45]) with 2; lia). rewrite L. pose proof (zlen_nonneg b).
  destruct (Z.ltb_spec 2 (zlen b + 4)) as [_|?]; [|lia]. change (slice (close_delimiter b) 0 2) with [45;45]. change (list_eqb [45;45] [45;45]) with true. cbn [andb]. rewrite Hb.
  destruct (Z.eqb_spec (zlen b + 4) (zlen b + 4)); [|lia]. cbn [andb].
  change (skipn 2 (close_delimiter b)) with (b ++ [45;45]). assert (strncmp_eq (b ++ [45;45]) b (length b) = true) as -> by (apply strncmp_line; [exact H0|eauto]).
  assert (slice (close_delimiter b) (2 + zlen b) 2 = [45;45]) as ->.
  { unfold close_delimiter. change (45 :: 45 :: b ++ [45;45]) with ([45;45] ++ b ++ [45;45]). rewrite app_assoc, slice_app_r by (rewrite zlen_app; change (zlen [45;45]) with 2; lia).
    replace (2 + zlen b - zlen ([45;45] ++ b)) with 0 by (rewrite zlen_app; change (zlen [45;45]) with 2; lia). reflexivity. }
  reflexivity.
Qed.
End Scan2.

Section List.
Context {P : Type}.
Variables (par : ops P Z) (full : list Z) (lim : Z) (R : P -> view -> Prop).
Hypothesis HS : sim par full False lim R.
Hypothesis HB : bytes full.
Hypothesis HL : zlen full <= INT32_MAX.
Variables (nl : list Z) (maxl : Z) (fuel : nat).
Hypothesis Hnl : newline nl.
Hypothesis Hm : 16 <= maxl.
Hypothesis Hmi : maxl <= 2 ^ 29 - 258.
Hypothesis Hlim : maxl <= lim.
Hypothesis Hfuel : zlen full + 1 < Z.of_nat fuel.
Notation from := (from full).
Notation ready := (ready full R).
Notation opened := (opened full lim R nl).

Definition scanned (ps : list mpart) (m' : ml P) (r : option (cur P * list Z)) : Prop :=
  match r with
  | None => ps = []
  | Some (c, name) => exists b bs body t ps' s nm enc, ps = mkPart nm enc (if enc then b64decoded body else body ++ nl) (zlen (delimiter b)) :: ps' /\
      l_st m' = Ok /\ hd_bound (l_hd m') = b :: bs /\ Forall (boundary_ok maxl) (b :: bs) /\ c = (if enc then CB64 (bs_new (b64_new s)) else CPart s) /\
      name = match nm with Some v => v | None => [] end /\ (forall v, nm = Some v -> v <> []) /\ opened b body t s /\ parts nl maxl (b :: bs) t ps'
  end.
Lemma scan_ok bs t ps : parts nl maxl bs t ps -> forall m f, bs <> [] -> Forall (boundary_ok maxl) bs -> ready m t -> l_st m = Ok -> hd_bound (l_hd m) = bs -> zlen t < Z.of_nat f ->
  exists m' r, scanBody par maxl fuel f m = Ret (m', r) /\ scanned ps m' r.
Proof.
  assert (2 ^ 29 - 258 <= INT32_MAX) as Hc by (unfold INT32_MAX; lia). pose proof (nl_len nl Hnl) as Lnl.
  induction 1 as [b bs l t ps F1 F2 N1 N2 F3 F4 Hp IH|b bs hs body t r ps nm enc Hh Hlf Hnm Henc Ht Hno Hbl Hsh Hp IH|b bs hs b' t ps Hh Hmp Hbo Hbl Hp IH|b bs t ps Hu Hp IH|t];
    intros m f Hne Hbs Hr Hst Hbd Hf; [| | | |congruence]; inversion Hbs as [|? ? Hb Hbs']; subst; (destruct f as [|f]; [exfalso; revert Hf; match goal with |- zlen ?x < _ -> _ => pose proof (zlen_nonneg x) end; lia|]).
  - rewrite !zlen_app in Hf. pose proof (zlen_nonneg l). pose proof (zlen_nonneg t).
    destruct (line_ok par full lim R HS nl maxl fuel Hnl Hmi Hlim Hfuel m l t Hr F1 F2) as (p' & E & Hr' & _); [|exact F3|].
    { destruct F4 as [(-> & F4)|F4]; [left|right; exact F4]. split; [reflexivity|]. split; [exact F4|]. eapply parts_nonempty; [exact Hnl|exact Hp|discriminate]. }
    rewrite (scan_unfold _ _ _ _ _ _ _ _ Hst E). rewrite (sbody_text _ _ _ _ _ _ b bs); [|exact Hbd|apply Hb|exact N1|exact N2].
    apply IH; [discriminate|exact Hbs|exact Hr'|exact Hst|exact Hbd|lia].
  - assert (forall x, zlen (delimiter b ++ nl ++ x) = zlen b + 2 + zlen nl + zlen x) as Lx by (intros; rewrite !zlen_app; unfold delimiter; rewrite !zlen_cons; lia).
    rewrite Lx in Hf. pose proof (zlen_nonneg b). destruct (delim_line maxl b Hb) as ((D13 & D10) & _).
    destruct (line_ok par full lim R HS nl maxl fuel Hnl Hmi Hlim Hfuel m (delimiter b) (headers_text nl hs ++ nl ++ body ++ nl ++ delimiter b ++ r)) as (p' & E & Hr' & _).
    { exact Hr. } { apply folded_plain; assumption. } { intros c E. injection E as <-. lia. } { right. apply (unfolded_headers nl maxl); assumption. }
    { destruct Hb as (_ & _ & _ & _ & _ & Hb). unfold delimiter. rewrite !zlen_cons. lia. }
    rewrite (scan_unfold _ _ _ _ _ _ _ _ Hst E). rewrite (sbody_delim _ _ _ _ _ b bs); [|exact Hbd|apply Hb|apply Hb].
    match type of Hr' with P_MailList7.ready _ _ ?m1 _ => destruct (handle_leaf par full lim R HS HB nl maxl fuel Hnl Hm Hmi Hlim Hfuel m1 b bs hs body (delimiter b ++ r) r) as (m' & s & E' & S' & B' & O') end; try assumption; try reflexivity.
    cbn [l_hd] in E'. rewrite E'; cbn [bind]. do 2 eexists; split; [reflexivity|]. cbn [scanned].
    destruct (name_effect nl maxl (l_hd m) hs nm Hh Hnm) as (En & Hn0). pose proof (encoding_effect nl maxl (l_hd m) hs enc Hh Henc) as Ee. rewrite Ee, En.
    exists b, bs, body, (delimiter b ++ r), ps, s, nm, enc. split; [reflexivity|]. split; [exact S'|]. split; [exact B'|]. split; [exact Hbs|]. split; [reflexivity|]. split; [reflexivity|]. split; [exact Hn0|]. split; [exact O'|exact Hp].
  - assert (forall x, zlen (delimiter b ++ nl ++ x) = zlen b + 2 + zlen nl + zlen x) as Lx by (intros; rewrite !zlen_app; unfold delimiter; rewrite !zlen_cons; lia).
    rewrite Lx in Hf. rewrite !zlen_app in Hf. pose proof (zlen_nonneg b). pose proof (zlen_nonneg (headers_text nl hs)). destruct (delim_line maxl b Hb) as ((D13 & D10) & _).
    destruct (line_ok par full lim R HS nl maxl fuel Hnl Hmi Hlim Hfuel m (delimiter b) (headers_text nl hs ++ nl ++ t)) as (p' & E & Hr' & _).
    { exact Hr. } { apply folded_plain; assumption. } { intros c E. injection E as <-. lia. } { right. apply (unfolded_headers nl maxl); assumption. }
    { destruct Hb as (_ & _ & _ & _ & _ & Hb). unfold delimiter. rewrite !zlen_cons. lia. }
    rewrite (scan_unfold _ _ _ _ _ _ _ _ Hst E). rewrite (sbody_delim _ _ _ _ _ b bs); [|exact Hbd|apply Hb|apply Hb].
    match type of Hr' with P_MailList7.ready _ _ ?m1 _ => destruct (handle_open par full lim R HS nl maxl fuel Hnl Hm Hmi Hlim Hfuel m1 b bs hs b' t) as (m' & E' & S' & B' & O') end; try assumption; try reflexivity.
    { eapply parts_nonempty; [exact Hnl|exact Hp|discriminate]. }
    rewrite E'; cbn [bind]. apply IH; [discriminate|constructor; assumption|exact O'|exact S'|exact B'|lia].
  - assert (forall x, zlen (close_delimiter b ++ nl ++ x) = zlen b + 4 + zlen nl + zlen x) as Lx by (intros; rewrite !zlen_app; unfold close_delimiter; rewrite !zlen_cons, zlen_app; change (zlen [45;45]) with 2; lia).
    rewrite Lx in Hf. pose proof (zlen_nonneg b). destruct (delim_line maxl b Hb) as (_ & (D13 & D10)).
    assert (zlen (close_delimiter b) = zlen b + 4) as Lc by (unfold close_delimiter; rewrite !zlen_cons, zlen_app; change (zlen [45;45]) with 2; lia).
    destruct Hb as (Bne & B0 & B13 & B10 & Btail & Blen).
    destruct Hu as [Hu|(-> & ->)].
    + destruct (line_ok par full lim R HS nl maxl fuel Hnl Hmi Hlim Hfuel m (close_delimiter b) t) as (p' & E & Hr' & _).
      { exact Hr. } { apply folded_plain; assumption. } { intros c E. injection E as <-. lia. } { right. exact Hu. } { lia. }
      rewrite (scan_unfold _ _ _ _ _ _ _ _ Hst E). rewrite (sbody_close _ _ _ _ _ b bs); [|exact Hbd|exact B0]. destruct bs as [|b1 bs].
      * rewrite scan_stop by reflexivity. do 2 eexists; split; [reflexivity|]. cbn [scanned]. inversion Hp. reflexivity.
      * apply IH; [discriminate|exact Hbs'|exact Hr'|exact Hst|reflexivity|pose proof (zlen_nonneg t); lia].
    + destruct Hr as (Hn & Hfr & Ha). unfold l_line in *.
      assert (close_delimiter b ++ nl <> []) as Hcn by discriminate. rewrite app_nil_r in Hfr.
      assert (l_next m + zlen (close_delimiter b ++ nl) = zlen full) as Hlen by (apply from_len; assumption). rewrite zlen_app in Hlen.
      destruct (readHeaderLine_eof par full lim R HS maxl fuel ltac:(lia) Hlim (l_next m) (l_in m) Hn) as (p' & E); [lia|exact Ha| |lia|].
      { rewrite Hfr. apply (scan_last nl); [exact Hnl|apply folded_plain; assumption|]. intros c E. injection E as <-. lia. }
      assert (l_line par maxl fuel m = Ret (mkMl p' (l_next m) (l_hd m) Eof, HEof (close_delimiter b ++ nl))) as E2 by (unfold l_line; rewrite E, Hfr; reflexivity).
      rewrite (scan_unfold_eof _ _ _ _ _ _ _ Hst E2). rewrite (sbody_text _ _ _ _ _ _ b []).
      * rewrite scan_stop by reflexivity. do 2 eexists; split; [reflexivity|]. cbn [scanned]. inversion Hp. reflexivity.
      * exact Hbd.
      * exact B0.
      * intros X. apply (f_equal zlen) in X. rewrite zlen_app, Lc in X. unfold delimiter in X. rewrite !zlen_cons in X. lia.
      * intros X. apply (f_equal zlen) in X. rewrite zlen_app, Lc in X. lia.
Qed.
End List.
