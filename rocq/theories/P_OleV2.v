(** Well-formed OLE files: the directory and the constructor (C41). *)
From Verif Require Import Base StreamSpec P_Stream M_Kmp M_Buffered BufferedSpec P_Buffered ArchiveSpec P_BufInv.
From Verif Require Import B64Spec TextSpec M_Text T_Text M_Detect DetectSpec P_Detect OleSpec M_Ole P_Ole P_Ole2 P_Ole3 P_Ole4 P_OleV.

Lemma ole_name_val d name : forall o, 0 <= o -> o + 2 * zlen name <= zlen d ->
  (forall i, 0 <= i < zlen name -> byte_at d (o + 2 * i) = nthz name i /\ byte_at d (o + 2 * i + 1) = 0) ->
  ole_name (length name) d o = Ret (name, false).
Proof.
  induction name as [|c l IH]; intros o Ho Hl H; [reflexivity|]. cbn [length ole_name]. rewrite zlen_cons in *. pose proof (zlen_nonneg l).
  destruct (H 0) as (H1 & H2); [lia|]. rewrite !rdc_byte by lia. cbn [bind]. rewrite Z.mul_0_r, Z.add_0_r in H1, H2. rewrite H1, H2.
  rewrite IH; [reflexivity|lia|lia|]. intros i Hi. destruct (H (i + 1)) as (H3 & H4); [lia|].
  replace (o + 2 + 2 * i) with (o + 2 * (i + 1)) by lia. split; [rewrite H3|exact H4]. unfold nthz. replace (Z.to_nat (i + 1)) with (S (Z.to_nat i)) by lia. reflexivity.
Qed.

Lemma NoDup_app_remove_l {A} (a b : list A) : NoDup (a ++ b) -> NoDup b.
Proof. induction a; [auto|]. intros H. inversion H; auto. Qed.
Lemma NoDup_app_remove_r {A} (a b : list A) : NoDup (a ++ b) -> NoDup a.
Proof.
  induction a as [|x a IH]; intros H; [constructor|]. inversion H as [|? ? N H2]; subst. constructor; [|auto]. intros Hx. apply N. apply in_app_iff. auto.
Qed.
Section V.
Variables (big : bool) (D xb bt dirs0 sb ms : list Z) (l0 : list member) (B0 S0 : list Z).
Hypothesis HF : ole_file D xb bt dirs0 sb ms l0 B0 S0.
Hypothesis HL : zlen D <= INT32_MAX.
(** no small block has a larger number than there are sectors *)
Hypothesis Hsmall : Forall (fun x => x <= zlen D / 512 - 2) S0.
Notation mi := (maxindex D).
Notation nb := (zlen bt).

Lemma HBv : Forall byte D. Proof. exact (of_bytes _ _ _ _ _ _ _ _ _ HF). Qed.
Lemma upto_length n : length (upto n) = n. Proof. unfold upto. rewrite map_length, seq_length. reflexivity. Qed.
Lemma table_length d : forall x, length (table_entries d x) = (109 + 127 * length x)%nat.
Proof.
  intros x. unfold table_entries. rewrite app_length, map_length, upto_length. f_equal. induction x as [|a x IH]; [reflexivity|].
  cbn [map concat]. rewrite app_length, map_length, upto_length, IH. cbn [length]. lia.
Qed.
Lemma nb_eq : nb = h_nbat D.
Proof.
  destruct (of_nbat _ _ _ _ _ _ _ _ _ HF) as (N1 & _). rewrite (of_table _ _ _ _ _ _ _ _ _ HF). unfold zlen in *. rewrite firstn_length, table_length. lia.
Qed.
Lemma Hbatv : Forall (in_file D) bt. Proof. exact (of_bat _ _ _ _ _ _ _ _ _ HF). Qed.
Definition okd (x : Z) : Prop := in_file D x /\ x / 128 < nb.
Lemma ranges : Forall okd dirs0 /\ Forall okd sb /\ Forall okd ms /\ Forall okd B0.
Proof.
  pose proof (of_range _ _ _ _ _ _ _ _ _ HF) as H. rewrite <- nb_eq, !Forall_app in H. unfold okd, in_file.
  destruct H as (H1 & H2 & H3 & H4). split; [|split; [|split]]; (eapply Forall_impl; [|eassumption]); cbn; intros; tauto.
Qed.
Lemma okd_file x : Forall okd x -> Forall (in_file D) x.
Proof. intros H. eapply Forall_impl; [|exact H]. intros ? [? _]; assumption. Qed.
Lemma Hsbv : Forall (in_file D) sb. Proof. apply okd_file, ranges. Qed.
Lemma Hmsv : Forall (in_file D) ms. Proof. apply okd_file, ranges. Qed.
Lemma mi_div : mi = zlen D / 512 - 2.
Proof. unfold maxindex. rewrite Z.quot_div_nonneg by (pose proof (zlen_nonneg D); lia). reflexivity. Qed.
Lemma dir0 : exists x r, dirs0 = x :: r /\ h_dir D = x /\ chain (fat D bt) (fat D bt x) r /\ okd x.
Proof.
  destruct (of_dir _ _ _ _ _ _ _ _ _ HF) as (Hc & Hne). destruct ranges as (H & _). revert Hc Hne H. generalize dirs0 as dd.
  intros [|x r] Hc Hne H; [congruence|]. destruct Hc as (E & Hc). exists x, r.
  split; [reflexivity|]. split; [exact E|]. split; [exact Hc|]. inversion H; assumption.
Qed.
Lemma mi0 : 0 <= mi. Proof. destruct dir0 as (x & r & _ & _ & _ & (H & _)). pose proof (mi_ge D x H). destruct H. lia. Qed.

Lemma rei_other s inf : oc_data s = D -> in_file D (oc_tb s) -> 0 <= oc_ti s <= 3 ->
  (byte_at D (512 * (oc_tb s + 1) + 128 * oc_ti s + 66) <> 2 \/ word D (512 * (oc_tb s + 1) + 128 * oc_ti s + 120) <= 0) ->
  exists ss inf', readEntryInfo big s inf = Ret (entry_state s (-1) ss, inf') /\ i_mtime inf' = i_mtime inf /\ i_type inf' = i_type inf.
Proof.
  intros Ed (Htb & Hsec) Hti Hor. unfold readEntryInfo. rewrite Ed. unfold INT32_MAX in HL. pose proof HBv as HB.
  rewrite (chk32_ok (1 + oc_tb s)) by (unfold INT32_MIN, INT32_MAX; lia). cbn [bind].
  rewrite chk32_ok by (unfold INT32_MIN, INT32_MAX; lia). cbn [bind].
  replace ((1 + oc_tb s) * 512 + 128 * oc_ti s) with (512 * (oc_tb s + 1) + 128 * oc_ti s) by lia. set (d := 512 * (oc_tb s + 1) + 128 * oc_ti s) in *.
  assert (0 <= d /\ d + 128 <= zlen D) as Hd by (unfold d; lia). clearbody d.
  rewrite rdc_byte by lia. cbn [bind]. rewrite <- Ed in *. fold (entry_state s (-1) (oc_ss s)).
  destruct (Z.eqb_spec (byte_at (oc_data s) (d + 66)) 2) as [E2|E2]; cbn [negb]; [|do 2 eexists; split; [reflexivity|]; tauto].
  destruct Hor as [?|Hor]; [contradiction|].
  destruct (rdc_ok (oc_data s) (d + 64)) as (ns & -> & _); [lia|]. cbn [bind].
  set (m := if 64 <? (if schar ns <? 2 then 2 else schar ns) then 64 else if schar ns <? 2 then 2 else schar ns).
  assert (2 <= m <= 64) as Hm by (unfold m; destruct (Z.ltb_spec (schar ns) 2); zdest; lia).
  destruct (ole_name_ok (Z.to_nat (Z.quot m 2 - 1)) (oc_data s) d) as ((name & bad) & ->); [lia| |].
  { rewrite Z.quot_div_nonneg by lia. pose proof (Z.mul_div_le m 2). pose proof (Z.div_le_lower_bound m 2 1). lia. }
  cbn [bind]. rewrite !le32_ok by (assumption || lia). cbn [bind].
  destruct (Z.leb_spec (word (oc_data s) (d + 120)) 0); [|lia]. rewrite orb_true_r. do 2 eexists. split; [reflexivity|]. cbn. tauto.
Qed.
Lemma rei_stream s inf m b sm : oc_data s = D -> in_file D (oc_tb s) -> 0 <= oc_ti s <= 3 ->
  is_stream D bt sb ms (512 * (oc_tb s + 1) + 128 * oc_ti s) m b sm -> word D (512 * (oc_tb s + 1) + 128 * oc_ti s + 116) <= mi ->
  readEntryInfo big s inf = Ret (entry_state s (word D (512 * (oc_tb s + 1) + 128 * oc_ti s + 116)) (zlen (m_data m)),
     mkInfo (i_name (m_info m)) (zlen (m_data m)) (i_mtime inf) (i_type inf)).
Proof.
  intros Ed (Htb & Hsec) Hti [Hty (Hn1 & Hn2 & Hn3) (Hs1 & Hs2) _ _] Hst. unfold readEntryInfo. rewrite Ed. unfold INT32_MAX in HL. pose proof HBv as HB.
  rewrite (chk32_ok (1 + oc_tb s)) by (unfold INT32_MIN, INT32_MAX; lia). cbn [bind].
  rewrite chk32_ok by (unfold INT32_MIN, INT32_MAX; lia). cbn [bind].
  replace ((1 + oc_tb s) * 512 + 128 * oc_ti s) with (512 * (oc_tb s + 1) + 128 * oc_ti s) by lia. set (d := 512 * (oc_tb s + 1) + 128 * oc_ti s) in *.
  assert (0 <= d /\ d + 128 <= zlen D) as Hd by (unfold d; lia). clearbody d.
  rewrite !rdc_byte by lia. cbn [bind]. rewrite Hty. change (negb (2 =? 2)) with false. cbv iota. rewrite Hn2.
  set (name := i_name (m_info m)) in *. pose proof (zlen_nonneg name).
  assert (schar (2 * (zlen name + 1)) = 2 * (zlen name + 1)) as -> by (unfold schar; zdest; lia).
  destruct (Z.ltb_spec (2 * (zlen name + 1)) 2); [lia|]. destruct (Z.ltb_spec 64 (2 * (zlen name + 1))); [lia|].
  replace (Z.to_nat (Z.quot (2 * (zlen name + 1)) 2 - 1)) with (length name).
  2:{ rewrite Z.mul_comm, Z.quot_mul by lia. unfold zlen. lia. }
  rewrite ole_name_val; [|lia|lia|exact Hn3]. cbn [bind]. rewrite !le32_ok by (assumption || lia). cbn [bind]. rewrite Hs1.
  destruct (Z.ltb_spec mi (word D (d + 116))); [lia|]. destruct (Z.leb_spec (zlen (m_data m)) 0); [lia|]. cbn [orb]. rewrite <- Ed. reflexivity.
Qed.

(** the part of the directory that is still to come: the rest of the current sector and the sectors [dl] *)
Record lst (s : ocore) (dl : list Z) (l : list member) (B S : list Z) : Prop := {
  ls_dir : odir D s; ls_fix : fixed bt sb ms s; ls_tb : okd (oc_tb s);
  ls_chain : chain (fat D bt) (fat D bt (oc_tb s)) dl; ls_ranges : Forall okd (dl ++ B);
  ls_srange : Forall (fun x => (0 <= x /\ x / 128 < zlen sb /\ x / 8 < zlen ms) /\ x <= mi) S;
  ls_nodup : NoDup (dl ++ B) /\ NoDup S;
  ls_used : (forall x, In x (dl ++ B) -> ~ In x (oc_used s)) /\ (forall x, In x S -> ~ In x (oc_usedS s));
  ls_m2 : ~ In (-2) (oc_used s) /\ ~ In (-2) (oc_usedS s);
  ls_streams : streams D bt sb ms (skipn (Z.to_nat (oc_ti s + 1)) (entry_offsets (oc_tb s)) ++ concat (map entry_offsets dl)) l B S }.
Definition todo (s : ocore) (dl : list Z) : nat := (Z.to_nat (3 - oc_ti s) + 4 * length dl)%nat.
Lemma offs_step tb ti : 0 <= ti <= 2 -> skipn (Z.to_nat (ti + 1)) (entry_offsets tb) =
  (512 * (tb + 1) + 128 * (ti + 1)) :: skipn (Z.to_nat (ti + 1 + 1)) (entry_offsets tb).
Proof. intros H. assert (ti = 0 \/ ti = 1 \/ ti = 2) as [-> |[-> | ->]] by lia; reflexivity. Qed.
(** the entry the loop looks at next *)
Definition seen (s s1 : ocore) (dl dl1 : list Z) : Prop :=
  (oc_ti s < 3 /\ dl1 = dl /\ oc_tb s1 = oc_tb s /\ oc_ti s1 = oc_ti s + 1 /\ oc_used s1 = oc_used s) \/
  (oc_ti s = 3 /\ oc_ti s1 = 0 /\ dl = oc_tb s1 :: dl1 /\ oc_used s1 = oc_tb s1 :: oc_used s).

Lemma lst_after s dl l B S s1 dl1 l1 b B1 sm S1 db ss : lst s dl l B S -> seen s s1 dl dl1 -> same_stat s s1 -> oc_usedS s1 = oc_usedS s ->
  B = b ++ B1 -> S = sm ++ S1 ->
  streams D bt sb ms (skipn (Z.to_nat (oc_ti s1 + 1)) (entry_offsets (oc_tb s1)) ++ concat (map entry_offsets dl1)) l1 B1 S1 ->
  lst (entry_state s1 db ss) dl1 l1 B1 S1.
Proof.
  intros [L1 L2 L3 L4 L5 L6 L7 L8 L9 L10] Hseen Hsame HuS -> -> Hst.
  assert (forall x, In x (dl1 ++ B1) -> In x (dl ++ b ++ B1)) as Hin.
  { intros x. rewrite !in_app_iff. destruct Hseen as [(_ & -> & _)|(_ & _ & -> & _)]; cbn; tauto. }
  split; cbn [entry_state oc_tb oc_ti oc_used oc_usedS].
  - destruct L1 as [A1 A2 A3 A4]. split; cbn [entry_state oc_tb oc_ti oc_sbatb].
    + eapply same_ostat; [exact Hsame|exact A1].
    + destruct Hseen as [(_ & _ & -> & _)|(_ & _ & -> & _)]; [exact A2|]. intros _. apply Forall_app in L5 as (L5 & _). inversion L5 as [|? ? (Hx & _) _]; subst. apply Hx.
    + destruct Hseen as [(? & _ & _ & -> & _)|(_ & -> & _)]; lia.
    + destruct Hsame as (_ & _ & _ & ->). exact A4.
  - unfold fixed in *. cbn [entry_state oc_bat oc_sbat oc_sbatb]. destruct Hsame as (_ & -> & -> & ->). exact L2.
  - destruct Hseen as [(_ & _ & -> & _)|(_ & _ & -> & _)]; [exact L3|]. apply Forall_app in L5 as (L5 & _). inversion L5; assumption.
  - destruct Hseen as [(_ & -> & -> & _)|(_ & _ & -> & _)]; [exact L4|]. destruct L4 as (_ & L4). exact L4.
  - rewrite Forall_forall in *. intros x Hx. apply L5. apply Hin. exact Hx.
  - apply Forall_app in L6 as (_ & L6). exact L6.
  - destruct L7 as (N1 & N2). split; [|apply NoDup_app_remove_l in N2; exact N2].
    assert (NoDup (dl1 ++ b ++ B1)) as N3 by (destruct Hseen as [(_ & -> & _)|(_ & _ & -> & _)]; [exact N1|inversion N1; assumption]).
    clear - N3. rewrite <- (app_nil_l B1) in *. induction b as [|a b IH]; [exact N3|]. apply IH. cbn [app] in *. apply NoDup_remove_1 in N3. exact N3.
  - destruct L8 as (U1 & U2). split.
    + intros x Hx. specialize (U1 x (Hin x Hx)). destruct Hseen as [(_ & _ & _ & _ & ->)|(_ & _ & Edl & ->)]; [exact U1|].
      intros [E|E]; [|contradiction]. subst x dl. destruct L7 as (N1 & _). inversion N1 as [|? ? Nn _]; subst. apply Nn. rewrite !in_app_iff in *. tauto.
    + rewrite HuS. intros x Hx. apply U2. apply in_app_iff. right; exact Hx.
  - rewrite HuS. destruct L9 as (M1 & M2). split; [|exact M2]. destruct Hseen as [(_ & _ & _ & _ & ->)|(_ & _ & Edl & ->)]; [exact M1|].
    intros [E|E]; [|contradiction]. rewrite E in Edl. subst dl. apply Forall_app in L5 as (L5 & _). inversion L5 as [|? ? ((Hx & _) & _) _]; subst. lia.
  - exact Hst.
Qed.

Lemma ole_entries_val : forall fuel s inf dl l B S, lst s dl l B S -> (todo s dl < fuel)%nat -> i_mtime inf = 0 -> i_type inf = 0 ->
  exists s' inf' b, ole_entries big fuel s inf = Ret (s', inf', b) /\ i_mtime inf' = 0 /\ i_type inf' = 0 /\
   match l with
   | [] => b = false
   | m :: l1 => b = true /\ exists o dl1 bb B1 sm S1, inf' = m_info m /\ B = bb ++ B1 /\ S = sm ++ S1 /\ is_stream D bt sb ms o m bb sm /\
       oc_db s' = word D (o + 116) /\ oc_ss s' = zlen (m_data m) /\ (todo s' dl1 < todo s dl)%nat /\
       lst s' dl1 l1 B1 S1 /\ (forall x, In x bb -> ~ In x (oc_used s')) /\ (forall x, In x sm -> ~ In x (oc_usedS s')) /\
       (forall x, In x bb -> ~ In x (dl1 ++ B1)) /\ (forall x, In x sm -> ~ In x S1) /\
       Forall okd bb /\ NoDup bb /\ NoDup sm /\ Forall (fun x => 0 <= x /\ x / 128 < zlen sb /\ x / 8 < zlen ms) sm
   end.
Proof.
  induction fuel as [|f IH]; intros s inf dl l B S HS Hf Hmt Hty; [lia|]. cbn [ole_entries]. cbv zeta.
  assert (HS' := HS). destruct HS' as [L1 L2 L3 L4 L5 L6 L7 L8 L9 L10]. assert (L1' := L1). destruct L1' as [A1 A2 A3 A4].
  pose proof HBv as HB. pose proof mi0 as Hmi.
  match goal with |- context [bind ?e _] => assert ((dl = [] /\ oc_ti s = 3 /\ exists s1, e = Ret s1 /\ oc_tb s1 < 0) \/
     exists s1 dl1, e = Ret s1 /\ seen s s1 dl dl1 /\ same_stat s s1 /\ oc_usedS s1 = oc_usedS s) as H1 end.
  { destruct (Z.eqb_spec (oc_ti s + 1) 4) as [E4|E4].
    - destruct L2 as (F1 & F2 & F3). rewrite (os_data D s A1), F1.
      rewrite (nextBlock_val big D bt HB HL Hbatv); [|apply L3|apply L3|apply inset_false, L9|lia|].
      2:{ destruct dl as [|y dl]; [left; exact L4|right]. destruct L4 as (E & _). rewrite E. apply Forall_app in L5 as (L5 & _). inversion L5 as [|? ? (Hy & _) _]; subst.
          split; [exact Hy|]. apply inset_false. apply L8. left; reflexivity. }
      cbn [bind]. destruct dl as [|y dl].
      + left. split; [reflexivity|]. split; [lia|]. rewrite L4. change (-2 =? -2) with true. cbn [bind]. eexists. split; [reflexivity|]. cbn [oc_tb]. lia.
      + right. destruct L4 as (E & L4). rewrite E. apply Forall_app in L5 as (L5 & _). inversion L5 as [|? ? (Hy & _) _]; subst.
        destruct (Z.eqb_spec (fat D bt (oc_tb s)) (-2)) as [E2|E2]; [destruct Hy; lia|]. cbn [bind].
        do 2 eexists. split; [reflexivity|]. destruct (Z.ltb_spec (fat D bt (oc_tb s)) 0); [destruct Hy; lia|].
        split; [right|]; [cbn [oc_ti oc_tb oc_used]; split; [lia|]; split; [reflexivity|]; split; reflexivity|].
        split; [unfold same_stat; cbn [oc_data oc_bat oc_sbat oc_sbatb]; rewrite (os_data D s A1), F1; tauto|reflexivity].
    - right. exists (mkO (oc_data s) (oc_bat s) (oc_sbat s) (oc_sbatb s) (oc_usedS s) (oc_used s) (oc_tb s) (oc_ti s + 1) (oc_db s) (oc_ss s) (oc_done s) (oc_off s) (oc_bs s) (oc_msize s)), dl.
      split; [reflexivity|]. split; [left; cbn; split; [lia|]; tauto|]. split; [unfold same_stat; cbn; tauto|reflexivity]. }
  destruct H1 as [(-> & E3 & s1 & -> & Htb)|(s1 & dl1 & -> & Hseen & Hsame & HuS)]; cbn [bind].
  { rewrite E3 in *. change (3 + 1 =? 4) with true. destruct (Z.ltb_spec (oc_tb s1) 0); [|lia]. cbn [andb]. do 3 eexists. split; [reflexivity|]. split; [exact Hmt|]. split; [exact Hty|].
    change (Z.to_nat (3 + 1)) with 4%nat in L10. cbn [skipn entry_offsets map concat app] in L10. inversion L10. reflexivity. }
  assert (okd (oc_tb s1)) as Hok1.
  { destruct Hseen as [(_ & _ & -> & _)|(_ & _ & -> & _)]; [exact L3|]. apply Forall_app in L5 as (L5 & _). inversion L5; assumption. }
  assert (0 <= oc_ti s1 <= 3) as Hti1 by (destruct Hseen as [(? & _ & _ & -> & _)|(_ & -> & _)]; lia).
  destruct (Z.ltb_spec (oc_tb s1) 0); [destruct Hok1 as ((? & _) & _); lia|]. rewrite andb_false_r.
  assert (oc_data s1 = D) as Ed1 by (destruct Hsame as (-> & _); apply (os_data D s A1)).
  set (o := 512 * (oc_tb s1 + 1) + 128 * oc_ti s1) in *.
  assert (skipn (Z.to_nat (oc_ti s + 1)) (entry_offsets (oc_tb s)) ++ concat (map entry_offsets dl) =
          o :: skipn (Z.to_nat (oc_ti s1 + 1)) (entry_offsets (oc_tb s1)) ++ concat (map entry_offsets dl1)) as Eos.
  { unfold o. destruct Hseen as [(H3 & -> & -> & -> & _)|(H3 & -> & -> & _)].
    - rewrite offs_step by lia. reflexivity.
    - rewrite H3. change (Z.to_nat (3 + 1)) with 4%nat. change (Z.to_nat (0 + 1)) with 1%nat. reflexivity. }
  rewrite Eos in L10.
  assert ((todo s1 dl1 < todo s dl)%nat) as Htodo.
  { unfold todo. destruct Hseen as [(H3 & -> & _ & -> & _)|(H3 & -> & -> & _)]; [lia|]. rewrite H3. cbn [length]. lia. }
  inversion L10 as [|o' os l' B' S' Hor Hst|o' os m l1 b B1 sm S1 Hstm Hst]; subst.
  - destruct (rei_other s1 inf Ed1 (proj1 Hok1) Hti1 Hor) as (ss & inf' & -> & Hm1 & Hm2). cbn [bind entry_state oc_db]. change (-1 <? 0) with true. cbv iota.
    fold (entry_state s1 (-1) ss).
    assert (lst (entry_state s1 (-1) ss) dl1 l B S) as HS2.
    { apply (lst_after s dl l B S s1 dl1 l [] B [] S (-1) ss HS Hseen Hsame HuS eq_refl eq_refl Hst). }
    destruct (IH (entry_state s1 (-1) ss) inf' dl1 l B S HS2) as (s' & inf2 & b & E & E1 & E2 & Hl); [unfold todo in *; cbn [entry_state oc_ti]; lia|congruence|congruence|].
    rewrite E. do 3 eexists. split; [reflexivity|]. split; [exact E1|]. split; [exact E2|]. destruct l as [|m l]; [exact Hl|].
    destruct Hl as (Hb & o2 & dl2 & bb & B1 & sm & S1 & Q1 & Q2 & Q3 & Q4 & Q5 & Q6 & Q7 & Q8). split; [exact Hb|]. exists o2, dl2, bb, B1, sm, S1.
    do 6 (split; [assumption|]). split; [unfold todo in *; cbn [entry_state oc_ti] in Q7; lia|exact Q8].
  - assert (Hstm' := Hstm). destruct Hstm' as [_ _ (_ & Hsz0) Hinf Hdata].
    assert (0 <= word D (o + 116) <= mi) as Hstart.
    { unfold blocks in Hdata. destruct (zlen (m_data m) <? 4096).
      - destruct Hdata as (-> & Hc & Hlen & _). destruct sm as [|x sm]; [exfalso; pose proof (Z.div_le_lower_bound (zlen (m_data m) + 64 - 1) 64 1); change (zlen (@nil Z)) with 0 in Hlen; lia|].
        destruct Hc as (-> & _). apply Forall_app in L6 as (L6 & _). inversion L6; subst. lia.
      - destruct Hdata as (-> & Hc & Hlen & _). destruct b as [|x b]; [exfalso; pose proof (Z.div_le_lower_bound (zlen (m_data m) + 512 - 1) 512 1); change (zlen (@nil Z)) with 0 in Hlen; lia|].
        destruct Hc as (-> & _). apply Forall_app in L5 as (_ & L5). inversion L5 as [|? ? (Hx & _) _]; subst. pose proof (mi_ge D x Hx). destruct Hx; lia. }
    rewrite (rei_stream s1 inf m b sm Ed1 (proj1 Hok1) Hti1 Hstm) by (fold o; lia). fold o. cbn [bind entry_state oc_db].
    destruct (Z.ltb_spec (word D (o + 116)) 0); [lia|]. fold (entry_state s1 (word D (o + 116)) (zlen (m_data m))).
    do 3 eexists. split; [reflexivity|]. cbn [i_mtime i_type]. split; [exact Hmt|]. split; [exact Hty|]. split; [reflexivity|].
    exists o, dl1, b, B1, sm, S1. split; [rewrite Hinf, Hmt, Hty; reflexivity|]. split; [reflexivity|]. split; [reflexivity|]. split; [exact Hstm|].
    split; [reflexivity|]. split; [reflexivity|]. split; [unfold todo in *; cbn [entry_state oc_ti]; lia|].
    split; [apply (lst_after s dl (m :: l1) (b ++ B1) (sm ++ S1) s1 dl1 l1 b B1 sm S1 _ _ HS Hseen Hsame HuS eq_refl eq_refl Hst)|].
    cbn [entry_state oc_used oc_usedS]. destruct L7 as (N1 & N2). destruct L8 as (U1 & U2).
    assert (forall x, In x b -> ~ In x (dl1 ++ B1)) as Hbd.
    { assert (NoDup (dl1 ++ b ++ B1)) as N3 by (destruct Hseen as [(_ & -> & _)|(_ & _ & -> & _)]; [exact N1|inversion N1; assumption]).
      intros x Hx Hin. apply in_app_iff in Hin as [Hin|Hin].
      - apply in_split in Hin as (u & v & ->). rewrite <- app_assoc in N3. cbn in N3. apply NoDup_remove_2 in N3. apply N3. rewrite !in_app_iff. auto.
      - apply NoDup_app_remove_l in N3. apply in_split in Hx as (u & v & ->). rewrite <- app_assoc in N3. cbn in N3. apply NoDup_remove_2 in N3. apply N3. rewrite !in_app_iff. auto. }
    split.
    { intros x Hx. assert (In x (dl ++ b ++ B1)) as Hin by (rewrite !in_app_iff; auto). specialize (U1 x Hin).
      destruct Hseen as [(_ & _ & _ & _ & ->)|(_ & _ & Edl & ->)]; [exact U1|]. intros [E|E]; [|contradiction]. rewrite Edl in N1. cbn [app] in N1. inversion N1 as [|? ? Nn _]; subst. apply Nn. rewrite !in_app_iff. auto. }
    split; [rewrite HuS; intros x Hx; apply U2, in_app_iff; auto|]. split; [exact Hbd|]. split.
    { intros x Hx Hin. apply in_split in Hx as (u & v & ->). rewrite <- app_assoc in N2. cbn in N2. apply NoDup_remove_2 in N2. apply N2. rewrite !in_app_iff. auto. }
    apply Forall_app in L5 as (_ & L5). apply Forall_app in L5 as (L5 & _). apply Forall_app in L6 as (L6 & _).
    split; [exact L5|]. split; [apply NoDup_app_remove_l in N1; apply NoDup_app_remove_r in N1; exact N1|]. split; [apply NoDup_app_remove_r in N2; exact N2|].
    eapply Forall_impl; [|exact L6]. cbn. tauto.
Qed.
End V.
