(** Proofs for C40. *)
From Verif Require Import Base StreamSpec ArchiveSpec M_Ar CacheSpec M_Cache P_Cache M_Listing ListingSpec.

Lemma zget_put st d f j : 0 <= d < zlen st -> zget (put st d f) j = if j =? d then Some f else zget st j.
Proof.
  intros H. unfold put. rewrite zget_splice by (try lia; change (zlen [f]) with 1; lia). change (zlen [f]) with 1.
  destruct (Z.eqb_spec j d) as [E|]; destruct (Z.leb_spec d j), (Z.ltb_spec j (d + 1)); try lia; cbn [andb]; try reflexivity.
  subst j. rewrite Z.sub_diag. reflexivity.
Qed.
Lemma zlen_put st d f : 0 <= d < zlen st -> zlen (put st d f) = zlen st.
Proof. intros H. unfold put. apply zlen_splice; [lia|]. change (zlen [f]) with 1. lia. Qed.
Definition lev_l (l : list entry) : nat := fold_right (fun x m => Nat.max (levels_e x) m) O l.
Definition cnt_l (l : list entry) : nat := fold_right (fun x m => (count_e x + m)%nat) O l.
Lemma levels_arch e es : levels (Arch e es) = S (lev_l (e :: es)).
Proof.
  cbn [levels lev_l fold_right]. f_equal. change (fold_right (fun x m => Nat.max (levels_e x) m) O es) with (lev_l es). generalize (levels_e e) as a. induction es as [|x es IH]; intros a; [cbn; lia|].
  cbn [fold_left lev_l fold_right]. rewrite IH. unfold lev_l. lia.
Qed.
Lemma count_arch e es : count (Arch e es) = cnt_l (e :: es).
Proof.
  cbn [count cnt_l fold_right]. change (fold_right (fun x m => (count_e x + m)%nat) O es) with (cnt_l es). generalize (count_e e) as a. induction es as [|x es IH]; intros a; [cbn; lia|].
  cbn [fold_left cnt_l fold_right]. rewrite IH. unfold cnt_l. lia.
Qed.
Lemma next_fuel fuel : forall st d cur more t, zget st d = Some (mkFrame (Some (cur, more)) t) -> (levels_e cur < fuel)%nat ->
  next_entry (S fuel) st d = next_entry fuel st d.
Proof.
  induction fuel as [|fuel IH]; intros st d cur more t G HL; [lia|].
  change (next_entry (S (S fuel)) st d) with (let* e := at_ (if zlen st <? d + 1 then st ++ repeat frame0 (Z.to_nat (d + 1 - zlen st)) else st) d in
     let st := (if zlen st <? d + 1 then st ++ repeat frame0 (Z.to_nat (d + 1 - zlen st)) else st) in
      let* _ := at_ st (d + 1) in
      match k_p e with
      | Some (cur, _) =>
          let p := provider_of (e_stream cur) in
          let i := match p with Some _ => or_dir (e_info cur) | None => e_info cur end in
          let st := put st (d + 1) (mkFrame p (Some (T i []))) in
          match p with
          | Some _ => next_entry (S fuel) st (d + 1)
          | None => list_add st d (T i [])
          end
      | None =>
          if negb (d =? 0) then
            match k_entry e with Some ce => list_add st (d - 1) ce | None => UB end
          else Ret (st, -1)
      end). 
  change (next_entry (S fuel) st d) with (let* e := at_ (if zlen st <? d + 1 then st ++ repeat frame0 (Z.to_nat (d + 1 - zlen st)) else st) d in
     let st := (if zlen st <? d + 1 then st ++ repeat frame0 (Z.to_nat (d + 1 - zlen st)) else st) in
      let* _ := at_ st (d + 1) in
      match k_p e with
      | Some (cur, _) =>
          let p := provider_of (e_stream cur) in
          let i := match p with Some _ => or_dir (e_info cur) | None => e_info cur end in
          let st := put st (d + 1) (mkFrame p (Some (T i []))) in
          match p with
          | Some _ => next_entry fuel st (d + 1)
          | None => list_add st d (T i [])
          end
      | None =>
          if negb (d =? 0) then
            match k_entry e with Some ce => list_add st (d - 1) ce | None => UB end
          else Ret (st, -1)
      end). cbv zeta. pose proof (zget_some_inv st d _ G) as B.
  destruct (Z.ltb_spec (zlen st) (d + 1)); [lia|]. unfold at_. rewrite G. cbn [bind k_p].
  destruct (zget st (d + 1)) as [f1|] eqn:G1; [|reflexivity]. cbn [bind]. pose proof (zget_some_inv st (d + 1) _ G1) as B1.
  destruct cur as [i r s]. cbn [e_stream e_info]. destruct s as [|e es]; cbn [provider_of]; [reflexivity|].
  eapply (IH _ (d + 1) e es). { rewrite zget_put by lia. rewrite Z.eqb_refl. reflexivity. }
  cbn [levels_e] in HL. rewrite levels_arch in HL. cbn [lev_l fold_right] in HL. lia.
Qed.
Definition added (t : tree) (l : list entry) : tree := fold_left (fun t e => addEntry t (build (listed e))) l t.
Lemma build_listed i r s : build (listed (Entry i r s)) =
  match s with
  | Plain => T (mkInfo (i_name i) (if i_size i <? 0 then Z.max r 0 else i_size i) (i_mtime i) (i_type i)) []
  | Arch e es => added (T (mkInfo (i_name i) (if i_size i <? 0 then Z.max r 0 else i_size i) (i_mtime i) (Z.lor (i_type i) 1)) []) (e :: es)
  end.
Proof.
  destruct s as [|e es]; [reflexivity|]. cbn [listed build]. unfold added. cbn [fold_left].
  match goal with |- _ = fold_left _ es ?T => generalize T end. induction es as [|x es IH]; intros t0; [reflexivity|]. cbn [map fold_left]. apply IH.
Qed.
Lemma added_info t l : t_info (added t l) = t_info t.
Proof. unfold added. revert t. induction l as [|e l IH]; intros t; [reflexivity|]. cbn [fold_left]. rewrite IH. apply addEntry_info. Qed.
(** the children do not depend on the information of the entry itself *)
Lemma add_at_ch ns l se t t' : t_ch t = t_ch t' -> t_ch (add_at ns l se t) = t_ch (add_at ns l se t').
Proof. intros H. destruct ns; cbn [add_at t_ch]; rewrite H; reflexivity. Qed.
Lemma added_ch t t' l : t_ch t = t_ch t' -> t_ch (added t l) = t_ch (added t' l).
Proof.
  revert t t'. induction l as [|e l IH]; intros t t' H; [exact H|]. unfold added in *. cbn [fold_left]. apply IH.
  unfold addEntry. destruct (split_path _ []). apply add_at_ch. exact H.
Qed.
Lemma tree_eta t : t = T (t_info t) (t_ch t).
Proof. destruct t; reflexivity. Qed.
Lemma build_arch i r e es :
  build (listed (Entry i r (Arch e es))) =
  let ce := added (T (or_dir i) []) (e :: es) in
  T (if i_size (t_info ce) <? 0 then mkInfo (i_name (t_info ce)) (Z.max r 0) (i_mtime (t_info ce)) (i_type (t_info ce)) else t_info ce) (t_ch ce).
Proof.
  cbv zeta. rewrite build_listed. rewrite (tree_eta (added (T (mkInfo _ _ _ _) []) (e :: es))). rewrite !added_info. cbn [t_info].
  f_equal; [|apply added_ch; reflexivity]. unfold or_dir. cbn [i_size i_name i_mtime i_type]. destruct (i_size i <? 0); reflexivity.
Qed.
Lemma run_frame n : forall e es d st t fuel, (cnt_l (e :: es) <= n)%nat -> 0 <= d ->
  zget st d = Some (mkFrame (Some (e, es)) (Some t)) -> d + Z.of_nat (lev_l (e :: es)) + 2 <= zlen st -> (lev_l (e :: es) < fuel)%nat ->
  exists st', (forall m, list_all (cnt_l (e :: es) + m) fuel st d = list_all m fuel st' d) /\
    zget st' d = Some (mkFrame None (Some (added t (e :: es)))) /\ zlen st' = zlen st /\ forall j, j < d -> zget st' j = zget st j.
Proof.
  induction n as [|n IH]; intros e es d st t fuel Hn Hd G HL HF.
  { cbn [cnt_l fold_right] in Hn. destruct e. cbn [count_e] in Hn. lia. }
  cbn [cnt_l lev_l fold_right] in *. change (fold_right (fun x m => Nat.max (levels_e x) m) O es) with (lev_l es) in *. change (fold_right (fun x m => (count_e x + m)%nat) O es) with (cnt_l es) in *.
  (* after [e] has been added *)
  assert (forall st1 k, (k + cnt_l es <= S n)%nat -> (1 <= k)%nat -> (forall m, list_all (k + m) fuel st d = list_all m fuel st1 d) ->
     zget st1 d = Some (mkFrame (match es with [] => None | c :: m => Some (c, m) end) (Some (addEntry t (build (listed e))))) ->
     zlen st1 = zlen st -> (forall j, j < d -> zget st1 j = zget st j) ->
     exists st', (forall m, list_all (k + cnt_l es + m) fuel st d = list_all m fuel st' d) /\
       zget st' d = Some (mkFrame None (Some (added t (e :: es)))) /\ zlen st' = zlen st /\ forall j, j < d -> zget st' j = zget st j) as REST.
  { intros st1 k Hk Hk1 E1 G1 L1 A1. destruct es as [|c m].
    - exists st1. split; [intros m; cbn [cnt_l fold_right]; replace (k + 0 + m)%nat with (k + m)%nat by lia; apply E1|]. auto.
    - cbn [lev_l cnt_l fold_right] in *. destruct (IH c m d st1 (addEntry t (build (listed e))) fuel) as (st2 & E2 & G2 & L2 & A2); try assumption.
      + cbn [cnt_l fold_right]. lia.
      + rewrite L1. cbn [lev_l fold_right]. lia.
      + cbn [lev_l fold_right]. lia.
      + exists st2. split; [|split; [exact G2|split; [lia|intros j Hj; rewrite A2 by exact Hj; apply A1; exact Hj]]].
        intros q. rewrite <- E2, <- E1. f_equal. cbn [cnt_l fold_right]. lia. }
  pose proof (zget_some_inv st d _ G) as B.
  destruct (zget_some st (d + 1)) as (f1 & G1); [lia|].
  destruct fuel as [|fuel]; [lia|].
  destruct e as [i r s]. destruct s as [|e1 es1].
  - (* plain *)
    cbn [count_e count]. set (st0 := put st (d + 1) (mkFrame None (Some (T i [])))).
    set (st1 := put st0 d (mkFrame (match es with [] => None | c :: m => Some (c, m) end) (Some (addEntry t (build (listed (Entry i r Plain))))))).
    assert (zlen st0 = zlen st) as L0 by (apply zlen_put; lia).
    assert (next_entry (S fuel) st d = Ret (st1, d)) as E.
    { cbn [next_entry]. destruct (Z.ltb_spec (zlen st) (d + 1)); [lia|]. unfold at_ at 1 2. rewrite G, G1. cbn [bind k_p e_stream e_info provider_of].
      fold st0. unfold list_add, at_. assert (zget st0 d = Some (mkFrame (Some (Entry i r Plain, es)) (Some t))) as G0.
      { unfold st0. rewrite zget_put by lia. destruct (Z.eqb_spec d (d + 1)); [lia|exact G]. }
      rewrite G0. cbn [bind k_p k_entry e_real]. unfold st1. rewrite build_listed. cbn [t_info t_ch].
      destruct (i_size i <? 0); [reflexivity|]. destruct i; reflexivity. }
    apply (REST st1 1%nat).
    + destruct es; cbn [cnt_l fold_right] in *; cbn [count_e count] in Hn; lia.
    + lia.
    + intros m. cbn [Nat.add list_all]. destruct (Z.ltb_spec d 0); [lia|]. rewrite E. reflexivity.
    + unfold st1. rewrite zget_put by lia. rewrite Z.eqb_refl. reflexivity.
    + unfold st1. rewrite zlen_put by lia. exact L0.
    + intros j Hj. unfold st1, st0. rewrite !zget_put by (try rewrite zlen_put by lia; lia). destruct (Z.eqb_spec j d); [lia|]. destruct (Z.eqb_spec j (d + 1)); [lia|]. reflexivity.
  - (* an archive *)
    cbn [count_e levels_e] in *. rewrite count_arch, levels_arch in *.
    set (st0 := put st (d + 1) (mkFrame (Some (e1, es1)) (Some (T (or_dir i) [])))).
    assert (zlen st0 = zlen st) as L0 by (apply zlen_put; lia).
    assert (zget st0 (d + 1) = Some (mkFrame (Some (e1, es1)) (Some (T (or_dir i) [])))) as G0 by (unfold st0; rewrite zget_put by lia; rewrite Z.eqb_refl; reflexivity).
    assert (next_entry (S fuel) st d = next_entry (S fuel) st0 (d + 1)) as E.
    { rewrite (next_fuel fuel st0 (d + 1) e1 es1 _ G0) by (cbn [lev_l fold_right] in HF; lia).
      cbn [next_entry]. destruct (Z.ltb_spec (zlen st) (d + 1)); [lia|]. unfold at_ at 1 2. rewrite G, G1. reflexivity. }
    destruct (IH e1 es1 (d + 1) st0 (T (or_dir i) []) (S fuel)) as (st2 & E2 & G2 & L2 & A2).
    { unfold cnt_l in *; cbn [fold_right] in *; lia. } { lia. } { exact G0. } { rewrite L0. unfold lev_l in *; cbn [fold_right] in *; lia. } { unfold lev_l in *; cbn [fold_right] in *; lia. }
    set (ce := added (T (or_dir i) []) (e1 :: es1)) in *.
    set (st1 := put st2 d (mkFrame (match es with [] => None | c :: m => Some (c, m) end) (Some (addEntry t (build (listed (Entry i r (Arch e1 es1)))))))).
    assert (zget st2 d = Some (mkFrame (Some (Entry i r (Arch e1 es1), es)) (Some t))) as GD.
    { rewrite A2 by lia. unfold st0. rewrite zget_put by lia. destruct (Z.eqb_spec d (d + 1)); [lia|exact G]. }
    assert (next_entry (S fuel) st2 (d + 1) = Ret (st1, d)) as E3.
    { cbn [next_entry]. destruct (Z.ltb_spec (zlen st2) (d + 1 + 1)); [lia|]. unfold at_ at 1. rewrite G2. cbn [bind].
      destruct (zget_some st2 (d + 1 + 1)) as (f2 & GF); [lia|]. unfold at_ at 1. rewrite GF. cbn [bind k_p k_entry].
      destruct (Z.eqb_spec (d + 1) 0); [lia|]. cbn [negb]. replace (d + 1 - 1) with d by lia. unfold list_add, at_. rewrite GD. cbn [bind k_p k_entry e_real].
      unfold st1. rewrite build_arch. reflexivity. }
    replace (S (cnt_l (e1 :: es1)) + cnt_l es)%nat with ((cnt_l (e1 :: es1) + 1) + cnt_l es)%nat by lia.
    apply (REST st1).
    + unfold cnt_l in *; cbn [fold_right] in *; lia.
    + lia.
    + intros m. replace (cnt_l (e1 :: es1) + 1 + m)%nat with (cnt_l (e1 :: es1) + (1 + m))%nat by lia.
      transitivity (list_all (cnt_l (e1 :: es1) + (1 + m)) (S fuel) st0 (d + 1)).
      { replace (cnt_l (e1 :: es1) + (1 + m))%nat with (S (cnt_l (e1 :: es1) + m))%nat by lia. cbn [list_all].
        destruct (Z.ltb_spec d 0); [lia|]. destruct (Z.ltb_spec (d + 1) 0); [lia|]. rewrite E. reflexivity. }
      rewrite E2. cbn [Nat.add list_all]. destruct (Z.ltb_spec (d + 1) 0); [lia|]. rewrite E3. reflexivity.
    + unfold st1. rewrite zget_put by lia. rewrite Z.eqb_refl. reflexivity.
    + unfold st1. rewrite zlen_put by lia. lia.
    + intros j Hj. unfold st1. rewrite zget_put by lia. destruct (Z.eqb_spec j d); [lia|]. rewrite A2 by lia. unfold st0. rewrite zget_put by lia.
      destruct (Z.eqb_spec j (d + 1)); [lia|]. reflexivity.
Qed.
Lemma fold_listed es t0 : fold_left (fun t e => addEntry t (build (listed e))) es t0 = fold_left (fun t e => addEntry t (build e)) (map listed es) t0.
Proof. revert t0. induction es as [|x es IH]; intros t0; [reflexivity|]. cbn [map fold_left]. apply IH. Qed.
Lemma listing_ok root s : (levels s <= 9)%nat ->
  exists st', (let '(st, d) := list_new root s in list_all (count s + 2) (levels s + 1) st d) = Ret st' /\
    list_root st' = Some (build (listed_root root s)).
Proof.
  intros HL. destruct s as [|e es].
  - eexists. split; [reflexivity|]. reflexivity.
  - unfold list_new. cbn [provider_of]. rewrite count_arch, levels_arch in *.
    set (st := put (repeat frame0 10) 0 _).
    destruct (run_frame (cnt_l (e :: es)) e es 0 st (T (or_dir root) []) (S (lev_l (e :: es)) + 1)) as (st' & E & G & L & _).
    { lia. } { lia. } { reflexivity. } { change (zlen st) with 10. lia. } { lia. }
    exists st'. split.
    + rewrite E. cbn [list_all]. destruct (Z.ltb_spec 0 0); [lia|]. cbn [Nat.add next_entry].
      change (zlen st) with 10 in L. destruct (Z.ltb_spec (zlen st') (0 + 1)); [lia|]. unfold at_. rewrite G. cbn [bind].
      destruct (zget_some st' (0 + 1)) as (f1 & ->); [lia|]. reflexivity.
    + unfold list_root. rewrite G. cbn [k_entry]. f_equal. cbn [listed_root build map fold_left]. unfold added. cbn [fold_left].
      apply fold_listed.
Qed.
