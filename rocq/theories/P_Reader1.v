(** Proofs for C42: the traversal step by step. *)
From Verif Require Import Base StreamSpec ArchiveSpec M_Ar CacheSpec M_Cache P_Cache M_Listing ListingSpec P_Listing.

Definition prov (l : list entry) : option (entry * list entry) := match l with [] => None | c :: m => Some (c, m) end.
Lemma prov_inj a b : prov a = prov b -> a = b.
Proof. destruct a, b; cbn; congruence. Qed.
Lemma added_app t a b : added t (a ++ b) = added (added t a) b.
Proof. unfold added. apply fold_left_app. Qed.

(** the frames from level [j] up to the current depth [d]: level [j] lists [es] into a tree that began as [t0] *)
Inductive stk (st : list frame) : Z -> list entry -> tree -> Z -> Prop :=
| stk_top j pre rest t0 : zget st j = Some (mkFrame (prov rest) (Some (added t0 pre))) -> stk st j (pre ++ rest) t0 j
| stk_down j pre i r e es more t0 d : zget st j = Some (mkFrame (Some (Entry i r (Arch e es), more)) (Some (added t0 pre))) ->
    stk st (j + 1) (e :: es) (T (or_dir i) []) d -> stk st j (pre ++ Entry i r (Arch e es) :: more) t0 d.
Lemma stk_le st j es t0 d : stk st j es t0 d -> j <= d.
Proof. induction 1; lia. Qed.
Lemma stk_same st st' j es t0 d : stk st j es t0 d -> (forall k, k <= d -> zget st' k = zget st k) -> stk st' j es t0 d.
Proof.
  induction 1 as [|j pre i r e es more t0 d G S IH]; intros A.
  - apply stk_top. rewrite A by lia. assumption.
  - pose proof (stk_le _ _ _ _ _ S). apply stk_down; [rewrite A by lia; assumption|]. apply IH. exact A.
Qed.
(** what is left to add at level [j] *)
Definition left_at (st : list frame) (j : Z) : list entry := match zget st j with Some (mkFrame (Some (c, m)) _) => c :: m | _ => [] end.
Lemma left_prov st j rest t : zget st j = Some (mkFrame (prov rest) t) -> left_at st j = rest.
Proof. unfold left_at. intros ->. destruct rest; reflexivity. Qed.
Lemma stk_root st j es t0 d : stk st j es t0 d -> exists pre, es = pre ++ left_at st j /\ exists p, zget st j = Some (mkFrame p (Some (added t0 pre))).
Proof.
  intros [j' pre rest t1 G|j' pre i r e es' more t1 d' G S].
  - exists pre. rewrite (left_prov _ _ _ _ G). split; [reflexivity|]. eexists; exact G.
  - exists pre. rewrite (left_prov st j' (Entry i r (Arch e es') :: more) _ G). split; [reflexivity|]. eexists; exact G.
Qed.
(** the top of the stack, and what may happen there *)
Lemma stk_at_top st j es t0 d : stk st j es t0 d ->
  exists pre rest t1, zget st d = Some (mkFrame (prov rest) (Some (added t1 pre))) /\
    (lev_l (pre ++ rest) + Z.to_nat (d - j) <= lev_l es)%nat /\
    (forall st' pre' rest', pre' ++ rest' = pre ++ rest -> (forall k, k < d -> zget st' k = zget st k) ->
       zget st' d = Some (mkFrame (prov rest') (Some (added t1 pre'))) -> stk st' j es t0 d) /\
    (forall st' i r e es' more, rest = Entry i r (Arch e es') :: more -> (forall k, k <= d -> zget st' k = zget st k) ->
       zget st' (d + 1) = Some (mkFrame (Some (e, es')) (Some (T (or_dir i) []))) -> stk st' j es t0 (d + 1)) /\
    ((d = j /\ pre ++ rest = es /\ t1 = t0) \/ exists pre0 i r e es' more t2, j <= d - 1 /\ pre ++ rest = e :: es' /\ t1 = T (or_dir i) [] /\
       zget st (d - 1) = Some (mkFrame (Some (Entry i r (Arch e es'), more)) (Some (added t2 pre0))) /\
       (forall st', (forall k, k < d - 1 -> zget st' k = zget st k) ->
          zget st' (d - 1) = Some (mkFrame (prov more) (Some (added t2 (pre0 ++ [Entry i r (Arch e es')])))) -> stk st' j es t0 (d - 1))).
Proof.
  induction 1 as [j pre rest t0 G|j pre i r e es more t0 d G S IH].
  - exists pre, rest, t0. split; [exact G|]. split; [lia|]. split; [|split; [|left; auto]].
    + intros st' pre' rest' E A G'. rewrite <- E. apply stk_top. exact G'.
    + intros st' i r e es' more -> A G'. apply stk_down; [rewrite A by lia; exact G|]. replace (e :: es') with ([] ++ e :: es') by reflexivity.
      apply stk_top. exact G'.
  - destruct IH as (pre1 & rest1 & t1 & G1 & LV & R1 & R2 & R3). pose proof (stk_le _ _ _ _ _ S) as LE.
    exists pre1, rest1, t1. split; [exact G1|]. split.
    { assert (lev_l (e :: es) < lev_l (pre ++ Entry i r (Arch e es) :: more))%nat.
      { clear. induction pre as [|x pre IH]; [|cbn [app lev_l fold_right] in *; fold (lev_l (pre ++ Entry i r (Arch e es) :: more)); lia].
        cbn [app]. unfold lev_l at 2. cbn [fold_right levels_e]. rewrite levels_arch. lia. }
      lia. }
    split; [|split].
    + intros st' pre' rest' E A G'. apply stk_down; [rewrite A by lia; exact G|]. apply (R1 _ _ _ E A G').
    + intros st' i' r' e' es' more' E A G'. apply stk_down; [rewrite A by lia; exact G|]. apply (R2 _ _ _ _ _ _ E A G').
    + right. destruct R3 as [(-> & E1 & E2)|(pre0 & i0 & r0 & e0 & es0 & more0 & t2 & LE2 & E0 & E1 & E2 & R3)].
      * exists pre, i, r, e, es, more, t0. replace (j + 1 - 1) with j by lia. split; [lia|]. split; [exact E1|]. split; [exact E2|]. split; [exact G|].
        intros st' A G2. replace (pre ++ Entry i r (Arch e es) :: more) with ((pre ++ [Entry i r (Arch e es)]) ++ more) by (rewrite <- app_assoc; reflexivity). apply stk_top. exact G2.
      * exists pre0, i0, r0, e0, es0, more0, t2. split; [lia|]. split; [exact E0|]. split; [exact E1|]. split; [exact E2|]. intros st' A G2.
        apply stk_down; [|apply R3; assumption]. rewrite A by lia. exact G.
Qed.
(** one call of nextEntry(depth): the stack stays well formed, and the first level advances by at most one entry *)
Lemma next_step fuel : forall st es t0 d, stk st 0 es t0 d -> 0 + Z.of_nat (lev_l es) + 2 <= zlen st ->
  (forall pre rest t1, zget st d = Some (mkFrame (prov rest) (Some (added t1 pre))) -> (lev_l rest < fuel)%nat) ->
  exists st' d', next_entry fuel st d = Ret (st', d') /\ zlen st' = zlen st /\
    ((d' = -1 /\ st' = st /\ left_at st 0 = [] /\ d = 0) \/
     (stk st' 0 es t0 d' /\ (left_at st' 0 = left_at st 0 \/ exists e, left_at st 0 = e :: left_at st' 0))).
Proof.
  induction fuel as [|fuel IH]; intros st es t0 d S LZ HF.
  { destruct (stk_at_top _ _ _ _ _ S) as (pre & rest & t1 & G & _). specialize (HF _ _ _ G). lia. }
  pose proof (stk_le _ _ _ _ _ S) as Hd.
  destruct (stk_at_top _ _ _ _ _ S) as (pre & rest & t1 & G & LV & R1 & R2 & R3).
  pose proof (zget_some_inv st d _ G) as B.
  assert (d + 1 < zlen st) as B1 by lia. destruct (zget_some st (d + 1)) as (f1 & G1); [lia|].
  cbn [next_entry]. destruct (Z.ltb_spec (zlen st) (d + 1)); [lia|]. unfold at_ at 1 2. rewrite G, G1. cbn [bind k_p].
  destruct rest as [|cur more]; cbn [prov].
  - (* the level is finished *)
    cbn [k_entry]. destruct (Z.eqb_spec d 0) as [->|N]; cbn [negb].
    + eexists st, (-1). split; [reflexivity|]. split; [reflexivity|]. left. rewrite (left_prov st 0 [] _ G). auto.
    + destruct R3 as [(-> & _)|(pre0 & i & r & e & es' & more & t2 & LE2 & E0 & E1 & G0 & R3)]; [lia|].
      rewrite app_nil_r in E0. subst pre t1. unfold list_add, at_. rewrite G0. cbn [bind k_p k_entry e_real].
      eexists _, (d - 1). split; [reflexivity|]. split; [apply zlen_put; lia|]. right. split.
      * apply R3.
        -- intros k Hk. rewrite zget_put by lia. destruct (Z.eqb_spec k (d - 1)); [lia|reflexivity].
        -- rewrite zget_put by lia. rewrite Z.eqb_refl. f_equal. f_equal. f_equal. rewrite added_app. change (added (added t2 pre0) [Entry i r (Arch e es')]) with (addEntry (added t2 pre0) (build (listed (Entry i r (Arch e es'))))). rewrite build_arch. reflexivity.
      * destruct (Z.eq_dec (d - 1) 0) as [E|NE].
        -- right. exists (Entry i r (Arch e es')). rewrite E in *. rewrite (left_prov st 0 (Entry i r (Arch e es') :: more) _ G0). f_equal.
           symmetry. eapply (left_prov _ 0 more). rewrite zget_put by lia. cbn [Z.eqb]. destruct more; reflexivity.
        -- left. unfold left_at. rewrite zget_put by lia. destruct (Z.eqb_spec 0 (d - 1)); [lia|reflexivity].
  - destruct cur as [i r s]. cbn [e_stream e_info]. destruct s as [|e es']; cbn [provider_of].
    + (* a plain entry *)
      unfold list_add, at_. rewrite zget_put by lia. destruct (Z.eqb_spec d (d + 1)); [lia|]. rewrite G. cbn [bind k_p k_entry e_real prov].
      eexists _, d. split; [reflexivity|]. split; [rewrite zlen_put by (rewrite zlen_put by lia; lia); apply zlen_put; lia|]. right.
      assert (forall k, zget (put (put st (d + 1) (mkFrame None (Some (T i [])))) d
        (mkFrame (match more with [] => None | c :: m => Some (c, m) end)
          (Some (addEntry (added t1 pre) (T (if i_size (t_info (T i [])) <? 0 then mkInfo (i_name (t_info (T i []))) (Z.max r 0) (i_mtime (t_info (T i []))) (i_type (t_info (T i []))) else t_info (T i [])) (t_ch (T i []))))))) k =
        if k =? d then Some (mkFrame (prov more) (Some (added t1 (pre ++ [Entry i r Plain])))) else if k =? d + 1 then Some (mkFrame None (Some (T i []))) else zget st k) as GP.
      { intros k. rewrite zget_put by (rewrite zlen_put by lia; lia). rewrite zget_put by lia. destruct (k =? d); [|reflexivity].
        f_equal. f_equal. f_equal. rewrite added_app. change (added (added t1 pre) [Entry i r Plain]) with (addEntry (added t1 pre) (build (listed (Entry i r Plain)))). rewrite build_listed. cbn [t_info t_ch]. f_equal. f_equal. destruct i as [nm sz mt ty]. cbn [i_size i_name i_mtime i_type]. destruct (sz <? 0); reflexivity. }
      split.
      * eapply (R1 _ (pre ++ [Entry i r Plain]) more).
        -- rewrite <- app_assoc. reflexivity.
        -- intros k Hk. rewrite GP. destruct (Z.eqb_spec k d); [lia|]. destruct (Z.eqb_spec k (d + 1)); [lia|reflexivity].
        -- rewrite GP, Z.eqb_refl. reflexivity.
      * destruct (Z.eq_dec d 0) as [->|NE].
        -- right. exists (Entry i r Plain). rewrite (left_prov st 0 (Entry i r Plain :: more) _ G). f_equal. symmetry. eapply (left_prov _ 0 more). rewrite GP. reflexivity.
        -- left. unfold left_at. rewrite GP. destruct (Z.eqb_spec 0 d); [lia|]. destruct (Z.eqb_spec 0 (d + 1)); [lia|reflexivity].
    + (* an archive: one level deeper *)
      set (st0 := put st (d + 1) (mkFrame (Some (e, es')) (Some (T (or_dir i) [])))).
      assert (zlen st0 = zlen st) as L0 by (apply zlen_put; lia).
      assert (forall k, zget st0 k = if k =? d + 1 then Some (mkFrame (Some (e, es')) (Some (T (or_dir i) []))) else zget st k) as GP by (intros k; unfold st0; apply zget_put; lia).
      assert (stk st0 0 es t0 (d + 1)) as S1.
      { eapply R2; [reflexivity| |].
        - intros k Hk. rewrite GP. destruct (Z.eqb_spec k (d + 1)); [lia|reflexivity].
        - rewrite GP, Z.eqb_refl. reflexivity. }
      destruct (IH st0 es t0 (d + 1) S1) as (st' & d' & E & L' & R).
      { rewrite L0. exact LZ. }
      { intros pre' rest' t' G'. rewrite GP, Z.eqb_refl in G'. assert (prov rest' = prov (e :: es')) as PE by (cbn [prov]; congruence). apply prov_inj in PE. subst rest'.
        specialize (HF _ _ _ G). unfold lev_l in HF. cbn [fold_right levels_e] in HF. rewrite levels_arch in HF. lia. }
      exists st', d'. split; [exact E|]. split; [lia|].
      assert (left_at st0 0 = left_at st 0) as LA by (unfold left_at; rewrite GP; destruct (Z.eqb_spec 0 (d + 1)); [lia|reflexivity]).
      destruct R as [(-> & -> & _ & C)|(S' & R)]; [lia|]. right. split; [exact S'|]. rewrite LA in R. exact R.
Qed.
