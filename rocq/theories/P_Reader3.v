(** Proofs for C42: listings in progress and listers. *)
From Coq Require Import Permutation.
From Verif Require Import Base StreamSpec ArchiveSpec M_Ar CacheSpec M_Cache P_Cpio P_Cache M_Listing ListingSpec P_Listing M_Reader ReaderSpec P_Reader1 P_Reader2.

(** the entry of the file itself *)
Definition phys (f : file) : info :=
  match f_stream f with Some (Arch _ _) => mkInfo (i_name (f_info f)) (i_size (f_info f)) (i_mtime (f_info f)) 3 | _ => f_info f end.

Section R.
Variable fs : list Z -> option file.
Record lip_is (l : lip) (f : file) (s : stream) (t : tree) (m : nat) : Prop := {
  li_fs : fs (lp_url l) = Some f;
  li_s : f_stream f = Some s;
  li_fr : lp_freed l = false;
  li_root : list_root (lp_st l) = Some t;
  li_pre : exists pre rest, ents s = pre ++ rest /\ t = added (T (phys f) []) pre /\ (lp_depth l < 0 -> rest = []) /\
     (0 <= lp_depth l -> stk (lp_st l) 0 (ents s) (T (phys f) []) (lp_depth l) /\ zlen (lp_st l) = 10 /\ left_at (lp_st l) 0 = rest);
  li_open : lp_open l = false -> lp_depth l < 0;
  li_rt : lp_root l = false -> lp_open l = false;
  li_m : exists st', list_all m 20 (lp_st l) (lp_depth l) = Ret st' }.
Definition good_file (f : file) (s : stream) : Prop := (levels s <= 9)%nat /\ fresh_paths (listed_root (f_info f) s).

Lemma lip_full l f s t m : lip_is l f s t m -> lp_depth l < 0 -> t = added (T (phys f) []) (ents s).
Proof. intros [? ? ? ? (pre & rest & E & Et & Hd & _) _ _ _] D. rewrite (Hd D), app_nil_r in E. congruence. Qed.
Lemma lev_ents s : (levels s <= 9 -> lev_l (ents s) <= 8)%nat.
Proof. destruct s as [|e es]; [cbn; lia|]. rewrite levels_arch. cbn [ents]. lia. Qed.
Lemma lev_rest a b : (lev_l b <= lev_l (a ++ b))%nat.
Proof. induction a as [|x a IH]; [apply le_n|]. change (lev_l ((x :: a) ++ b)) with (Nat.max (levels_e x) (lev_l (a ++ b))). lia. Qed.
Lemma adv_ok l f s t m : good_file f s -> lip_is l f s t m ->
  exists l' t' m', lip_adv l = Ret (l', 0 <=? lp_depth l') /\ lip_is l' f s t' m' /\ lp_url l' = lp_url l /\ lp_root l' = lp_root l /\ ext t t' /\
    (0 <= lp_depth l' -> (m' < m)%nat) /\ (m' <= m)%nat /\ (lp_depth l < 0 -> lp_depth l' < 0).
Proof.
  intros (HL & HF) LI. destruct LI as [A1 A2 A3 A4 (pre & rest & E & Et & Hd & Hs) A6 A7 (st2 & A8)]. unfold lip_adv.
  destruct (Z.leb_spec 0 (lp_depth l)) as [D|D].
  - destruct (Hs D) as (S & Z10 & LA). pose proof (lev_ents s HL) as LE.
    destruct (next_step 20 (lp_st l) (ents s) (T (phys f) []) (lp_depth l) S) as (st' & d' & N & Zl & R).
    { lia. }
    { intros pre' rest' t1 G. destruct (stk_at_top _ _ _ _ _ S) as (pre1 & rest1 & t2 & G1 & LV & _). rewrite G1 in G.
      assert (prov rest' = prov rest1) as PE by congruence. apply prov_inj in PE. subst rest'. pose proof (lev_rest pre1 rest1). lia. }
    rewrite N. cbn [bind]. destruct m as [|m]; [discriminate|]. cbn [list_all] in A8. destruct (Z.ltb_spec (lp_depth l) 0) as [|_]; [lia|]. rewrite N in A8. cbn [bind] in A8.
    assert (exists t', list_root st' = Some t' /\ ext t t' /\ exists pre' rest', ents s = pre' ++ rest' /\ t' = added (T (phys f) []) pre' /\ (d' < 0 -> rest' = []) /\
      (0 <= d' -> stk st' 0 (ents s) (T (phys f) []) d' /\ zlen st' = 10 /\ left_at st' 0 = rest')) as (t' & R1 & R2 & R3).
    { destruct R as [(-> & -> & LN & _)|(S' & LN)].
      - exists t. split; [exact A4|]. split; [apply ext_refl|]. exists pre, rest. split; [exact E|]. split; [exact Et|]. split; [congruence|lia].
      - pose proof (stk_le _ _ _ _ _ S'). destruct (stk_root _ _ _ _ _ S') as (pre' & E' & p' & G').
        exists (added (T (phys f) []) pre'). split; [unfold list_root; rewrite G'; reflexivity|]. split.
        + subst t. rewrite <- LA in E. destruct LN as [LN|(x & LN)].
          * rewrite LN in E'. rewrite E' in E. apply app_inv_tail in E. subst. apply ext_refl.
          * rewrite LN in E. assert (pre' = pre ++ [x]) as ->.
            { rewrite E' in E. change (x :: left_at st' 0) with ([x] ++ left_at st' 0) in E. rewrite app_assoc in E. apply app_inv_tail in E. exact E. }
            apply (ext_added _ _ _ HF [x] pre (left_at st' 0)). exact E.
        + exists pre', (left_at st' 0). split; [exact E'|]. split; [reflexivity|]. split; [lia|]. intros _. split; [exact S'|]. split; [lia|reflexivity]. }
    exists (mkLip (lp_url l) st' d' (if d' <? 0 then false else lp_open l) (lp_root l) (lp_freed l)), t', m. split; [reflexivity|].
    split; [|cbn [lp_url lp_root lp_depth lp_open]; split; [reflexivity|split; [reflexivity|split; [exact R2|split; [lia|split; [lia|]]]]]].
    + split; cbn [lp_url lp_st lp_depth lp_open lp_root lp_freed]; try assumption.
      * destruct (Z.ltb_spec d' 0); [lia|]. intros O. specialize (A6 O). lia.
      * intros O. specialize (A7 O). rewrite A7. destruct (d' <? 0); reflexivity.
      * exists st2. exact A8.
    + lia.
  - cbn [bind]. destruct (Z.ltb_spec (lp_depth l) 0); [|lia].
    exists (mkLip (lp_url l) (lp_st l) (lp_depth l) false (lp_root l) (lp_freed l)), t, m. split; [reflexivity|].
    split; [|cbn [lp_url lp_root lp_depth lp_open]; split; [reflexivity|split; [reflexivity|split; [apply ext_refl|split; [lia|split; [lia|auto]]]]]].
    split; cbn [lp_url lp_st lp_depth lp_open lp_root lp_freed]; try assumption; auto.
    + exists pre, rest. auto.
    + exists st2. exact A8.
Qed.
Lemma node_tfind t p : node_at t p = tfind t p.
Proof. revert t. induction p as [|c p IH]; intros t; [reflexivity|]. cbn [node_at tfind]. destruct (get (t_ch t) c); [apply IH|reflexivity]. Qed.
Lemma lip_tree_ok l f s t m : lip_is l f s t m -> lip_tree l = Ret t.
Proof. intros LI. unfold lip_tree. rewrite (li_fr _ _ _ _ _ LI), (li_root _ _ _ _ _ LI). reflexivity. Qed.
Lemma lip_node_ok l f s t m p x : lip_is l f s t m -> tfind t p = Some x -> lip_node l p = Ret x.
Proof. intros LI F. unfold lip_node. rewrite (lip_tree_ok _ _ _ _ _ LI). cbn [bind]. rewrite node_tfind, F. reflexivity. Qed.
Lemma lip_wf l f s t m : lip_is l f s t m -> wf (cnt_l (ents s)) t.
Proof.
  intros [? ? ? ? (pre & rest & E & Et & _) _ _ _]. subst t. apply (wf_mono (cnt_l pre)); [|apply wf_tree]. rewrite E.
  clear. induction pre as [|x pre IH]; [cbn; lia|]. cbn [app cnt_l fold_right] in *. fold (cnt_l pre). fold (cnt_l (pre ++ rest)). lia.
Qed.
(** growing nodes *)
Definition grows (x x' : tree) : Prop := forall c y, In (c, y) (t_ch x) -> exists y', In (c, y') (t_ch x') /\ t_info y' = t_info y.
Lemma ext_node n t t' p x : ext t t' -> wf n t -> tfind t p = Some x -> exists x', tfind t' p = Some x' /\ grows x x'.
Proof.
  intros X W F.
  assert (exists x', tfind t' p = Some x') as (x' & F').
  { destruct p as [|c p]; [eexists; reflexivity|]. specialize (X (c :: p) (t_info x) ltac:(discriminate)). rewrite F in X. specialize (X eq_refl).
    destruct (tfind t' (c :: p)); [eauto|discriminate]. }
  exists x'. split; [exact F'|]. intros c y I. destruct (W _ _ F) as (A & _ & _). pose proof (get_nodup _ _ _ A I) as G.
  specialize (X (p ++ [c]) (t_info y)). assert (p ++ [c] <> []) as NE by (destruct p; discriminate). specialize (X NE).
  rewrite tfind_app, F in X. cbn [tfind] in X. rewrite G in X. specialize (X eq_refl). rewrite tfind_app, F' in X. cbn [tfind] in X.
  destruct (get (t_ch x') c) as [y'|] eqn:G'; [|discriminate]. exists y'. split; [apply get_in; exact G'|]. cbn in X. congruence.
Qed.
Lemma grows_keys x x' : grows x x' -> incl (map fst (t_ch x)) (map fst (t_ch x')).
Proof. intros G c I. apply in_map_iff in I. destruct I as ((c' & y) & <- & I). destruct (G _ _ I) as (y' & I' & _). apply (in_map fst) in I'. exact I'. Qed.
Lemma grows_len x x' : NoDup (map fst (t_ch x)) -> grows x x' -> zlen (t_ch x) <= zlen (t_ch x').
Proof.
  intros N G. pose proof (NoDup_incl_length N (grows_keys _ _ G)) as L. rewrite !map_length in L. unfold zlen. lia.
Qed.
Lemma grows_trans a b c : grows a b -> grows b c -> grows a c.
Proof. intros G H k y I. destruct (G _ _ I) as (y' & I' & E). destruct (H _ _ I') as (y2 & I2 & E2). exists y2. split; [exact I2|congruence]. Qed.
Lemma grows_refl a : grows a a. Proof. intros k y I. eauto. Qed.

Lemma grow_ok N : forall l f s t m p x size, good_file f s -> lip_is l f s t m -> (m < N)%nat -> tfind t p = Some x -> size <= zlen (t_ch x) ->
  exists l' t' x' m', lip_grow N l p size = Ret (l', size <? zlen (t_ch x')) /\ lip_is l' f s t' m' /\ lp_url l' = lp_url l /\ lp_root l' = lp_root l /\ (m' <= m)%nat /\
    ext t t' /\ tfind t' p = Some x' /\ grows x x' /\ (zlen (t_ch x') <= size -> lp_depth l' < 0) /\ (lp_depth l < 0 -> lp_depth l' < 0).
Proof.
  induction N as [|N IH]; intros l f s t m p x size GF LI HN F Hs; [lia|]. cbn [lip_grow].
  destruct (adv_ok _ _ _ _ _ GF LI) as (l1 & t1 & m1 & E1 & LI1 & U1 & R1 & X1 & M1 & M1' & O1). rewrite E1. cbn [bind].
  destruct (ext_node _ _ _ _ _ X1 (lip_wf _ _ _ _ _ LI) F) as (x1 & F1 & G1). rewrite (lip_node_ok _ _ _ _ _ _ _ LI1 F1). cbn [bind].
  destruct (lip_wf _ _ _ _ _ LI _ _ F) as (ND & _). pose proof (grows_len _ _ ND G1) as GL.
  destruct (Z.leb_spec 0 (lp_depth l1)) as [D|D]; cbn [andb].
  - destruct (Z.eqb_spec size (zlen (t_ch x1))) as [Es|Ns].
    + destruct (IH l1 f s t1 m1 p x1 size GF LI1) as (l2 & t2 & x2 & m2 & E2 & LI2 & U2 & R2 & M2 & X2 & F2 & G2 & D2 & O2); [lia|exact F1|lia|].
      exists l2, t2, x2, m2. split; [exact E2|]. split; [exact LI2|]. split; [congruence|]. split; [congruence|]. split; [lia|]. split; [eapply ext_trans; eassumption|].
      split; [exact F2|]. split; [eapply grows_trans; eassumption|]. split; [exact D2|auto].
    + exists l1, t1, x1, m1. split; [reflexivity|]. split; [exact LI1|]. split; [exact U1|]. split; [exact R1|]. split; [lia|]. split; [exact X1|]. split; [exact F1|]. split; [exact G1|]. split; [lia|exact O1].
  - exists l1, t1, x1, m1. split; [reflexivity|]. split; [exact LI1|]. split; [exact U1|]. split; [exact R1|]. split; [lia|]. split; [exact X1|]. split; [exact F1|]. split; [exact G1|]. split; [lia|exact O1].
Qed.
Lemma next_node_ok N l f s t m p x : good_file f s -> lip_is l f s t m -> (m < N)%nat -> tfind t p = Some x ->
  exists l' t' x' m', lip_next_node N l p = Ret (l', zlen (t_ch x) <? zlen (t_ch x')) /\ lip_is l' f s t' m' /\ lp_url l' = lp_url l /\ lp_root l' = lp_root l /\ (m' <= m)%nat /\
    ext t t' /\ tfind t' p = Some x' /\ grows x x' /\ (zlen (t_ch x') <= zlen (t_ch x) -> lp_depth l' < 0) /\ (lp_depth l < 0 -> lp_depth l' < 0).
Proof.
  intros GF LI HN F. unfold lip_next_node. destruct (Z.ltb_spec (lp_depth l) 0) as [D|D].
  - exists l, t, x, m. rewrite Z.ltb_irrefl. split; [reflexivity|]. split; [exact LI|]. split; [reflexivity|]. split; [reflexivity|]. split; [lia|]. split; [apply ext_refl|]. split; [exact F|].
    split; [apply grows_refl|]. auto.
  - rewrite (lip_node_ok _ _ _ _ _ _ _ LI F). cbn [bind]. apply (grow_ok N l f s t m p x); [exact GF|exact LI|exact HN|exact F|lia].
Qed.
Lemma find_url l f s t m url rest : lip_is l f s t m -> url = lp_url l ++ 47 :: rest -> root_findEntry t (lp_url l) url = Ret (tfind t (comps rest)).
Proof.
  intros LI ->. unfold root_findEntry. set (k := lp_url l). pose proof (zlen_nonneg k). pose proof (zlen_nonneg rest).
  assert (zlen (k ++ 47 :: rest) = zlen k + 1 + zlen rest) as Lf by (rewrite zlen_app, zlen_cons; lia).
  rewrite find_below_ok by (try lia; unfold zlen in *; lia). do 3 f_equal.
  replace (Z.to_nat (zlen k + 1)) with (length k + 1)%nat by (unfold zlen; lia). rewrite skipn_app. rewrite skipn_all2 by lia.
  replace (length k + 1 - length k)%nat with 1%nat by lia. reflexivity.
Qed.
Lemma rest_path_ok base rest : rest_path base (base ++ 47 :: rest) = comps rest.
Proof.
  unfold rest_path. assert (slice (base ++ 47 :: rest) (zlen base + 1) (zlen (base ++ 47 :: rest)) = rest) as ->.
  { pose proof (zlen_nonneg base). pose proof (zlen_nonneg rest). unfold slice. replace (Z.to_nat (zlen base + 1)) with (length base + 1)%nat by (unfold zlen; lia).
    rewrite skipn_app, skipn_all2 by lia. replace (length base + 1 - length base)%nat with 1%nat by lia. cbn [skipn app].
    apply firstn_all2. rewrite zlen_app, zlen_cons. unfold zlen. lia. }
  pose proof (split_comps rest []) as S. destruct (split_path rest []) as [ns l]. rewrite S. destruct (comps rest) eqn:E; [exfalso; exact (comps_ne _ E)|]. reflexivity.
Qed.
Lemma search_ok N : forall l f s t m rest ok url, good_file f s -> lip_is l f s t m -> lp_root l = true -> (m + 1 < N)%nat -> (ok = false -> lp_depth l < 0) ->
  url = lp_url l ++ 47 :: rest ->
  exists l' t' m', lip_search N l url ok (tfind t (comps rest)) = Ret (l', tfind t' (comps rest)) /\ lip_is l' f s t' m' /\ lp_url l' = lp_url l /\ lp_root l' = true /\ (m' <= m)%nat /\
    ext t t' /\ (match tfind t' (comps rest) with Some x => t_ch x = [] | None => True end -> lp_depth l' < 0) /\ (lp_depth l < 0 -> lp_depth l' < 0).
Proof.
  induction N as [|N IH]; intros l f s t m rest ok url GF LI LR HN Hok U; [lia|]. cbn [lip_search].
  destruct (ok && match tfind t (comps rest) with Some n => zlen (t_ch n) =? 0 | None => true end) eqn:C.
  - apply andb_prop in C. destruct C as (-> & C).
    destruct (adv_ok _ _ _ _ _ GF LI) as (l1 & t1 & m1 & E1 & LI1 & U1 & R1 & X1 & M1 & M1' & O1). rewrite E1. cbn [bind].
    unfold lip_root. rewrite R1, LR, (lip_tree_ok _ _ _ _ _ LI1). cbn [bind]. rewrite (find_url _ _ _ _ _ url rest LI1) by congruence. cbn [bind].
    destruct (Z.leb_spec 0 (lp_depth l1)) as [D|D].
    + destruct (IH l1 f s t1 m1 rest true url GF LI1) as (l2 & t2 & m2 & E2 & LI2 & U2 & R2 & M2 & X2 & D2 & O2); [congruence|lia|discriminate|congruence|].
      exists l2, t2, m2. split; [exact E2|]. split; [exact LI2|]. split; [congruence|]. split; [exact R2|]. split; [lia|]. split; [eapply ext_trans; eassumption|]. split; [exact D2|auto].
    + exists l1, t1, m1. destruct N; [lia|]. cbn [lip_search andb]. split; [reflexivity|]. split; [exact LI1|]. split; [exact U1|]. split; [congruence|]. split; [lia|]. split; [exact X1|]. auto.
  - exists l, t, m. split; [reflexivity|]. split; [exact LI|]. split; [reflexivity|]. split; [exact LR|]. split; [lia|]. split; [apply ext_refl|]. split; [|auto].
    destruct ok; [|auto]. cbn [andb] in C. destruct (tfind t (comps rest)) as [x|]; [|discriminate]. intros Ex. rewrite Ex in C. discriminate.
Qed.
(** the path of a url in the tree of its listing *)
Definition url_dir (base url : list Z) : option (list Z) := below base url.
Lemma next_url_ok N l f s t m url : good_file f s -> lip_is l f s t m -> lp_root l = true -> (m + 1 < N)%nat -> root_of (lp_url l) url ->
  exists l' t' m' e, lip_next_url N l url = Ret (l', e) /\ lip_is l' f s t' m' /\ lp_url l' = lp_url l /\ lp_root l' = true /\ (m' <= m)%nat /\ ext t t' /\
    (lp_depth l < 0 -> lp_depth l' < 0) /\
    match e with
    | Some p => p = dir_path (below (lp_url l) url) /\ exists x, tfind t' p = Some x /\ (t_ch x = [] -> lp_depth l' < 0)
    | None => lp_depth l' < 0 /\ match tfind t' (dir_path (below (lp_url l) url)) with Some x => t_ch x = [] | None => True end
    end.
Proof.
  intros GF LI LR HN RO. unfold lip_next_url, lip_root. rewrite LR, (lip_tree_ok _ _ _ _ _ LI). cbn [bind].
  destruct (list_eqb_spec url (lp_url l)) as [E|NE].
  - assert (below (lp_url l) url = None) as ->.
    { destruct (below (lp_url l) url) as [r|] eqn:B; [|reflexivity]. apply below_iff in B. rewrite E in B. apply (f_equal zlen) in B.
      rewrite zlen_app, zlen_cons in B. pose proof (zlen_nonneg r). lia. }
    cbn [dir_path]. destruct (Z.eqb_spec (zlen (t_ch t)) 0) as [Z0|Z0]; cbn [negb].
    + destruct (next_node_ok N l f s t m [] t GF LI ltac:(lia) eq_refl) as (l' & t' & x' & m' & E1 & LI1 & U1 & R1 & M1 & X1 & F1 & G1 & D1 & O1).
      rewrite E1. cbn [bind]. exists l', t', m', (if zlen (t_ch t) <? zlen (t_ch x') then Some [] else None). split; [reflexivity|].
      split; [exact LI1|]. split; [exact U1|]. split; [congruence|]. split; [exact M1|]. split; [exact X1|]. split; [exact O1|].
      injection F1 as <-. destruct (Z.ltb_spec (zlen (t_ch t)) (zlen (t_ch t'))) as [G|G].
      * split; [reflexivity|]. exists t'. split; [reflexivity|]. intros C. rewrite C in G. change (zlen (@nil (list Z * tree))) with 0 in G. lia.
      * split; [apply D1; lia|]. cbn [tfind]. destruct (t_ch t') as [|a b]; [reflexivity|]. rewrite zlen_cons in G. pose proof (zlen_nonneg b). lia.
    + exists l, t, m, (Some []). split; [reflexivity|]. split; [exact LI|]. split; [reflexivity|]. split; [exact LR|]. split; [lia|]. split; [apply ext_refl|]. split; [auto|].
      split; [reflexivity|]. exists t. split; [reflexivity|]. intros C. rewrite C in Z0. exfalso. apply Z0. reflexivity.
  - destruct RO as [C|(rest & Eu)]; [congruence|]. rewrite (find_url _ _ _ _ _ url rest LI Eu). cbn [bind].
    destruct (search_ok N l f s t m rest true url GF LI LR HN ltac:(discriminate) Eu) as (l' & t' & m' & E1 & LI1 & U1 & R1 & M1 & X1 & D1 & O1).
    rewrite E1. cbn [bind]. eexists l', t', m', _. split; [reflexivity|]. split; [exact LI1|]. split; [exact U1|]. split; [exact R1|]. split; [exact M1|]. split; [exact X1|]. split; [exact O1|].
    rewrite (proj2 (below_iff (lp_url l) url rest) Eu). cbn [dir_path]. destruct (tfind t' (comps rest)) as [x|] eqn:F.
    + rewrite U1, Eu, rest_path_ok. split; [reflexivity|]. exists x. split; [exact F|]. exact D1.
    + split; [apply D1; exact Logic.I|exact Logic.I].
Qed.
End R.
