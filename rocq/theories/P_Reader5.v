(** Proofs for C42-C44: the functions of ArchiveReader. *)
From Coq Require Import Permutation.
From Verif Require Import Base StreamSpec ArchiveSpec M_Ar CacheSpec M_Cache P_Cpio P_Cache M_Listing ListingSpec P_Listing M_Reader ReaderSpec P_Reader1 P_Reader2 P_Reader3 P_Reader4.

Lemma in_zget (l : list Z) c : In c l <-> exists j, zget l j = Some c.
Proof.
  split.
  - intros I. destruct (In_nth_error _ _ I) as (k & E). exists (Z.of_nat k). unfold zget. destruct (Z.ltb_spec (Z.of_nat k) 0); [lia|]. rewrite Nat2Z.id. exact E.
  - intros (j & E). unfold zget in E. destruct (j <? 0); [discriminate|]. eapply nth_error_In. exact E.
Qed.
Lemma cut_spec n : match rfind_slash n 0 None with
  | Some p => exists a b, n = a ++ 47 :: b /\ ~ In 47 b /\ p = zlen a /\ slice n 0 p = a /\ slice n (p + 1) (zlen n) = b
  | None => ~ In 47 n end.
Proof.
  pose proof (rfind_spec n 0 None ltac:(discriminate)) as S. destruct (rfind_slash n 0 None) as [p|].
  - destruct S as [(C & _)|(B & G & F)]; [discriminate|]. rewrite Z.sub_0_r in G, F. pose proof (zget_some_inv n p _ G) as BP.
    assert (zlen (slice n 0 p) = p) as L by (apply zlen_slice; lia).
    assert (n = slice n 0 p ++ 47 :: skipn (Z.to_nat (p + 1)) n) as E.
    { rewrite <- (firstn_skipn (Z.to_nat p) n) at 1. unfold slice. cbn [Z.to_nat skipn]. f_equal.
      unfold zget in G. destruct (p <? 0); [discriminate|]. replace (Z.to_nat (p + 1)) with (S (Z.to_nat p)) by lia. revert G. generalize (Z.to_nat p) as k. clear. intros k. revert n.
      induction k as [|k IH]; intros [|x n] G; try discriminate; cbn in *; [congruence|]. apply IH. exact G. }
    exists (slice n 0 p), (skipn (Z.to_nat (p + 1)) n). split; [exact E|]. split.
    + intros I. apply in_zget in I. destruct I as (j & Ej). pose proof (zget_some_inv _ _ _ Ej). rewrite zget_skipn_eq in Ej by lia. exact (F (p + 1 + j) ltac:(lia) Ej).
    + split; [lia|]. split; [reflexivity|]. unfold slice. apply firstn_all2. rewrite skipn_length. unfold zlen. lia.
  - destruct S as (_ & S). intros I. apply in_zget in I. destruct I as (j & E). exact (S j E).
Qed.
Lemma root_cut2 a b r : ~ In 47 b -> root_of r (a ++ 47 :: b) <-> r = a ++ 47 :: b \/ root_of r a.
Proof.
  intros NS. pose proof (zlen_nonneg a). rewrite (root_cut (a ++ 47 :: b) (zlen a) r); [|lia|apply zget_mid_47|].
  - assert (slice (a ++ 47 :: b) 0 (zlen a) = a) as -> by (rewrite slice_app_l by lia; apply slice_all). reflexivity.
  - intros j Hj C. rewrite zget_app in C. destruct (Z.ltb_spec j (zlen a)); [lia|]. rewrite zget_cons in C. destruct (Z.eqb_spec (j - zlen a) 0); [lia|]. destruct (Z.ltb_spec (j - zlen a) 0); [lia|].
    apply NS. apply in_zget. eexists. exact C.
Qed.
Lemma root_noslash n r : ~ In 47 n -> root_of r n -> r = n.
Proof. intros H [->|(f & ->)]; [reflexivity|]. exfalso. apply H. apply in_or_app. right. left. reflexivity. Qed.

Section R.
Variable fs : list Z -> option file.
Hypothesis FS : fs_ok fs.
Variable N : nat.
Hypothesis BIG : forall u f s, fs u = Some f -> f_stream f = Some s -> (count s + 5 <= N)%nat.
Notation lip_is := (lip_is fs).
Notation lips_ok := (lips_ok fs).
Notation dl_is := (dl_is fs).

Lemma open_file url s : open fs url = Some s <-> exists f, fs url = Some f /\ f_stream f = Some s.
Proof. unfold open. destruct (fs url) as [f|]; [|split; [discriminate|intros (f & C & _); discriminate]]. split; [eauto|]. intros (f' & E & H). congruence. Qed.
(** ** cullName *)
Lemma cull_ok fuel : forall url n acc, (length n <= fuel)%nat -> n = slice url 0 (zlen n) -> zlen n <= zlen url ->
  match snd (cull fs fuel url n acc) with
  | Some (u, s) => open fs u = Some s /\ root_of u n
  | None => forall u s, root_of u n -> open fs u <> Some s
  end.
Proof.
  assert (forall s, open fs [] <> Some s) as O0. { intros s C. apply open_file in C. destruct C as (f & C & _). destruct FS as (F0 & _). congruence. }
  induction fuel as [|fuel IH]; intros url n acc HL En Hn; cbn [cull]; destruct (open fs n) as [s|] eqn:O.
  - cbn [snd]. split; [exact O|left; reflexivity].
  - cbn [snd]. destruct n; [|cbn in HL; lia]. intros u s R. rewrite (root_noslash [] u (fun x => x) R). apply O0.
  - cbn [snd]. split; [exact O|left; reflexivity].
  - pose proof (cut_spec n) as S. destruct (rfind_slash n 0 None) as [p|].
    + destruct S as (a & b & E & NS & Ep & Ea & _). pose proof (zlen_nonneg a). pose proof (zlen_nonneg b).
      assert (slice url 0 p = a) as Eu. { rewrite <- Ea, Ep. assert (zlen n = zlen a + 1 + zlen b) as Ln by (rewrite E, zlen_app, zlen_cons; lia). transitivity (slice (slice url 0 (zlen n)) 0 (zlen a)); [|rewrite <- En; reflexivity].
        rewrite slice_slice by lia. f_equal; lia. }
      assert (zlen n = zlen a + 1 + zlen b) as Ln by (rewrite E, zlen_app, zlen_cons; lia).
      destruct (Z.eqb_spec p 0) as [P0|P0].
      * cbn [snd]. intros u s R. rewrite E in R. apply (root_cut2 a b u NS) in R. destruct R as [->|R]; [rewrite <- E, O; discriminate|].
        assert (a = []) by (destruct a; [reflexivity|rewrite zlen_cons in Ep; pose proof (zlen_nonneg a); lia]). match goal with X : a = [] |- _ => rewrite X in R end. rewrite (root_noslash [] u (fun x => x) R). apply O0.
      * rewrite Eu. specialize (IH url a (acc ++ [p + 1])). assert (a = slice url 0 (zlen a)) as Ea2 by congruence.
        specialize (IH ltac:(unfold zlen in Ln; lia) Ea2 ltac:(lia)). destruct (snd (cull fs fuel url a (acc ++ [p + 1]))) as [(u & s)|].
        -- destruct IH as (A & B). split; [exact A|]. rewrite E. apply root_cut2; [exact NS|right; exact B].
        -- intros u s R. rewrite E in R. apply (root_cut2 a b u NS) in R. destruct R as [->|R]; [rewrite <- E, O; discriminate|]. apply IH. exact R.
    + cbn [snd]. intros u s R. rewrite (root_noslash n u S R), O. discriminate.
Qed.
Lemma cullName_ok url : match snd (cullName fs url) with
  | Some (u, s) => exists f, file_of fs url u f s
  | None => forall u f s, ~ file_of fs url u f s
  end.
Proof.
  pose proof (cull_ok (length url) url url [] (le_n _)) as H. rewrite slice_all in H. specialize (H eq_refl ltac:(lia)). unfold cullName.
  destruct (snd (cull fs (length url) url url [])) as [(u & s)|].
  - destruct H as (O & R). apply open_file in O. destruct O as (f & A & B). exists f. split; [exact A|split; assumption].
  - intros u f s (A & B & R). apply (H u s R). apply open_file. eauto.
Qed.
(** ** findListingInProgress *)
Lemma find_prog_ok fuel : forall m n, zlen n < Z.of_nat fuel -> exists r, find_prog fuel m n = Ret r /\ match r with
  | Some k => exists u, In (u, k) m /\ root_of u n
  | None => forall u k, In (u, k) m -> ~ root_of u n
  end.
Proof.
  induction fuel as [|fuel IH]; intros m n H; [pose proof (zlen_nonneg n); lia|]. cbn [find_prog]. destruct (get m n) as [k|] eqn:G.
  - eexists. split; [reflexivity|]. exists n. split; [apply get_in; exact G|left; reflexivity].
  - pose proof (cut_spec n) as S. destruct (rfind_slash n 0 None) as [p|].
    + destruct S as (a & b & E & NS & Ep & Ea & _). rewrite Ea. pose proof (zlen_nonneg b). assert (zlen n = zlen a + 1 + zlen b) as Ln by (rewrite E, zlen_app, zlen_cons; lia).
      destruct (IH m a ltac:(lia)) as (r & -> & Hr). exists r. split; [reflexivity|]. destruct r as [k|].
      * destruct Hr as (u & I & R). exists u. split; [exact I|]. rewrite E. apply root_cut2; [exact NS|right; exact R].
      * intros u k I R. rewrite E in R. apply (root_cut2 a b u NS) in R. destruct R as [->|R]; [|exact (Hr u k I R)]. rewrite <- E in I. exact (get_none m n k G I).
    + eexists. split; [reflexivity|]. intros u k I R. rewrite (root_noslash n u S R) in I. exact (get_none m n k G I).
Qed.
(** ** localStat *)
Definition RI (r : reader) : Prop := lips_ok (r_lips r) /\ prog_ok (r_lips r) (r_prog r) /\ cache_ok (r_lips r) (r_cache r).
Lemma lip_root_info l f s t m : lip_is l f s t m -> t_info t = phys f.
Proof. intros LI. destruct (li_pre _ _ _ _ _ _ LI) as (pre & rest & _ & -> & _). rewrite added_info. reflexivity. Qed.
Lemma localStat_ok r url : RI r -> localStat fs r url = Ret (r, match fs url with Some f => Some (phys f) | None => None end).
Proof.
  intros (LO & (ND & PO) & CO). unfold localStat. destruct (fs url) as [f|] eqn:F; [|reflexivity].
  destruct (Z.eqb_spec (Z.land (i_type (f_info f)) 2) 0) as [E0|E0].
  - unfold phys. destruct (f_stream f) as [s|] eqn:B; [|reflexivity]. exfalso. destruct FS as (_ & H). destruct (H _ _ _ F B) as (T2 & _). rewrite T2 in E0. discriminate.
  - destruct (get (r_prog r) url) as [k|] eqn:G.
    + apply get_in in G. destruct (PO _ _ G) as (l & H & U & R). unfold at_lip. rewrite H. cbn [bind]. destruct (LO k l H) as (f' & s & t & m & LI & _).
      unfold lip_root. rewrite R, (lip_tree_ok _ _ _ _ _ _ LI). cbn [bind]. rewrite (lip_root_info _ _ _ _ _ LI). pose proof (li_fs _ _ _ _ _ _ LI). congruence.
    + destruct (get (r_cache r) url) as [k|] eqn:GC.
      * apply get_in in GC. destruct (CO _ _ GC) as (l & H & U & D). unfold at_lip. rewrite H. cbn [bind]. destruct (LO k l H) as (f' & s & t & m & LI & _).
        rewrite (lip_tree_ok _ _ _ _ _ _ LI). cbn [bind]. rewrite (lip_root_info _ _ _ _ _ LI). assert (f' = f) as -> by (pose proof (li_fs _ _ _ _ _ _ LI); congruence).
        destruct (phys_mtime f) as (P1 & P2 & P3). rewrite P1, Z.eqb_refl. cbn [bind]. f_equal. f_equal. f_equal. rewrite <- P1, <- P2, <- P3. destruct (phys f); reflexivity.
      * cbn [bind]. unfold phys. destruct (f_stream f) as [[|]|]; reflexivity.
Qed.
(** ** the cache *)
Lemma cache_find_ok r url : RI r -> exists o, cache_find r url = Ret o /\
  match o with
  | Some x => exists u f s, file_of fs url u f s /\ tfind (full f s) (dir_path (below u url)) = Some x
  | None => (forall u k, In (u, k) (r_cache r) -> ~ root_of u url) \/ exists u f s, file_of fs url u f s /\ tfind (full f s) (dir_path (below u url)) = None
  end.
Proof.
  intros (LO & PO & CO). unfold cache_find.
  destruct (findRoot_ok (length url + 1) (cache_trees r) url) as (o & E & Ho); [unfold zlen; lia|]. rewrite E. cbn [bind]. destruct o as [(u & t)|].
  - destruct Ho as (I & R & M).
    assert (exists k, get (r_cache r) u = Some k) as (k & GK).
    { unfold cache_trees in I. apply in_map_iff in I. destruct I as ((u' & k) & Eu & I). cbn [fst] in Eu. assert (u' = u) by congruence. subst u'.
      destruct (get (r_cache r) u) as [k'|] eqn:G; [eauto|]. exfalso. exact (get_none _ _ _ G I). }
    rewrite GK. pose proof (get_in _ _ _ GK) as IK. destruct (CO _ _ IK) as (l & H & U & D). unfold at_lip. rewrite H. cbn [bind].
    destruct (LO k l H) as (f & s & t' & m & LI & _). rewrite (lip_tree_ok _ _ _ _ _ _ LI). cbn [bind]. unfold findEntry. rewrite E. cbn [bind].
    assert (file_of fs url u f s) as FO by (split; [pose proof (li_fs _ _ _ _ _ _ LI); congruence|]; split; [exact (li_s _ _ _ _ _ _ LI)|exact R]).
    assert (t = full f s) as ->.
    { unfold cache_trees in I. apply in_map_iff in I. destruct I as ((u' & k2) & Eu & I). cbn [fst snd] in Eu. destruct (CO _ _ I) as (l2 & H2 & U2 & D2). rewrite H2 in Eu.
      destruct (LO k2 l2 H2) as (f2 & s2 & t2 & m2 & LI2 & _). rewrite (li_root _ _ _ _ _ _ LI2) in Eu. assert (t = t2) as -> by congruence. rewrite (lip_full _ _ _ _ _ _ LI2 D2).
      assert (f2 = f) as -> by (pose proof (li_fs _ _ _ _ _ _ LI); pose proof (li_fs _ _ _ _ _ _ LI2); congruence).
      assert (s2 = s) as -> by (pose proof (li_s _ _ _ _ _ _ LI); pose proof (li_s _ _ _ _ _ _ LI2); congruence). reflexivity. }
    destruct (list_eqb_spec u url) as [->|NE].
    + eexists. split; [reflexivity|]. exists url, f, s. split; [exact FO|].
      destruct (below url url) as [x|] eqn:B; [|reflexivity]. exfalso. apply below_iff in B. apply (f_equal zlen) in B. rewrite zlen_app, zlen_cons in B. pose proof (zlen_nonneg x). lia.
    + destruct R as [C|(rest & Er)]; [congruence|].
      assert (root_findEntry (full f s) u url = Ret (tfind (full f s) (comps rest))) as ->.
      { subst url. unfold root_findEntry. pose proof (zlen_nonneg u). pose proof (zlen_nonneg rest). assert (zlen (u ++ 47 :: rest) = zlen u + 1 + zlen rest) as Lf by (rewrite zlen_app, zlen_cons; lia).
        rewrite find_below_ok by (try lia; unfold zlen in *; lia). do 3 f_equal.
        replace (Z.to_nat (zlen u + 1)) with (length u + 1)%nat by (unfold zlen; lia). rewrite skipn_app. rewrite skipn_all2 by lia.
        replace (length u + 1 - length u)%nat with 1%nat by lia. reflexivity. }
      eexists. split; [reflexivity|]. destruct (tfind (full f s) (comps rest)) as [x|] eqn:TF.
      * exists u, f, s. split; [exact FO|]. rewrite (proj2 (below_iff u url rest) Er). exact TF.
      * right. exists u, f, s. split; [exact FO|]. rewrite (proj2 (below_iff u url rest) Er). exact TF.
  - exists None. split; [reflexivity|]. left. intros u k I. eapply (Ho u). unfold cache_trees. apply in_map_iff. exists (u, k). split; [reflexivity|exact I].
Qed.
Lemma convert_complete url u f s x : file_of fs url u f s -> tfind (full f s) (dir_path (below u url)) = Some x -> dir_listing fs url (convert x).
Proof.
  intros FO F. left. exists u, f, s. split; [exact FO|]. apply (complete_node (f_info f) (phys f) s (below u url) x (in_order (t_ch x)) F). apply in_order_perm.
Qed.
(** ** a new listing *)
Lemma next_last n st t : zget st 0 = Some (mkFrame None t) -> 2 <= zlen st -> next_entry (S n) st 0 = Ret (st, -1).
Proof.
  intros G L. cbn [next_entry]. destruct (Z.ltb_spec (zlen st) (0 + 1)); [lia|]. unfold at_. rewrite G. cbn [bind].
  destruct (zget_some st (0 + 1)) as (f1 & ->); [lia|]. reflexivity.
Qed.
Lemma new_lip u f s : fs u = Some f -> f_stream f = Some s -> let '(st, d) := list_new (phys f) s in
  exists t m, lip_is (mkLip u st d true true false) f s t m /\ (m <= count s + 2)%nat.
Proof.
  intros A B. destruct (fs_good fs FS _ _ _ A B) as (HL & HF). unfold list_new. destruct s as [|e es]; cbn [provider_of].
  - exists (T (phys f) []), 1%nat. split; [|lia]. split; cbn [lp_url lp_st lp_depth lp_open lp_root lp_freed]; try assumption; try reflexivity; try discriminate.
    + exists [], []. split; [reflexivity|]. split; [reflexivity|]. split; [reflexivity|lia].
    + eexists. reflexivity.
  - assert (or_dir (phys f) = phys f) as EO by (unfold phys; rewrite B; reflexivity). rewrite EO. set (st := put (repeat frame0 10) 0 _).
    exists (T (phys f) []), (count (Arch e es) + 2)%nat. split; [|lia]. split; cbn [lp_url lp_st lp_depth lp_open lp_root lp_freed]; try assumption; try reflexivity; try discriminate.
    + exists [], (e :: es). split; [reflexivity|]. split; [reflexivity|]. split; [lia|]. intros _. split; [|split; reflexivity].
      change (ents (Arch e es)) with ([] ++ e :: es). apply stk_top. reflexivity.
    + rewrite count_arch, levels_arch in *. destruct (run_frame (cnt_l (e :: es)) e es 0 st (T (phys f) []) 20) as (st' & E & G & L & _).
      { lia. } { lia. } { reflexivity. } { change (zlen st) with 10. lia. } { lia. }
      exists st'. rewrite E. cbn [list_all]. destruct (Z.ltb_spec 0 0); [lia|]. change (zlen st) with 10 in L.
      rewrite (next_last 19 st' _ G) by lia. cbn [bind]. reflexivity.
Qed.
Lemma lips_app ls l f s t m : lips_ok ls -> lip_is l f s t m -> (m <= count s + 2)%nat -> lips_ok (ls ++ [l]).
Proof.
  intros LO LI Hm k l' H. destruct (Nat.lt_ge_cases k (length ls)) as [L|L].
  - rewrite nth_error_app1 in H by exact L. exact (LO k l' H).
  - rewrite nth_error_app2 in H by exact L. destruct (k - length ls)%nat as [|j]; [|destruct j; discriminate]. injection H as <-. exists f, s, t, m. auto.
Qed.
Lemma lstep_app ls l : lstep ls (ls ++ [l]).
Proof.
  intros k l' H. exists l'. split; [rewrite nth_error_app1; [exact H|apply nth_error_Some; congruence]|]. split; [reflexivity|]. split; [auto|]. split; [auto|].
  intros t Ht. exists t. split; [exact Ht|apply ext_refl].
Qed.
Lemma del_in {V} (m : list (list Z * V)) k u v : NoDup (map fst m) -> In (u, v) (del m k) -> In (u, v) m /\ u <> k.
Proof.
  induction m as [|(a & b) m IH]; [intros _ []|]. cbn [map fst del]. intros ND. inversion ND as [|? ? N1 N2]; subst. destruct (list_eqb_spec a k) as [->|NE].
  - intros I. split; [right; exact I|]. intros ->. apply N1. apply (in_map fst) in I. exact I.
  - intros [E|I]; [split; [left; exact E|congruence]|]. destruct (IH N2 I) as (A & B). split; [right; exact A|exact B].
Qed.
Lemma del_nodup {V} (m : list (list Z * V)) k : NoDup (map fst m) -> NoDup (map fst (del m k)).
Proof.
  induction m as [|(a & b) m IH]; [auto|]. cbn [map fst del]. intros ND. inversion ND as [|? ? N1 N2]; subst. destruct (list_eqb_spec a k); [exact N2|].
  cbn [map fst]. constructor; [|apply IH; exact N2]. intros I. apply N1. apply in_map_iff in I. destruct I as ((u & v) & <- & I). apply (del_in _ _ _ _ N2) in I. destruct I as (I & _). apply (in_map fst) in I. exact I.
Qed.
(** ** dirEntries *)
Lemma dirEntries_ok r url : RI r -> exists r' d, dirEntries fs r url = Ret (r', d) /\ RI r' /\ wstep (r_lips r) (r_lips r') /\ r_dls r' = r_dls r /\
  dl_url d = url /\ dl_is (r_lips r') d [] false /\ ready (r_lips r') d.
Proof.
  intros RIr. pose proof RIr as (LO & (ND & PO) & CO). unfold dirEntries. destruct (cache_find_ok r url RIr) as (sub & -> & Hs). cbn [bind].
  assert (forall r' v, RI r' -> wstep (r_lips r) (r_lips r') -> r_dls r' = r_dls r -> dir_listing fs url v ->
    exists r2 d, Ret (r', static v url) = Ret (r2, d) /\ RI r2 /\ wstep (r_lips r) (r_lips r2) /\ r_dls r2 = r_dls r /\ dl_url d = url /\ dl_is (r_lips r2) d [] false /\ ready (r_lips r2) d) as ST.
  { intros r' v R1 R2 R3 DL. exists r', (static v url). split; [reflexivity|]. split; [exact R1|]. split; [exact R2|]. split; [exact R3|]. split; [reflexivity|]. split.
    - unfold P_Reader4.dl_is, static. cbn. split; [exact DL|]. exists v. split; reflexivity.
    - intros k l C. discriminate. }
  destruct sub as [x|].
  - destruct Hs as (u & f & s & FO & F). cbn [bind]. apply ST; [exact RIr|apply lstep_weak, lstep_refl|reflexivity|]. eapply convert_complete; eassumption.
  - destruct (find_prog_ok (length url + 1) (r_prog r) url) as (o & -> & Ho); [unfold zlen; lia|]. cbn [bind].
    (* the listing [k] in [r1] *)
    assert (forall r1 k l, RI r1 -> wstep (r_lips r) (r_lips r1) -> r_dls r1 = r_dls r -> nth_error (r_lips r1) k = Some l -> In (lp_url l, k) (r_prog r1) -> root_of (lp_url l) url ->
       exists r' d, (let* (r, lister) := (let* l := at_lip (r_lips r1) k in
            if lp_open l then Ret (r1, Some (mkDl 0 [] (Some k) None [] url))
            else Ret (mkReader (upd (r_lips r1) k (mkLip (lp_url l) (lp_st l) (lp_depth l) (lp_open l) false (lp_freed l)))
                   (del (r_prog r1) (lp_url l)) (set (r_cache r1) (lp_url l) k) (r_dls r1), None)) in
          match lister with
          | Some d => Ret (r, d)
          | None => let* sub := cache_find r url in Ret (r, static (match sub with Some t => convert t | None => [] end) url)
          end) = Ret (r', d) /\ RI r' /\ wstep (r_lips r) (r_lips r') /\ r_dls r' = r_dls r /\ dl_url d = url /\ dl_is (r_lips r') d [] false /\ ready (r_lips r') d) as GO.
    { intros r1 k l R1 S1 D1 H IP RO. pose proof R1 as (LO1 & (ND1 & PO1) & CO1). unfold at_lip. rewrite H. cbn [bind]. destruct (LO1 k l H) as (f & s & t & m & LI & Hm).
      destruct (lp_open l) eqn:EO; cbn [bind].
      - exists r1, (mkDl 0 [] (Some k) None [] url). split; [reflexivity|]. split; [exact R1|]. split; [exact S1|]. split; [exact D1|]. split; [reflexivity|]. split.
        + unfold P_Reader4.dl_is. cbn. exists l, f, s, t. split; [exact H|]. split; [exact (li_fs _ _ _ _ _ _ LI)|]. split; [exact (li_s _ _ _ _ _ _ LI)|]. split; [exact (li_root _ _ _ _ _ _ LI)|]. split; [exact RO|]. auto.
        + intros k' l' E _ _ H'. cbn in E. injection E as <-. destruct (PO1 _ _ IP) as (l2 & H2 & _ & R2). congruence.
      - set (l' := mkLip (lp_url l) (lp_st l) (lp_depth l) false false (lp_freed l)).
        assert (lip_is l' f s t m) as LI'. { destruct LI as [A1 A2 A3 A4 A5 A6 A7 A8]. split; cbn [l' lp_url lp_st lp_depth lp_open lp_root lp_freed]; try assumption; auto. }
        pose proof (li_open _ _ _ _ _ _ LI EO) as Dp.
        assert (lips_ok (upd (r_lips r1) k l')) as LO2 by (eapply lips_upd; eassumption).
        assert (forall j lj, nth_error (r_lips r1) j = Some lj -> exists l2, nth_error (upd (r_lips r1) k l') j = Some l2 /\ lp_url l2 = lp_url lj /\ (lp_depth lj < 0 -> lp_depth l2 < 0) /\ lp_st l2 = lp_st lj /\ (j <> k -> l2 = lj)) as UP.
        { intros j lj Hj. rewrite nth_upd. destruct (Nat.eqb_spec j k) as [->|NE]; [|exists lj; auto 8]. rewrite H in *. injection Hj as <-. exists l'. cbn [l' lp_url lp_depth lp_st]. split; [reflexivity|]. split; [reflexivity|]. split; [auto|]. split; [reflexivity|congruence]. }
        set (r2 := mkReader (upd (r_lips r1) k l') (del (r_prog r1) (lp_url l)) (set (r_cache r1) (lp_url l) k) (r_dls r1)).
        assert (RI r2) as R2.
        { split; [exact LO2|]. split.
          - split; [apply del_nodup; exact ND1|]. intros u j I. cbn [r2 r_prog r_lips] in *. destruct (del_in _ _ _ _ ND1 I) as (I1 & NE). destruct (PO1 _ _ I1) as (lj & Hj & Uj & Rj).
            destruct (UP j lj Hj) as (l2 & H2 & U2 & _ & _ & K2). exists l2. split; [exact H2|]. split; [congruence|]. assert (j <> k) by (intros ->; apply NE; congruence). rewrite K2 by assumption. exact Rj.
          - intros u j I. cbn [r2 r_cache r_lips] in *. destruct (set_in _ _ _ _ _ I) as [(-> & ->)|I1].
            + exists l'. rewrite nth_upd, Nat.eqb_refl, H. split; [reflexivity|]. split; [reflexivity|exact Dp].
            + destruct (CO1 _ _ I1) as (lj & Hj & Uj & Dj). destruct (UP j lj Hj) as (l2 & H2 & U2 & D2 & _). exists l2. split; [exact H2|]. split; [congruence|auto]. }
        assert (wstep (r_lips r) (r_lips r2)) as S2.
        { intros j lj Hj. destruct (S1 j lj Hj) as (l1 & H1 & U1 & D1' & X1). destruct (UP j l1 H1) as (l2 & H2 & U2 & D2 & St2 & K2). exists l2. split; [exact H2|]. split; [congruence|]. split; [auto|]. rewrite St2. exact X1. }
        destruct (cache_find_ok r2 url R2) as (sub & Ec & Hc). rewrite Ec. cbn [bind]. apply ST; [exact R2|exact S2|exact D1|].
        destruct sub as [x|].
        + destruct Hc as (u & f2 & s2 & FO & F). eapply convert_complete; eassumption.
        + destruct Hc as [Hc|(u & f2 & s2 & FO & F)].
          * exfalso. apply (Hc (lp_url l) k); [|exact RO]. cbn [r2 r_cache]. pose proof (get_set (r_cache r1) (lp_url l) k (lp_url l)) as GS. rewrite list_eqb_refl in GS. apply get_in in GS. exact GS.
          * left. exists u, f2, s2. split; [exact FO|]. exact (complete_none _ _ _ _ F). }
    destruct o as [k|].
    + destruct Ho as (u & I & R). destruct (PO _ _ I) as (l & H & U & Rt). subst u. apply (GO r k l RIr (lstep_weak _ _ (lstep_refl _)) eq_refl H I R).
    + pose proof (cullName_ok url) as CU. destruct (cullName fs url) as (parts & cu). cbn [snd] in CU. destruct cu as [(name & s)|].
      * destruct CU as (f & FO). destruct FO as (A & B & R). rewrite (localStat_ok r name RIr), A. cbn [bind].
        pose proof (new_lip name f s A B) as NL. destruct (list_new (phys f) s) as (st & d). destruct NL as (t & m & LI & Hm). cbn [bind].
        set (l := mkLip name st d true true false) in *. set (k := length (r_lips r)).
        assert (nth_error (r_lips r ++ [l]) k = Some l) as Hk by (unfold k; rewrite nth_error_app2, Nat.sub_diag by lia; reflexivity).
        assert (In (name, k) (set (r_prog r) name k)) as Ik. { pose proof (get_set (r_prog r) name k name) as GS. rewrite list_eqb_refl in GS. apply get_in in GS. exact GS. }
        apply (GO (mkReader (r_lips r ++ [l]) (set (r_prog r) name k) (r_cache r) (r_dls r)) k l); cbn [r_lips r_prog r_cache r_dls]; try assumption; try reflexivity; try apply lstep_weak, lstep_app.
        split; cbn [r_lips r_prog r_cache r_dls]; [eapply lips_app; eassumption|]. split.
        -- split; [apply set_nodup; exact ND|]. intros u j I. destruct (set_in _ _ _ _ _ I) as [(-> & ->)|I1].
           ++ exists l. split; [exact Hk|]. split; reflexivity.
           ++ destruct (prog_step _ _ _ (lstep_app (r_lips r) l) (conj ND PO)) as (_ & PO'). exact (PO' _ _ I1).
        -- apply (cache_step _ _ _ (lstep_weak _ _ (lstep_app (r_lips r) l)) CO).
      * cbn [bind]. apply ST; [exact RIr|apply lstep_weak, lstep_refl|reflexivity|]. right. split; [exact CU|reflexivity].
Qed.
End R.
