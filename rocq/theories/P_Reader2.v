(** Proofs for C42: the trees. *)
From Coq Require Import Permutation.
From Verif Require Import Base StreamSpec ArchiveSpec M_Ar CacheSpec M_Cache P_Cpio P_Cache M_Listing ListingSpec P_Listing M_Reader ReaderSpec P_Reader1.

Definition wf (n : nat) (t : tree) : Prop := forall cs x, tfind t cs = Some x ->
  NoDup (map fst (t_ch x)) /\ (length (t_ch x) <= n)%nat /\ forall c y, In (c, y) (t_ch x) -> ~ In 47 c /\ i_name (t_info y) = c.
Lemma wf_mono n m t : (n <= m)%nat -> wf n t -> wf m t.
Proof. intros H W cs x F. destruct (W cs x F) as (A & B & C). split; [exact A|]. split; [lia|exact C]. Qed.
Lemma wf_leaf n i : wf n (T i []).
Proof. intros [|c cs] x F; [|discriminate]. injection F as <-. split; [constructor|]. split; [cbn; lia|]. intros c y []. Qed.
Lemma wf_sub n t c y : wf n t -> get (t_ch t) c = Some y -> wf n y.
Proof. intros W G cs x F. apply (W (c :: cs)). cbn [tfind]. rewrite G. exact F. Qed.
Lemma wf_info n i j ch : wf n (T i ch) -> wf n (T j ch).
Proof. intros W [|c cs] x F. - injection F as <-. destruct (W [] _ eq_refl) as (A & B & C). auto. - exact (W (c :: cs) x F). Qed.
Lemma list_eqb_spec a b : reflect (a = b) (list_eqb a b).
Proof. unfold list_eqb. destruct (list_eq_dec Z.eq_dec a b); constructor; assumption. Qed.
Lemma set_keys {V} (m : list (list Z * V)) k v : map fst (set m k v) = map fst m ++ (if existsb (list_eqb k) (map fst m) then [] else [k]).
Proof.
  induction m as [|(a & b) m IH]; [reflexivity|]. cbn [set map fst existsb]. destruct (list_eqb_spec a k) as [->|N].
  - cbn [map fst]. rewrite list_eqb_refl. cbn [orb]. rewrite app_nil_r. reflexivity.
  - cbn [map fst]. rewrite IH. destruct (list_eqb_spec k a); [congruence|]. reflexivity.
Qed.
Lemma existsb_keys k l : existsb (list_eqb k) l = true <-> In k l.
Proof.
  rewrite existsb_exists. split.
  - intros (x & I & E). destruct (list_eqb_spec k x); [subst; exact I|discriminate].
  - intros I. exists k. split; [exact I|]. apply list_eqb_refl.
Qed.
Lemma set_nodup {V} (m : list (list Z * V)) k v : NoDup (map fst m) -> NoDup (map fst (set m k v)).
Proof.
  intros H. rewrite set_keys. destruct (existsb (list_eqb k) (map fst m)) eqn:E; [rewrite app_nil_r; exact H|].
  assert (~ In k (map fst m)) as N by (rewrite <- existsb_keys; congruence).
  apply (Permutation_NoDup (l := k :: map fst m)); [apply Permutation_cons_append|]. constructor; assumption.
Qed.
Lemma set_length {V} (m : list (list Z * V)) k v : (length (set m k v) <= S (length m))%nat.
Proof. rewrite <- (map_length fst), set_keys, app_length, map_length. destruct (existsb _ _); cbn; lia. Qed.
Lemma set_in {V} (m : list (list Z * V)) k v c y : In (c, y) (set m k v) -> (c = k /\ y = v) \/ In (c, y) m.
Proof.
  induction m as [|(a & b) m IH]; cbn [set].
  - intros [E|[]]. left. split; congruence.
  - destruct (list_eqb_spec a k) as [->|N].
    + intros [E|I]; [left; split; congruence|right; right; exact I].
    + intros [E|I]; [right; left; exact E|]. destruct (IH I) as [H|H]; [left; exact H|right; right; exact H].
Qed.
Lemma wf_add ns l se k : forall n t, wf n t -> wf k se -> (S n <= k)%nat -> (forall c, In c (ns ++ [l]) -> ~ In 47 c) -> i_name (t_info se) = l ->
  wf k (add_at ns l se t).
Proof.
  induction ns as [|c0 ns IH]; intros n t W Ws Hk Hc Hn.
  - cbn [add_at]. intros [|c cs] x F.
    + injection F as <-. cbn [t_ch]. destruct (W [] _ eq_refl) as (A & B & C). split; [apply set_nodup; exact A|].
      split; [pose proof (set_length (t_ch t) l se); lia|]. intros c y I. destruct (set_in _ _ _ _ _ I) as [(-> & ->)|I2]; [|apply C; exact I2].
      split; [apply Hc; left; reflexivity|exact Hn].
    + cbn [tfind t_ch] in F. rewrite get_set in F. destruct (list_eqb l c) eqn:E.
      * exact (Ws cs x F).
      * apply (wf_mono n k _ ltac:(lia) W (c :: cs)). exact F.
  - cbn [add_at]. set (child := match get (t_ch t) c0 with Some c => c | None => new_dir c0 end).
    assert (wf n child) as Wc. { unfold child. destruct (get (t_ch t) c0) as [y|] eqn:G; [exact (wf_sub _ _ _ _ W G)|apply wf_leaf]. }
    assert (wf k (add_at ns l se child)) as W1. { apply (IH n); [exact Wc|exact Ws|exact Hk| |exact Hn]. intros c I. apply Hc. right. exact I. }
    assert (i_name (t_info child) = c0) as NC.
    { unfold child. destruct (get (t_ch t) c0) as [y|] eqn:G; [|reflexivity]. apply get_in in G. destruct (W [] _ eq_refl) as (A & B & C). apply (C _ _ G). }
    intros [|c cs] x F.
    + injection F as <-. cbn [t_ch]. destruct (W [] _ eq_refl) as (A & B & C). split; [apply set_nodup; exact A|].
      split; [pose proof (set_length (t_ch t) c0 (add_at ns l se child)); lia|]. intros c y I. destruct (set_in _ _ _ _ _ I) as [(-> & ->)|I2]; [|apply C; exact I2].
      split; [apply Hc; left; reflexivity|]. rewrite add_info. exact NC.
    + cbn [tfind t_ch] in F. rewrite get_set in F. destruct (list_eqb c0 c) eqn:E.
      * exact (W1 cs x F).
      * apply (wf_mono n k _ ltac:(lia) W (c :: cs)). exact F.
Qed.
Lemma comps_in f c : In c (comps f) -> ~ In 47 c.
Proof.
  revert c. induction f as [|a f IH]; intros c.
  - intros [<-|[]] [].
  - destruct (Z.eq_dec a 47) as [->|N].
    + change (comps (47 :: f)) with ([] :: comps f). intros [<-|I]; [intros []|apply IH; exact I].
    + rewrite comps_cons by exact N. destruct (comps f) as [|h t] eqn:EC; [exfalso; exact (comps_ne f EC)|].
      cbn [att]. intros [<-|I]; [|apply IH; right; exact I]. intros [E|I]; [congruence|]. apply (IH h); [left; reflexivity|exact I].
Qed.

Lemma wf_addEntry n k t se : wf n t -> wf k se -> (S n <= k)%nat -> wf k (addEntry t se).
Proof.
  intros W Ws Hk. unfold addEntry. pose proof (split_comps (i_name (t_info se)) []) as S. destruct (split_path (i_name (t_info se)) []) as [ns l].
  assert (ns ++ [l] = comps (i_name (t_info se))) as S2 by (rewrite S; destruct (comps (i_name (t_info se))) eqn:E; [exfalso; exact (comps_ne _ E)|]; reflexivity).
  apply (wf_add ns l _ k n); [exact W| |exact Hk| |reflexivity].
  - destruct se as [i ch]. cbn [t_info t_ch]. exact (wf_info _ _ _ _ Ws).
  - intros c I. rewrite S2 in I. exact (comps_in _ _ I).
Qed.
Lemma wf_added l : forall n t, wf n t -> (forall e, In e l -> wf (count_e e) (build (listed e))) -> wf (n + cnt_l l) (added t l).
Proof.
  induction l as [|e l IH]; intros n t W H.
  - cbn. rewrite Nat.add_0_r. exact W.
  - change (added t (e :: l)) with (added (addEntry t (build (listed e))) l). cbn [cnt_l fold_right]. fold (cnt_l l).
    replace (n + (count_e e + cnt_l l))%nat with ((n + count_e e) + cnt_l l)%nat by lia. apply IH; [|intros x I; apply H; right; exact I].
    apply (wf_addEntry n); [exact W| |destruct e; cbn [count_e]; lia]. apply (wf_mono (count_e e)); [lia|]. apply H. left. reflexivity.
Qed.
Lemma cnt_in e l : In e l -> (count_e e <= cnt_l l)%nat.
Proof. induction l as [|x l IH]; [intros []|]. cbn [cnt_l fold_right]. fold (cnt_l l). intros [->|I]; [lia|]. specialize (IH I). lia. Qed.
Lemma wf_build n : forall e, (count_e e <= n)%nat -> wf (count_e e) (build (listed e)).
Proof.
  induction n as [|n IH]; intros [i r s] H; [cbn [count_e] in H; lia|]. destruct s as [|e es].
  - rewrite build_listed. apply wf_leaf.
  - rewrite build_arch. cbv zeta. apply wf_info with (i := t_info (added (T (or_dir i) []) (e :: es))). rewrite <- tree_eta.
    cbn [count_e] in *. rewrite count_arch in *. apply (wf_mono (0 + cnt_l (e :: es))); [lia|].
    apply wf_added; [apply wf_leaf|]. intros x I. apply IH. pose proof (cnt_in _ _ I). lia.
Qed.
Lemma wf_tree i l : wf (cnt_l l) (added (T i []) l).
Proof. apply (wf_added l 0); [apply wf_leaf|]. intros e I. apply (wf_build (count_e e)). lia. Qed.

(** growing without replacing *)
Definition ext (t t' : tree) : Prop := forall cs i, cs <> [] -> inf (tfind t cs) = Some i -> inf (tfind t' cs) = Some i.
Lemma ext_refl t : ext t t. Proof. intros cs i _ H. exact H. Qed.
Lemma ext_trans a b c : ext a b -> ext b c -> ext a c. Proof. intros H K cs i N F. apply K; [exact N|]. apply H; assumption. Qed.
Lemma tfind_app t a b : tfind t (a ++ b) = match tfind t a with Some x => tfind x b | None => None end.
Proof. revert t. induction a as [|c a IH]; intros t; [reflexivity|]. cbn [app tfind]. destruct (get (t_ch t) c); [apply IH|reflexivity]. Qed.
Lemma ext_add t se : tfind t (comps (i_name (t_info se))) = None -> ext t (addEntry t se).
Proof.
  intros H cs i N F. unfold addEntry. pose proof (split_comps (i_name (t_info se)) []) as S. destruct (split_path (i_name (t_info se)) []) as [ns l].
  assert (ns ++ [l] = comps (i_name (t_info se))) as S2 by (rewrite S; destruct (comps (i_name (t_info se))) eqn:E; [exfalso; exact (comps_ne _ E)|]; reflexivity).
  rewrite tfind_add, S2. destruct (pre (comps (i_name (t_info se))) cs) as [r|] eqn:P.
  - apply pre_iff in P. subst cs. rewrite tfind_app, H in F. discriminate.
  - rewrite F. reflexivity.
Qed.
Definition ents (s : stream) : list entry := match s with Plain => [] | Arch e es => e :: es end.
Lemma listed_ch i s : exists j, listed_root i s = L j (map listed (ents s)).
Proof. destruct s as [|e es]; eexists; reflexivity. Qed.
Lemma build_pre i l : build (L i (map listed l)) = added (T i []) l.
Proof. cbn [build]. symmetry. apply fold_listed. Qed.
Lemma tfind_ch t t' cs : t_ch t = t_ch t' -> cs <> [] -> tfind t cs = tfind t' cs.
Proof. intros H N. destruct cs; [congruence|]. cbn [tfind]. rewrite H. reflexivity. Qed.
Lemma lookup_full i j s f : lookup (listed_root i s) f = inf (tfind (added (T j []) (ents s)) (comps f)).
Proof.
  destruct (listed_ch i s) as (i' & ->). rewrite <- build_lookup, build_pre. f_equal. apply tfind_ch; [apply added_ch; reflexivity|apply comps_ne].
Qed.
Lemma listed_name e : i_name (l_info (listed e)) = i_name (e_info e).
Proof. destruct e as [i r s]. cbn [listed e_info]. destruct s; reflexivity. Qed.
Lemma build_name e : i_name (t_info (build (listed e))) = i_name (e_info e).
Proof. rewrite build_info. apply listed_name. Qed.
Lemma ext_added i j s : fresh_paths (listed_root i s) -> forall mid pre rest, ents s = pre ++ mid ++ rest -> ext (added (T j []) pre) (added (T j []) (pre ++ mid)).
Proof.
  intros FP. induction mid as [|e mid IH]; intros pre rest E; [rewrite app_nil_r; apply ext_refl|].
  eapply ext_trans with (b := added (T j []) (pre ++ [e])).
  - rewrite added_app. change (added (added (T j []) pre) [e]) with (addEntry (added (T j []) pre) (build (listed e))). apply ext_add.
    rewrite build_name. destruct (listed_ch i s) as (i' & Ei). rewrite Ei in FP. cbn [fresh_paths] in FP.
    specialize (FP (map listed pre) (listed e) (map listed (mid ++ rest))). rewrite E, map_app in FP. specialize (FP eq_refl).
    rewrite listed_name, <- build_lookup, build_pre in FP. rewrite (tfind_ch _ (added (T j []) pre)) in FP; [|apply added_ch; reflexivity|apply comps_ne].
    destruct (tfind (added (T j []) pre) (comps (i_name (e_info e)))); [discriminate|reflexivity].
  - replace (pre ++ e :: mid) with ((pre ++ [e]) ++ mid) by (rewrite <- app_assoc; reflexivity). apply (IH _ rest). rewrite E, <- app_assoc. reflexivity.
Qed.

(** the entries of a directory *)
Definition dir_path (dir : option (list Z)) : list (list Z) := match dir with None => [] | Some d => comps d end.
Lemma comps_one c : ~ In 47 c -> comps c = [c].
Proof.
  induction c as [|a c IH]; intros H; [reflexivity|]. rewrite comps_cons by (intros ->; apply H; left; reflexivity).
  rewrite IH by (intros I; apply H; right; exact I). reflexivity.
Qed.
Lemma comps_in_dir dir c : ~ In 47 c -> comps (path_in dir c) = dir_path dir ++ [c].
Proof. intros H. destruct dir as [d|]; cbn [path_in dir_path]; [rewrite comps_app|]; rewrite (comps_one c H); reflexivity. Qed.
Definition infos (m : list (list Z * tree)) : list info := map (fun x => t_info (snd x)) m.
Lemma infos_names n t cs x m : wf n t -> tfind t cs = Some x -> Permutation m (t_ch x) -> map i_name (infos m) = map fst m.
Proof.
  intros W F P. destruct (W _ _ F) as (_ & _ & C). unfold infos. rewrite map_map. apply map_ext_in. intros (c & y) I. cbn [fst snd].
  apply C. apply (Permutation_in _ P). exact I.
Qed.
Lemma get_nodup {V} (m : list (list Z * V)) k v : NoDup (map fst m) -> In (k, v) m -> get m k = Some v.
Proof.
  induction m as [|(a & b) m IH]; [intros _ []|]. cbn [map fst]. intros H. inversion H as [|? ? N1 N2]; subst. intros [E|I]; cbn [get].
  - injection E as -> ->. rewrite list_eqb_refl. reflexivity.
  - destruct (list_eqb_spec a k) as [->|N]; [|apply IH; assumption]. exfalso. apply N1. apply (in_map fst) in I. exact I.
Qed.
Lemma child_iff i j s dir x : tfind (added (T j []) (ents s)) (dir_path dir) = Some x ->
  forall k, child (listed_root i s) dir k <-> In k (infos (t_ch x)).
Proof.
  intros F k. pose proof (wf_tree j (ents s)) as W. destruct (W _ _ F) as (A & _ & C). unfold infos. rewrite in_map_iff. split.
  - intros (c & NS & LK & Nm). rewrite (lookup_full i j s), comps_in_dir, tfind_app, F in LK by exact NS. cbn [tfind] in LK.
    destruct (get (t_ch x) c) as [y|] eqn:G; [|discriminate]. cbn [inf] in LK. exists (c, y). split; [cbn [snd]; congruence|]. apply get_in. exact G.
  - intros ((c & y) & E & I). cbn [snd] in E. destruct (C _ _ I) as (NS & Nm). exists c. split; [exact NS|]. split; [|congruence].
    rewrite (lookup_full i j s), comps_in_dir, tfind_app, F by exact NS. cbn [tfind]. rewrite (get_nodup _ _ _ A I). cbn [inf]. congruence.
Qed.
Lemma complete_node i j s dir x m : tfind (added (T j []) (ents s)) (dir_path dir) = Some x -> Permutation m (t_ch x) ->
  complete (listed_root i s) dir (infos m).
Proof.
  intros F P. pose proof (wf_tree j (ents s)) as W. split.
  - rewrite (infos_names _ _ _ _ _ W F P). apply (Permutation_NoDup (l := map fst (t_ch x))); [apply Permutation_map, Permutation_sym, P|]. apply (W _ _ F).
  - intros k. rewrite (child_iff i j s dir x F k). unfold infos. split; apply Permutation_in; apply Permutation_map; [exact P|apply Permutation_sym; exact P].
Qed.
Lemma complete_none i j s dir : tfind (added (T j []) (ents s)) (dir_path dir) = None -> complete (listed_root i s) dir [].
Proof.
  intros F. split; [constructor|]. intros k. split; [intros []|]. intros (c & NS & LK & Nm).
  rewrite (lookup_full i j s), comps_in_dir, tfind_app, F in LK by exact NS. discriminate.
Qed.
Lemma ins_perm {V} (x : list Z * V) m : Permutation (ins x m) (x :: m).
Proof.
  induction m as [|y m IH]; [apply Permutation_refl|]. cbn [ins]. destruct (str_lt (fst x) (fst y)); [apply Permutation_refl|].
  eapply perm_trans; [apply perm_skip, IH|apply perm_swap].
Qed.
Lemma in_order_perm {V} (m : list (list Z * V)) : Permutation (in_order m) m.
Proof. induction m as [|x m IH]; [apply Permutation_refl|]. cbn [in_order fold_right]. fold (in_order m). eapply perm_trans; [apply ins_perm|apply perm_skip, IH]. Qed.
Lemma pick_ok m done : NoDup done -> (length done < length m)%nat -> NoDup (map fst m) ->
  exists k t, pick m done = Ret (k, t_info t) /\ In (k, t) m /\ ~ In k done.
Proof.
  intros ND L NM.
  assert (exists k t, In (k, t) m /\ ~ In k done) as (k0 & t0 & I0 & N0).
  { destruct (Forall_Exists_dec (fun x => In (fst x) done) (fun x => in_dec (list_eq_dec Z.eq_dec) (fst x) done) m) as [F|E].
    - exfalso. assert (incl (map fst m) done) as H. { intros k I. apply in_map_iff in I. destruct I as (x & <- & I). rewrite Forall_forall in F. exact (F x I). }
      pose proof (NoDup_incl_length NM H) as LL. rewrite map_length in LL. lia.
    - apply Exists_exists in E. destruct E as ((k & t) & I & N). exists k, t. split; assumption. }
  clear L NM. induction m as [|(k & t) m IH]; [contradiction|]. cbn [pick]. destruct (existsb (list_eqb k) done) eqn:E.
  - apply existsb_keys in E. destruct I0 as [Eq|I0]; [exfalso; apply N0; congruence|]. destruct (IH I0) as (k1 & t1 & P & I1 & N1). exists k1, t1. split; [exact P|]. split; [right; exact I1|exact N1].
  - exists k, t. split; [reflexivity|]. split; [left; reflexivity|]. rewrite <- existsb_keys. congruence.
Qed.
