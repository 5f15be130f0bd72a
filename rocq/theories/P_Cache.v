(** Proofs for C33. *)
From Verif Require Import Base StreamSpec ArchiveSpec M_Ar M_Cache CacheSpec P_Cpio.

(** path components *)
Fixpoint comps (f : list Z) : list (list Z) :=
  match f with
  | [] => [[]]
  | c :: f' => if c =? 47 then [] :: comps f' else match comps f' with h :: t => (c :: h) :: t | [] => [[c]] end
  end.
Lemma comps_ne f : comps f <> [].
Proof. destruct f as [|c f]; [discriminate|]. cbn [comps]. destruct (c =? 47); [discriminate|]. destruct (comps f); discriminate. Qed.
Definition att (p : list Z) (cs : list (list Z)) : list (list Z) := match cs with h :: t => (p ++ h) :: t | [] => [p] end.
Lemma comps_cons c f : c <> 47 -> comps (c :: f) = att [c] (comps f).
Proof. intros H. cbn [comps]. destruct (Z.eqb_spec c 47); [congruence|]. reflexivity. Qed.
Lemma att_att p q cs : cs <> [] -> att p (att q cs) = att (p ++ q) cs.
Proof. destruct cs; [congruence|]. intros _. cbn. rewrite app_assoc. reflexivity. Qed.
Lemma split_comps f cur : let '(ns, l) := split_path f cur in ns ++ [l] = att (rev cur) (comps f).
Proof.
  revert cur. induction f as [|c f IH]; intros cur.
  - cbn. rewrite app_nil_r. reflexivity.
  - cbn [split_path]. destruct (Z.eqb_spec c 47) as [->|N].
    + specialize (IH []). destruct (split_path f []) as [ns l]. cbn [app rev] in *. change (comps (47 :: f)) with ([] :: comps f).
      cbn [att]. rewrite app_nil_r, IH. destruct (comps f) eqn:E; [exfalso; exact (comps_ne f E)|]. reflexivity.
    + specialize (IH (c :: cur)). destruct (split_path f (c :: cur)) as [ns l]. rewrite IH. rewrite comps_cons by exact N.
      rewrite att_att by apply comps_ne. reflexivity.
Qed.
Lemma comps_app n r : comps (n ++ 47 :: r) = comps n ++ comps r.
Proof.
  induction n as [|c n IH]; [reflexivity|]. cbn [app]. destruct (Z.eq_dec c 47) as [->|N].
  - change (comps (47 :: n ++ 47 :: r)) with ([] :: comps (n ++ 47 :: r)). rewrite IH. reflexivity.
  - rewrite !comps_cons by exact N. rewrite IH. destruct (comps n) eqn:E; [exfalso; exact (comps_ne n E)|]. reflexivity.
Qed.
Fixpoint unc (cs : list (list Z)) : list Z :=
  match cs with [] => [] | [c] => c | c :: cs' => c ++ 47 :: unc cs' end.
Lemma unc_comps f : unc (comps f) = f.
Proof.
  induction f as [|c f IH]; [reflexivity|]. cbn [comps]. destruct (Z.eqb_spec c 47) as [->|N].
  - cbn [unc]. destruct (comps f) eqn:E; [exfalso; exact (comps_ne f E)|]. cbn [app]. rewrite IH. reflexivity.
  - destruct (comps f) as [|h t] eqn:E; [exfalso; exact (comps_ne f E)|]. cbn [unc] in *. destruct t; cbn [app]; rewrite IH; reflexivity.
Qed.
Lemma comps_inj a b : comps a = comps b -> a = b.
Proof. intros H. rewrite <- (unc_comps a), <- (unc_comps b), H. reflexivity. Qed.
Lemma unc_cons c cs : cs <> [] -> unc (c :: cs) = c ++ 47 :: unc cs.
Proof. destruct cs; [congruence|reflexivity]. Qed.
Lemma unc_app a b : a <> [] -> b <> [] -> unc (a ++ b) = unc a ++ 47 :: unc b.
Proof.
  intros Ha Hb. induction a as [|x a IH]; [congruence|]. destruct a as [|y a].
  - change ([x] ++ b) with (x :: b). rewrite unc_cons by exact Hb. reflexivity.
  - change ((x :: y :: a) ++ b) with (x :: ((y :: a) ++ b)). rewrite unc_cons by discriminate. rewrite (unc_cons x (y :: a)) by discriminate.
    rewrite IH by discriminate. rewrite <- app_assoc. reflexivity.
Qed.
Lemma below_iff n f r : below n f = Some r <-> f = n ++ 47 :: r.
Proof.
  revert f. induction n as [|a n IH]; intros [|b f]; cbn [below app]; try (split; congruence).
  - destruct (Z.eqb_spec b 47); split; congruence.
  - destruct (Z.eqb_spec a b) as [->|N]; [rewrite IH|]; split; congruence.
Qed.
Lemma below_comps n f : below n f = match below n f with Some r => Some r | None => None end.
Proof. destruct (below n f); reflexivity. Qed.
(** component lists: [pre a b]: b = a ++ r *)
Fixpoint pre (a b : list (list Z)) : option (list (list Z)) :=
  match a, b with
  | [], _ => Some b
  | x :: a', y :: b' => if list_eqb x y then pre a' b' else None
  | _, [] => None
  end.
Lemma pre_iff a b r : pre a b = Some r <-> b = a ++ r.
Proof.
  revert b. induction a as [|x a IH]; intros b; cbn [pre app]; [split; congruence|]. destruct b as [|y b]; [split; discriminate|].
  destruct (list_eqb x y) eqn:E.
  - apply list_eqb_true in E. subst. rewrite IH. split; congruence.
  - split; [discriminate|]. intros C. injection C as -> ->. rewrite list_eqb_refl in E. discriminate.
Qed.
Lemma pre_below n f : pre (comps n) (comps f) = if list_eq_dec Z.eq_dec n f then Some [] else match below n f with Some r => Some (comps r) | None => None end.
Proof.
  destruct (list_eq_dec Z.eq_dec n f) as [->|N]; [apply pre_iff; rewrite app_nil_r; reflexivity|].
  destruct (below n f) as [r|] eqn:B.
  - apply below_iff in B. subst. apply pre_iff. apply comps_app.
  - destruct (pre (comps n) (comps f)) as [r|] eqn:P; [|reflexivity]. exfalso. apply pre_iff in P. destruct r as [|x r].
    + rewrite app_nil_r in P. apply comps_inj in P. congruence.
    + assert (f = n ++ 47 :: unc (x :: r)) as E.
      { rewrite <- (unc_comps f), P. rewrite unc_app; [|apply comps_ne|discriminate]. rewrite unc_comps. reflexivity. }
      apply below_iff in E. congruence.
Qed.

(** ** trees by component *)
Fixpoint tfind (t : tree) (cs : list (list Z)) : option tree :=
  match cs with [] => Some t | n :: cs' => match get (t_ch t) n with None => None | Some c => tfind c cs' end end.
Lemma get_set {V} (m : list (list Z * V)) k v k' : get (set m k v) k' = if list_eqb k k' then Some v else get m k'.
Proof.
  induction m as [|(a & b) m IH]; cbn [set get]; [reflexivity|].
  destruct (list_eqb a k) eqn:E.
  - apply list_eqb_true in E. subst. cbn [get]. destruct (list_eqb k k'); reflexivity.
  - cbn [get]. rewrite IH. destruct (list_eqb a k') eqn:E2; [|reflexivity]. apply list_eqb_true in E2. subst.
    destruct (list_eqb k k') eqn:E3; [|reflexivity]. apply list_eqb_true in E3. subst. rewrite list_eqb_refl in E. discriminate.
Qed.
Definition inf (t : option tree) : option info := match t with Some t => Some (t_info t) | None => None end.
Lemma add_info ns l se t : t_info (add_at ns l se t) = t_info t.
Proof. destruct ns; reflexivity. Qed.
Lemma tfind_add ns l se : forall t cs,
  inf (tfind (add_at ns l se t) cs) =
  match pre (ns ++ [l]) cs with
  | Some r => inf (tfind se r)
  | None => match inf (tfind t cs) with
            | Some i => Some i
            | None => match pre cs (ns ++ [l]) with Some _ => Some (mkInfo (last cs []) 0 0 1) | None => None end
            end
  end.
Proof.
  induction ns as [|n ns IH]; intros t cs.
  - cbn [add_at app]. destruct cs as [|c cs]; [reflexivity|]. cbn [tfind t_ch pre]. rewrite get_set. destruct (list_eqb l c) eqn:E.
    + reflexivity.
    + destruct (match get (t_ch t) c with Some c0 => tfind c0 cs | None => None end); [reflexivity|]. cbn [inf].
      destruct (list_eqb c l) eqn:E2; [|reflexivity]. apply list_eqb_true in E2. subst. rewrite list_eqb_refl in E. discriminate.
  - cbn [add_at app]. destruct cs as [|c cs]; [reflexivity|]. cbn [tfind t_ch pre]. rewrite get_set. destruct (list_eqb n c) eqn:E.
    + apply list_eqb_true in E. subst c. rewrite IH. rewrite list_eqb_refl. destruct (pre (ns ++ [l]) cs) as [r|] eqn:P; [reflexivity|].
      destruct (get (t_ch t) n) as [c|] eqn:G.
      * destruct cs as [|x cs]; [reflexivity|]. destruct (inf (tfind c (x :: cs))); [reflexivity|]. reflexivity.
      * cbn [inf]. destruct cs as [|x cs]; [reflexivity|]. cbn [tfind new_dir t_ch get inf]. destruct (pre (x :: cs) (ns ++ [l])); reflexivity.
    + destruct (match get (t_ch t) c with Some c0 => tfind c0 cs | None => None end); [reflexivity|]. cbn [inf].
      destruct (list_eqb c n) eqn:E2; [|reflexivity]. apply list_eqb_true in E2. subst. rewrite list_eqb_refl in E. discriminate.
Qed.

Lemma last_comps f : last (comps f) [] = basename f.
Proof.
  unfold basename. assert (forall f acc, fold_left (fun acc c => if c =? 47 then [] else acc ++ [c]) f acc = last (att acc (comps f)) []) as H.
  { clear f. induction f as [|c f IH]; intros acc; [cbn; rewrite app_nil_r; reflexivity|]. cbn [fold_left]. rewrite IH. destruct (Z.eqb_spec c 47) as [->|N].
    - change (comps (47 :: f)) with ([] :: comps f). cbn [att]. destruct (comps f) eqn:E; [exfalso; exact (comps_ne f E)|]. reflexivity.
    - rewrite comps_cons by exact N. rewrite att_att by apply comps_ne. reflexivity. }
  rewrite H. destruct (comps f); reflexivity.
Qed.
Lemma tfind_addEntry t se f :
  inf (tfind (addEntry t se) (comps f)) =
  let n := i_name (t_info se) in
  if list_eq_dec Z.eq_dec n f then Some (renamed (t_info se) (basename f))
  else match below n f with
  | Some rest => inf (tfind se (comps rest))
  | None => match inf (tfind t (comps f)) with
            | Some x => Some x
            | None => match below f n with Some _ => Some (mkInfo (basename f) 0 0 1) | None => None end
            end
  end.
Proof.
  cbv zeta. unfold addEntry. set (n := i_name (t_info se)). pose proof (split_comps n []) as S. destruct (split_path n []) as [ns l].
  assert (ns ++ [l] = comps n) as S2 by (rewrite S; destruct (comps n) eqn:E; [exfalso; exact (comps_ne n E)|]; reflexivity).
  rewrite tfind_add, S2. rewrite !pre_below.
  destruct (list_eq_dec Z.eq_dec n f) as [E|N].
  - cbn [tfind inf t_info]. f_equal. unfold with_name, renamed. f_equal. rewrite <- last_comps, <- E, <- S2, last_last. reflexivity.
  - destruct (below n f) as [r|] eqn:B.
    + destruct (comps r) eqn:E; [exfalso; exact (comps_ne r E)|]. reflexivity.
    + destruct (inf (tfind t (comps f))); [reflexivity|]. destruct (list_eq_dec Z.eq_dec f n); [congruence|].
      rewrite last_comps. destruct (below f n); reflexivity.
Qed.
(** induction on nested listings *)
Fixpoint listing_ind' (P : listing -> Prop) (H : forall i sub, Forall P sub -> P (L i sub)) (l : listing) : P l :=
  match l with
  | L i sub => H i sub ((fix go (s : list listing) : Forall P s := match s with [] => Forall_nil P | x :: r => Forall_cons x (listing_ind' P H x) (go r) end) sub)
  end.
Lemma addEntry_info t se : t_info (addEntry t se) = t_info t.
Proof. unfold addEntry. destruct (split_path _ []). apply add_info. Qed.
Lemma build_info l : t_info (build l) = l_info l.
Proof.
  destruct l as [i sub]. cbn [build l_info]. assert (forall t, t_info (fold_left (fun t e => addEntry t (build e)) sub t) = t_info t) as H.
  { induction sub as [|e sub IH]; intros t; [reflexivity|]. cbn [fold_left]. rewrite IH. apply addEntry_info. }
  rewrite H. reflexivity.
Qed.
Lemma build_lookup l : forall f, inf (tfind (build l) (comps f)) = lookup l f.
Proof.
  induction l as [i sub IH] using listing_ind'. intros f. cbn [build lookup].
  assert (inf (tfind (T i []) (comps f)) = None) as H0.
  { destruct (comps f) eqn:E; [exfalso; exact (comps_ne f E)|]. reflexivity. }
  match goal with |- _ = fold_left ?F sub None => 
    cut (forall t o, inf (tfind t (comps f)) = o -> inf (tfind (fold_left (fun t e => addEntry t (build e)) sub t) (comps f)) = fold_left F sub o);
    [intros H; apply H; exact H0|] end.
  clear H0. induction IH as [|e sub He Hs IHs]; intros t o H0; [exact H0|].
  cbn [fold_left]. apply IHs. rewrite tfind_addEntry. cbv zeta. rewrite build_info, H0. destruct e as [ie se]. cbn [l_info].
  destruct (list_eq_dec Z.eq_dec (i_name ie) f); [reflexivity|]. destruct (below (i_name ie) f); [apply He|reflexivity].
Qed.

(** ** lookups by url *)
Lemma zget_nil {A} j : zget (@nil A) j = None.
Proof. unfold zget. destruct (j <? 0); [reflexivity|]. destruct (Z.to_nat j); reflexivity. Qed.
Lemma find_slash_spec s : forall from i, match find_slash s from i with
  | Some q => i + Z.of_nat from <= q < i + zlen s /\ zget s (q - i) = Some 47 /\ forall j, Z.of_nat from <= j < q - i -> zget s j <> Some 47
  | None => forall j, Z.of_nat from <= j -> zget s j <> Some 47 end.
Proof.
  induction s as [|c s IH]; intros from i.
  - cbn [find_slash]. intros j Hj. rewrite zget_nil. discriminate.
  - cbn [find_slash]. destruct from as [|k].
    + destruct (Z.eqb_spec c 47) as [->|N].
      * rewrite zlen_cons. pose proof (zlen_nonneg s). split; [lia|]. rewrite Z.sub_diag. split; [reflexivity|]. intros; lia.
      * specialize (IH O (i + 1)). destruct (find_slash s 0 (i + 1)) as [q|].
        -- destruct IH as (B & G & F). rewrite zlen_cons. split; [lia|]. split.
           ++ rewrite zget_cons. destruct (Z.eqb_spec (q - i) 0); [lia|]. destruct (Z.ltb_spec (q - i) 0); [lia|]. rewrite <- G. f_equal. lia.
           ++ intros j Hj. rewrite zget_cons. destruct (Z.eqb_spec j 0); [congruence|]. destruct (Z.ltb_spec j 0); [discriminate|]. apply F. lia.
        -- intros j Hj. rewrite zget_cons. destruct (Z.eqb_spec j 0); [congruence|]. destruct (Z.ltb_spec j 0); [discriminate|]. apply IH. lia.
    + specialize (IH k (i + 1)). destruct (find_slash s k (i + 1)) as [q|].
      * destruct IH as (B & G & F). rewrite zlen_cons. split; [lia|]. split.
        -- rewrite zget_cons. destruct (Z.eqb_spec (q - i) 0); [lia|]. destruct (Z.ltb_spec (q - i) 0); [lia|]. rewrite <- G. f_equal. lia.
        -- intros j Hj. rewrite zget_cons. destruct (Z.eqb_spec j 0); [lia|]. destruct (Z.ltb_spec j 0); [discriminate|]. apply F. lia.
      * intros j Hj. rewrite zget_cons. destruct (Z.eqb_spec j 0); [lia|]. destruct (Z.ltb_spec j 0); [discriminate|]. apply IH. lia.
Qed.
Lemma comps_noslash s : (forall j, zget s j <> Some 47) -> comps s = [s].
Proof.
  induction s as [|c s IH]; intros H; [reflexivity|]. rewrite comps_cons.
  - rewrite IH; [reflexivity|]. intros j C. apply (H (j + 1)). rewrite zget_cons. pose proof (zget_some_inv s j _ C).
    destruct (Z.eqb_spec (j + 1) 0); [lia|]. destruct (Z.ltb_spec (j + 1) 0); [lia|]. rewrite <- C. f_equal. lia.
  - intros ->. apply (H 0). reflexivity.
Qed.
Lemma comps_first s q : 0 <= q -> zget s q = Some 47 -> (forall j, 0 <= j < q -> zget s j <> Some 47) -> comps s = slice s 0 q :: comps (skipn (Z.to_nat (q + 1)) s).
Proof.
  intros Hq G F. pose proof (zget_some_inv s q _ G) as B.
  assert (s = slice s 0 q ++ 47 :: skipn (Z.to_nat (q + 1)) s) as E.
  { rewrite <- (firstn_skipn (Z.to_nat q) s) at 1. unfold slice. cbn [Z.to_nat skipn]. f_equal.
    unfold zget in G. destruct (q <? 0); [discriminate|]. replace (Z.to_nat (q + 1)) with (S (Z.to_nat q)) by lia. revert G. generalize (Z.to_nat q) as n. clear. intros n. revert s.
    induction n as [|n IH]; intros [|x s] G; try discriminate; cbn in *; [congruence|]. apply IH. exact G. }
  rewrite E at 1. rewrite comps_app. rewrite comps_noslash; [reflexivity|]. intros j. rewrite zget_slice by lia.
  destruct (Z.leb_spec 0 j), (Z.ltb_spec j q); cbn [andb]; try discriminate. apply F. lia.
Qed.
Lemma zget_skipn_eq (s : list Z) p j : 0 <= p -> 0 <= j -> zget (skipn (Z.to_nat p) s) j = zget s (p + j).
Proof. intros. rewrite zget_skipn. destruct (Z.ltb_spec j 0); [lia|]. f_equal. lia. Qed.
Lemma find_below_ok fuel : forall e url p, 0 <= p + 1 <= zlen url -> -1 <= p -> zlen url - p <= Z.of_nat fuel ->
  find_below fuel e url p = Ret (tfind e (comps (skipn (Z.to_nat (p + 1)) url))).
Proof.
  induction fuel as [|fuel IH]; intros e url p H1 Hp H2; [lia|]. cbn [find_below].
  destruct (Z.leb_spec (p + 1) (zlen url)); [|lia]. cbn [negb].
  set (w := skipn (Z.to_nat (p + 1)) url). pose proof (find_slash_spec url (Z.to_nat (p + 1)) 0) as S.
  destruct (find_slash url (Z.to_nat (p + 1)) 0) as [q|].
  - destruct S as (B & G & F). rewrite Z.sub_0_r in G, F.
    assert (comps w = slice url (p + 1) (q - p - 1) :: comps (skipn (Z.to_nat (q + 1)) url)) as E.
    { rewrite (comps_first w (q - (p + 1))).
      - f_equal.
        + apply zget_ext. intros j. rewrite !zget_slice by lia. replace (q - p - 1) with (q - (p + 1)) by lia.
          destruct (Z.leb_spec 0 j), (Z.ltb_spec j (q - (p + 1))); cbn [andb]; try reflexivity. unfold w. rewrite zget_skipn_eq by lia. f_equal; lia.
        + unfold w. rewrite skipn_skipn'. do 2 f_equal. lia.
      - lia.
      - unfold w. rewrite zget_skipn_eq by lia. rewrite <- G. f_equal. lia.
      - intros j Hj. unfold w. rewrite zget_skipn_eq by lia. apply F. lia. }
    rewrite E. cbn [tfind]. destruct (get (t_ch e) _) as [c|]; [|reflexivity].
    destruct (Z.eqb_spec q (zlen url)); [lia|]. apply IH; lia.
  - assert (comps w = [slice url (p + 1) (zlen url)]) as E.
    { rewrite comps_noslash.
      - f_equal. unfold w. symmetry. apply slice_to_end; lia.
      - intros j. destruct (Z.lt_ge_cases j 0); [rewrite zget_none_neg by lia; discriminate|]. unfold w. rewrite zget_skipn_eq by lia. apply S. lia. }
    rewrite E. cbn [tfind]. destruct (get (t_ch e) _); reflexivity.
Qed.
Lemma rfind_spec s : forall i r, (forall p, r = Some p -> p < i) -> match rfind_slash s i r with
  | Some p => (r = Some p /\ (forall j, zget s j <> Some 47)) \/ (i <= p /\ zget s (p - i) = Some 47 /\ forall j, p - i < j -> zget s j <> Some 47)
  | None => r = None /\ forall j, zget s j <> Some 47 end.
Proof.
  induction s as [|c s IH]; intros i r Hr.
  - cbn [rfind_slash]. assert (forall j, zget (@nil Z) j <> Some 47) as N by (intros j; rewrite zget_nil; discriminate).
    destruct r; auto.
  - cbn [rfind_slash]. specialize (IH (i + 1) (if c =? 47 then Some i else r)).
    assert (forall j, zget (c :: s) j = if j =? 0 then Some c else if j <? 0 then None else zget s (j - 1)) as ZC by (intros; apply zget_cons).
    destruct (Z.eqb_spec c 47) as [->|N].
    + specialize (IH ltac:(intros p E; injection E as <-; lia)). destruct (rfind_slash s (i + 1) (Some i)) as [p|].
      * right. destruct IH as [(E & F)|(B & G & F)].
        -- injection E as <-. split; [lia|]. rewrite Z.sub_diag. split; [reflexivity|]. intros j Hj. rewrite ZC. destruct (Z.eqb_spec j 0); [lia|]. destruct (j <? 0); [discriminate|apply F].
        -- split; [lia|]. split.
           ++ rewrite ZC. destruct (Z.eqb_spec (p - i) 0); [lia|]. destruct (Z.ltb_spec (p - i) 0); [lia|]. rewrite <- G. f_equal. lia.
           ++ intros j Hj. rewrite ZC. destruct (Z.eqb_spec j 0); [lia|]. destruct (j <? 0); [discriminate|]. apply F. lia.
      * destruct IH as (E & _). discriminate.
    + specialize (IH ltac:(intros p E; specialize (Hr p E); lia)). destruct (rfind_slash s (i + 1) r) as [p|].
      * destruct IH as [(E & F)|(B & G & F)].
        -- left. split; [exact E|]. intros j. rewrite ZC. destruct (j =? 0); [congruence|]. destruct (j <? 0); [discriminate|apply F].
        -- right. split; [lia|]. split.
           ++ rewrite ZC. destruct (Z.eqb_spec (p - i) 0); [lia|]. destruct (Z.ltb_spec (p - i) 0); [lia|]. rewrite <- G. f_equal. lia.
           ++ intros j Hj. rewrite ZC. destruct (Z.eqb_spec j 0); [congruence|]. destruct (j <? 0); [discriminate|]. apply F. lia.
      * destruct IH as (E & F). split; [exact E|]. intros j. rewrite ZC. destruct (j =? 0); [congruence|]. destruct (j <? 0); [discriminate|apply F].
Qed.
Lemma zget_mid_47 (r f : list Z) : zget (r ++ 47 :: f) (zlen r) = Some 47.
Proof. rewrite zget_app. destruct (Z.ltb_spec (zlen r) (zlen r)); [lia|]. rewrite Z.sub_diag. reflexivity. Qed.
Lemma root_cut n p r : 0 <= p -> zget n p = Some 47 -> (forall j, p < j -> zget n j <> Some 47) -> root_of r n <-> r = n \/ root_of r (slice n 0 p).
Proof.
  intros Hp G F. pose proof (zget_some_inv n p _ G) as B. assert (zlen (slice n 0 p) = p) as L by (apply zlen_slice; lia).
  assert (n = slice n 0 p ++ 47 :: skipn (Z.to_nat (p + 1)) n) as E.
  { rewrite <- (firstn_skipn (Z.to_nat p) n) at 1. unfold slice. cbn [Z.to_nat skipn]. f_equal.
    unfold zget in G. destruct (p <? 0); [discriminate|]. replace (Z.to_nat (p + 1)) with (S (Z.to_nat p)) by lia. revert G. generalize (Z.to_nat p) as k. clear. intros k. revert n.
    induction k as [|k IH]; intros [|x n] G; try discriminate; cbn in *; [congruence|]. apply IH. exact G. }
  split.
  - intros [->|(f & Ef)]; [auto|]. right. pose proof (zget_mid_47 r f) as G2. rewrite <- Ef in G2. pose proof (zlen_nonneg r).
    assert (zlen r <= p) as Hle. { destruct (Z.le_gt_cases (zlen r) p); [assumption|]. exfalso. apply (F (zlen r)); [lia|exact G2]. }
    destruct (Z.eq_dec (zlen r) p) as [Q|Q].
    + left. rewrite Ef. rewrite slice_app_l by lia. rewrite <- Q. symmetry. apply slice_all.
    + right. exists (slice f 0 (p - zlen r - 1)). apply zget_ext. intros j. rewrite zget_slice by lia. rewrite Ef at 1.
      rewrite !zget_app, !zget_cons, zget_slice by lia. destruct (Z.leb_spec 0 j), (Z.ltb_spec j p); cbn [andb]; destruct (Z.ltb_spec (0 + j) (zlen r)), (Z.ltb_spec j (zlen r)); try lia;
        try (replace (0 + j) with j by lia; reflexivity); destruct (Z.eqb_spec (j - zlen r) 0); try lia;
        destruct (Z.ltb_spec (j - zlen r) 0); try lia.
      * destruct (Z.eqb_spec (0 + j - zlen r) 0); [reflexivity|lia].
      * destruct (Z.eqb_spec (0 + j - zlen r) 0); [lia|]. destruct (Z.ltb_spec (0 + j - zlen r) 0); [lia|].
        destruct (Z.leb_spec 0 (j - zlen r - 1)), (Z.ltb_spec (j - zlen r - 1) (p - zlen r - 1)); try lia. cbn [andb]. f_equal; lia.
      * destruct (Z.leb_spec 0 (j - zlen r - 1)), (Z.ltb_spec (j - zlen r - 1) (p - zlen r - 1)); try lia; reflexivity.
      * symmetry. apply zget_none_neg. lia.
  - intros [->|[->|(f & Ef)]]; [left; reflexivity| |].
    + right. exists (skipn (Z.to_nat (p + 1)) n). exact E.
    + right. exists (f ++ 47 :: skipn (Z.to_nat (p + 1)) n). rewrite E at 1. rewrite Ef. rewrite <- app_assoc. reflexivity.
Qed.
Lemma get_in {V} (m : list (list Z * V)) k v : get m k = Some v -> In (k, v) m.
Proof.
  induction m as [|(a & b) m IH]; cbn [get]; [discriminate|]. destruct (list_eqb a k) eqn:E; intros H.
  - apply list_eqb_true in E. left. congruence.
  - right. auto.
Qed.
Lemma get_none {V} (m : list (list Z * V)) k v : get m k = None -> ~ In (k, v) m.
Proof.
  induction m as [|(a & b) m IH]; cbn [get]; [auto|]. destruct (list_eqb a k) eqn:E; [discriminate|]. intros H [C|C]; [|exact (IH H C)].
  injection C as -> ->. rewrite list_eqb_refl in E. discriminate.
Qed.
Lemma findRoot_ok fuel : forall cache n, zlen n < Z.of_nat fuel -> exists r, findRootEntry fuel cache n = Ret r /\ match r with
  | Some (k, t) => In (k, t) cache /\ root_of k n /\ forall k' t', In (k', t') cache -> root_of k' n -> zlen k' <= zlen k
  | None => forall k t, In (k, t) cache -> ~ root_of k n
  end.
Proof.
  induction fuel as [|fuel IH]; intros cache n H; [pose proof (zlen_nonneg n); lia|]. cbn [findRootEntry].
  destruct (get cache n) as [t|] eqn:G.
  - eexists. split; [reflexivity|]. split; [apply get_in; exact G|]. split; [left; reflexivity|].
    intros k' t' _ [->|(f & ->)]; [lia|]. rewrite zlen_app, zlen_cons. pose proof (zlen_nonneg f). lia.
  - pose proof (rfind_spec n 0 None ltac:(discriminate)) as S. destruct (rfind_slash n 0 None) as [p|].
    + destruct S as [(C & _)|(B & GP & F)]; [discriminate|]. rewrite Z.sub_0_r in GP, F. pose proof (zget_some_inv n p _ GP) as BP.
      assert (zlen (slice n 0 p) = p) as Lp by (apply zlen_slice; lia).
      destruct (IH cache (slice n 0 p)) as (r & E & Hr); [lia|]. exists r. split; [exact E|].
      assert (forall k t, In (k, t) cache -> (root_of k n <-> root_of k (slice n 0 p))) as EQ.
      { intros k t Hk. rewrite (root_cut n p k) by (try assumption; lia). split; [|auto]. intros [->|X]; [|exact X]. exfalso. exact (get_none cache n t G Hk). }
      destruct r as [(k & t)|].
      * destruct Hr as (I & R & M). split; [exact I|]. split; [apply (EQ k t I); exact R|]. intros k' t' I' R'. apply (M k' t' I'). apply (EQ k' t' I'). exact R'.
      * intros k t I R. apply (Hr k t I). apply (EQ k t I). exact R.
    + destruct S as (_ & S). eexists. split; [reflexivity|]. intros k t I [->|(f & ->)]; [exact (get_none cache n t G I)|].
      apply (S (zlen k)). apply zget_mid_47.
Qed.
Lemma findEntry_ok stored url : exists r, findEntry (map (fun x => (fst x, build (snd x))) stored) url = Ret r /\ answer stored url (inf r).
Proof.
  unfold findEntry. set (cache := map _ stored).
  destruct (findRoot_ok (length url + 1) cache url) as (r & -> & Hr); [unfold zlen; lia|]. cbn [bind].
  assert (forall k t, In (k, t) cache -> exists l, In (k, l) stored /\ t = build l) as Inv.
  { intros k t I. unfold cache in I. apply in_map_iff in I. destruct I as ((k' & l) & E & I). cbn in E. injection E as -> <-. eauto. }
  assert (forall k l, In (k, l) stored -> In (k, build l) cache) as Inv2.
  { intros k l I. unfold cache. apply in_map_iff. exists (k, l). auto. }
  destruct r as [(k & t)|].
  - destruct Hr as (I & R & M). destruct (Inv k t I) as (l & Il & ->).
    assert (forall r' l', In (r', l') stored -> root_of r' url -> zlen r' <= zlen k) as M' by (intros r' l' I' R'; eapply M; [apply Inv2; exact I'|exact R']).
    destruct (list_eqb k url) eqn:E.
    + apply list_eqb_true in E. subst. eexists. split; [reflexivity|]. left. exists url, l. split; [exact Il|]. split; [exact R|]. split; [exact M'|].
      destruct (below url url) as [f|] eqn:B; [|cbn [inf]; rewrite build_info; reflexivity]. exfalso. apply below_iff in B. apply (f_equal zlen) in B.
      rewrite zlen_app, zlen_cons in B. pose proof (zlen_nonneg f). lia.
    + destruct R as [->|(f & ->)]; [rewrite list_eqb_refl in E; discriminate|]. unfold root_findEntry. pose proof (zlen_nonneg k). pose proof (zlen_nonneg f).
      assert (zlen (k ++ 47 :: f) = zlen k + 1 + zlen f) as Lf by (rewrite zlen_app, zlen_cons; lia).
      rewrite find_below_ok by (try lia; unfold zlen in *; lia).
      eexists. split; [reflexivity|]. left. exists k, l. split; [exact Il|]. split; [right; eauto|]. split; [exact M'|].
      rewrite (proj2 (below_iff k (k ++ 47 :: f) f) eq_refl). rewrite <- build_lookup. do 3 f_equal.
      replace (Z.to_nat (zlen k + 1)) with (length k + 1)%nat by (unfold zlen; lia). rewrite skipn_app. rewrite skipn_all2 by lia.
      replace (length k + 1 - length k)%nat with 1%nat by lia. reflexivity.
  - exists None. split; [reflexivity|]. right. split; [|reflexivity]. intros k l I. apply (Hr k (build l)). apply Inv2. exact I.
Qed.
