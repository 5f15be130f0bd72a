(** C33: the archive entry cache. *)
From Verif Require Import Base StreamSpec ArchiveSpec CacheSpec M_Ar M_Cache P_Cache.

(** findEntry(url) always returns, and reports exactly what the specification says is stored at [url]
    below the longest cached root (null: None). *)
Theorem C33_findEntry : forall stored url,
  exists r, findEntry (map (fun x => (fst x, build (snd x))) stored) url = Ret r /\
    answer stored url (match r with Some t => Some (t_info t) | None => None end).
Proof. exact findEntry_ok. Qed.

(** In particular: an entry added under the path [f] is what findEntry(root/f) returns, unless a later
    entry has the same path or is a directory above it ... *)
Theorem C33_entry_found_partial : forall stored root ri es1 i sub es2 f,
  In (root, L ri (es1 ++ L i sub :: es2)) stored -> NoDup (map fst stored) -> i_name i = f ->
  (forall e, In e es2 -> i_name (l_info e) <> f /\ forall rest, f <> i_name (l_info e) ++ 47 :: rest) ->
  (forall r l, In (r, l) stored -> root_of r (root ++ 47 :: f) -> zlen r <= zlen root) ->
  exists t, findEntry (map (fun x => (fst x, build (snd x))) stored) (root ++ 47 :: f) = Ret (Some t) /\
    t_info t = renamed i (basename f).
Proof.
  intros stored root ri es1 i sub es2 f HI HN Hi Hl HR.
  destruct (findEntry_ok stored (root ++ 47 :: f)) as (r & E & A). rewrite E.
  assert (root_of root (root ++ 47 :: f)) as R by (right; eauto).
  assert (lookup (L ri (es1 ++ L i sub :: es2)) f = Some (renamed i (basename f))) as LK.
  { cbn [lookup]. rewrite fold_left_app. cbn [fold_left]. destruct (list_eq_dec Z.eq_dec (i_name i) f); [|congruence].
    clear -Hl. induction es2 as [|(ie & se) es2 IH]; [reflexivity|]. cbn [fold_left].
    destruct (Hl (L ie se) (or_introl eq_refl)) as (N1 & N2). cbn [l_info] in *.
    destruct (list_eq_dec Z.eq_dec (i_name ie) f); [congruence|].
    destruct (below (i_name ie) f) as [rest|] eqn:B; [apply below_iff in B; exfalso; exact (N2 _ B)|].
    apply IH. intros e He. apply Hl. right. exact He. }
  destruct A as [(r0 & l & I & R0 & M & Er)|(C & _)]; [|exfalso; exact (C _ _ HI R)].
  assert (r0 = root) as ->.
  { pose proof (HR _ _ I R0). pose proof (M _ _ HI R).
    destruct R0 as [->|(g & Eg)]; [rewrite zlen_app, zlen_cons in *; pose proof (zlen_nonneg f); lia|].
    assert (zlen r0 = zlen root) as EL by lia. apply (f_equal (firstn (length root))) in Eg.
    rewrite firstn_app, Nat.sub_diag, firstn_O, app_nil_r, firstn_all in Eg. rewrite Eg.
    replace (length root) with (length r0) by (unfold zlen in EL; lia).
    rewrite firstn_app, Nat.sub_diag, firstn_O, app_nil_r, firstn_all. reflexivity. }
  assert (l = L ri (es1 ++ L i sub :: es2)) as ->.
  { clear -I HI HN. induction stored as [|(a & b) st IH]; [contradiction|]. cbn in HN. inversion HN as [|? ? N1 N2]; subst.
    destruct I as [I|I], HI as [J|J].
    - congruence.
    - exfalso. apply N1. injection I as -> ->. apply (in_map fst) in J. exact J.
    - exfalso. apply N1. injection J as -> ->. apply (in_map fst) in I. exact I.
    - exact (IH J N2 I). }
  rewrite (proj2 (below_iff root (root ++ 47 :: f) f) eq_refl) in Er. rewrite LK in Er.
  destruct r as [t|]; [|discriminate]. exists t. split; [reflexivity|]. cbn in Er. congruence.
Qed.
(** ... and a path that is no entry, no directory above one and not below a listed entry gives null. *)
Theorem C33_others_null : forall stored root ri es f,
  stored = [(root, L ri es)] ->
  (forall e, In e es -> i_name (l_info e) <> f /\ (forall rest, f <> i_name (l_info e) ++ 47 :: rest) /\ (forall rest, i_name (l_info e) <> f ++ 47 :: rest)) ->
  findEntry (map (fun x => (fst x, build (snd x))) stored) (root ++ 47 :: f) = Ret None.
Proof.
  intros stored root ri es f -> H. destruct (findEntry_ok [(root, L ri es)] (root ++ 47 :: f)) as (r & E & A). rewrite E.
  assert (lookup (L ri es) f = None) as LK.
  { cbn [lookup]. induction es as [|(ie & se) es IH]; [reflexivity|]. cbn [fold_left].
    destruct (H (L ie se) (or_introl eq_refl)) as (N1 & N2 & N3). cbn [l_info] in *.
    destruct (list_eq_dec Z.eq_dec (i_name ie) f); [congruence|].
    destruct (below (i_name ie) f) as [rest|] eqn:B; [apply below_iff in B; exfalso; exact (N2 _ B)|].
    destruct (below f (i_name ie)) as [rest|] eqn:B2; [apply below_iff in B2; exfalso; exact (N3 _ B2)|].
    cbn [map fst snd] in E. clear E A. 
    assert (forall e, In e es -> i_name (l_info e) <> f /\ (forall rest, f <> i_name (l_info e) ++ 47 :: rest) /\ (forall rest, i_name (l_info e) <> f ++ 47 :: rest)) as H' by (intros e He; apply H; right; exact He).
    clear IH H. induction es as [|(ie2 & se2) es IH]; [reflexivity|]. cbn [fold_left]. destruct (H' (L ie2 se2) (or_introl eq_refl)) as (M1 & M2 & M3). cbn [l_info] in *.
    destruct (list_eq_dec Z.eq_dec (i_name ie2) f); [congruence|].
    destruct (below (i_name ie2) f) as [rest|] eqn:C1; [apply below_iff in C1; exfalso; exact (M2 _ C1)|].
    destruct (below f (i_name ie2)) as [rest|] eqn:C2; [apply below_iff in C2; exfalso; exact (M3 _ C2)|].
    apply IH. intros e He. apply H'. right. exact He. }
  destruct A as [(r0 & l & [I|[]] & R0 & M & Er)|(C & Er)].
  - injection I as <- <-. rewrite (proj2 (below_iff root (root ++ 47 :: f) f) eq_refl), LK in Er. destruct r; [discriminate|reflexivity].
  - destruct r; [discriminate|reflexivity].
Qed.
(** What the code does not do: when the entry of a directory comes after its files (tar and cpio allow
    that), the files listed before are lost. *)
Definition eg_file (n : list Z) : listing := L (mkInfo n 5 0 2) [].
Theorem C33_late_directory_refuted :
  findEntry [([114], build (L (mkInfo [114] 9 0 3) [eg_file [97;47;98]; L (mkInfo [97] 0 0 1) []]))] [114;47;97;47;98] = Ret None.
Proof. vm_compute. reflexivity. Qed.
(** the same two entries in the other order: both are found; so is an implied directory; longest root wins *)
Theorem C33_case :
  let st := [([114], L (mkInfo [114] 9 0 3) [L (mkInfo [97] 0 0 1) []; eg_file [97;47;98]; eg_file [99;47;100]]);
             ([114;47;99], L (mkInfo [99] 1 0 3) [eg_file [101]])] in
  let ask u := match findEntry (map (fun x => (fst x, build (snd x))) st) u with Ret (Some t) => Some (i_name (t_info t), i_size (t_info t)) | _ => None end in
  ask [114;47;97;47;98] = Some ([98], 5) /\ ask [114;47;97] = Some ([97], 0) /\ ask [114;47;99;47;100] = None /\
  ask [114;47;99;47;101] = Some ([101], 5) /\ ask [114;47;120] = None /\ ask [113] = None.
Proof. vm_compute. auto 10. Qed.
