(** C51: the replacements for functions of the C library (lib/compat.cpp). *)
From Verif Require Import Base CompatSpec M_Compat.

Lemma same_text_map a b : same_text a b <-> map lower a = map lower b.
Proof.
  unfold same_text. split.
  - induction 1; cbn; [reflexivity|congruence].
  - revert b. induction a as [|x a IH]; intros [|y b] E; try discriminate; [constructor|]. cbn in E. injection E as E1 E2. constructor; [exact E1|apply IH, E2].
Qed.
Lemma lower_nz c : c <> 0 -> lower c <> 0.
Proof. unfold lower. intros H. destruct (Z.leb_spec 65 c); cbn; [|exact H]. destruct (Z.leb_spec c 90); lia. Qed.
Lemma hd_nz s : cstr s -> s <> [] -> lower (hd 0 s) <> 0.
Proof. intros H N. destruct H as [|c s (_ & H) _]; [congruence|apply lower_nz, H]. Qed.
(** the loop compares up to the first difference *)
Lemma casecmp_ok : forall a b ra rb, cstr a -> cstr b ->
  exists r p q a' b', casecmp_loop (a ++ 0 :: ra) (b ++ 0 :: rb) = Ret r /\ a = p ++ a' /\ b = q ++ b' /\ same_text p q /\ r = lower (hd 0 a') - lower (hd 0 b') /\ (r = 0 -> a' = [] /\ b' = []).
Proof.
  induction a as [|x a IH]; intros b ra rb Ha Hb.
  - exists (lower 0 - lower (hd 0 b)), [], [], [], b. cbn [app casecmp_loop]. destruct b as [|y b]; cbn [app casecmp_loop hd]; change (lower 0) with 0; change (negb (0 =? 0)) with false; cbn [andb]; (split; [reflexivity|]; split; [reflexivity|]; split; [reflexivity|]; split; [constructor|]; split; [reflexivity|]).
    + intros _. split; reflexivity.
    + intros E. exfalso. apply (hd_nz _ Hb ltac:(discriminate)). cbn [hd]. lia.
  - inversion Ha as [|? ? (_ & Nx) Ha']; subst. destruct b as [|y b].
    + exists (lower x), [], [], (x :: a), []. cbn [app casecmp_loop hd]. change (lower 0) with 0. destruct (Z.eqb_spec (lower x) 0) as [E|E]; [exfalso; exact (lower_nz _ Nx E)|]. cbn [negb andb]. rewrite Z.sub_0_r. split; [reflexivity|]. split; [reflexivity|]. split; [reflexivity|]. split; [constructor|]. split; [reflexivity|]. intros Q; contradiction.
    + cbn [app casecmp_loop]. pose proof (lower_nz _ Nx) as Nl. destruct (Z.eqb_spec (lower x) 0) as [E|_]; [contradiction|]. cbn [negb andb]. destruct (Z.eqb_spec (lower x) (lower y)) as [E|E].
      * inversion Hb as [|? ? _ Hb']; subst. destruct (IH b ra rb Ha' Hb') as (r & p & q & a' & b' & E1 & -> & -> & E4 & E5 & E6). exists r, (x :: p), (y :: q), a', b'. split; [exact E1|]. split; [reflexivity|]. split; [reflexivity|]. split; [constructor; assumption|]. split; assumption.
      * exists (lower x - lower y), [], [], (x :: a), (y :: b). split; [reflexivity|]. split; [reflexivity|]. split; [reflexivity|]. split; [constructor|]. split; [reflexivity|]. cbn [hd]. lia.
Qed.
(** what the result means *)
Definition compared (a b : list Z) (r : Z) : Prop := (r = 0 <-> same_text a b) /\ (r < 0 <-> before a b) /\ (0 < r <-> before b a).
Lemma same_text_refl a : same_text a a. Proof. apply same_text_map. reflexivity. Qed.
Lemma same_text_sym a b : same_text a b -> same_text b a. Proof. rewrite !same_text_map. auto. Qed.
Lemma before_exclusive : forall a b, cstr a -> cstr b -> before a b -> ~ same_text a b /\ ~ before b a.
Proof.
  assert (forall p q a' b' u w c d, same_text p q -> lower (hd 0 a') < lower (hd 0 b') -> same_text u w -> p ++ a' = w ++ d -> q ++ b' = u ++ c -> cstr (p ++ a') -> cstr (q ++ b') -> lower (hd 0 c) < lower (hd 0 d) -> False) as K.
  { induction p as [|x p IH]; intros q a' b' u w c d S1 L1 S2 E1 E2 C1 C2 L2; inversion S1; subst.
    - cbn [app] in *. inversion S2; subst; cbn [app] in *; [lia|]. cbn [hd] in *. lia.
    - inversion S2; subst; cbn [app] in *.
      + subst c d. cbn [hd] in L2. lia.
      + injection E1 as -> E1. injection E2 as -> E2. inversion C1; subst. inversion C2; subst. eapply (IH l' a' b'); try eassumption. }
  intros a b Ca Cb (p & q & a' & b' & -> & -> & S & L). split.
  - intros S2. apply same_text_map in S2. rewrite !map_app in S2. apply same_text_map in S. rewrite S in S2. apply app_inv_head in S2. destruct a' as [|x a'], b' as [|y b']; try discriminate; cbn [hd map] in *; [..|idtac]. injection S2 as S2 _. lia.
  - intros (u & w & c & d & E2 & E1 & S2 & L2). exact (K p q a' b' u w c d S L S2 E1 E2 Ca Cb L2).
Qed.
Lemma compared_of a b r p q a' b' : cstr a -> cstr b -> a = p ++ a' -> b = q ++ b' -> same_text p q -> r = lower (hd 0 a') - lower (hd 0 b') -> (r = 0 -> a' = [] /\ b' = []) -> compared a b r.
Proof.
  intros Ca Cb Ea Eb S Er Z0. destruct (Z.lt_trichotomy r 0) as [L|[L|L]].
  - assert (before a b) as B by (exists p, q, a', b'; repeat (split; [assumption|]); lia). destruct (before_exclusive _ _ Ca Cb B) as (N1 & N2). unfold compared. repeat split; intros; try lia; try assumption; contradiction.
  - destruct (Z0 L) as (-> & ->). rewrite !app_nil_r in *. subst a b. unfold compared. repeat split; intros; try lia; try assumption.
    + exfalso. apply (proj1 (before_exclusive _ _ Ca Cb H)). exact S.
    + exfalso. apply (proj1 (before_exclusive _ _ Cb Ca H)). apply same_text_sym, S.
  - assert (before b a) as B by (exists q, p, b', a'; split; [assumption|]; split; [assumption|]; split; [apply same_text_sym, S|lia]). destruct (before_exclusive _ _ Cb Ca B) as (N1 & N2). unfold compared. repeat split; intros; try lia; try assumption; try contradiction. exfalso. apply N1, same_text_sym. assumption.
Qed.
(** strcasecmp compares the strings without regard to case, and reads no byte behind them *)
Theorem C51_strcasecmp : forall a b ra rb same, cstr a -> cstr b -> (same = true -> a = b) ->
  exists r, strcasecmp_ same (a ++ 0 :: ra) (b ++ 0 :: rb) = Ret r /\ compared a b r.
Proof.
  intros a b ra rb same Ca Cb Hs. unfold strcasecmp_. destruct same.
  - rewrite (Hs eq_refl). exists 0. split; [reflexivity|]. apply (compared_of b b 0 b b [] []); try assumption; try (symmetry; apply app_nil_r); [apply same_text_refl|reflexivity|auto].
  - destruct (casecmp_ok a b ra rb Ca Cb) as (r & p & q & a' & b' & E & E1 & E2 & E3 & E4 & E5). exists r. split; [exact E|]. eapply compared_of; eassumption.
Qed.

(** ** strncasecmp *)
Lemma cstr_firstn n s : cstr s -> cstr (firstn n s).
Proof. intros H. unfold cstr in *. rewrite <- (firstn_skipn n s) in H. apply Forall_app in H. apply H. Qed.
Lemma ncasecmp_ok : forall n last a b ra rb l i, cstr a -> cstr b -> l = i + Z.of_nat n -> (n = O -> exists c, last = Some (c, c)) ->
  exists r p q a' b', ncasecmp_loop n last (a ++ 0 :: ra) (b ++ 0 :: rb) l i = Ret r /\ firstn n a = p ++ a' /\ firstn n b = q ++ b' /\ same_text p q /\ r = lower (hd 0 a') - lower (hd 0 b') /\ (r = 0 -> a' = [] /\ b' = []).
Proof.
  induction n as [|n IH]; intros last a b ra rb l i Ca Cb El Hl.
  - destruct (Hl eq_refl) as (c & ->). exists 0, [], [], [], []. cbn [ncasecmp_loop firstn]. destruct (Z.leb_spec l i); [|lia]. rewrite Z.sub_diag. repeat (split; [reflexivity|]). split; [constructor|]. split; [reflexivity|]. auto.
  - destruct a as [|x a].
    + exists (lower 0 - lower (hd 0 b)), [], [], [], (firstn (S n) b). cbn [app ncasecmp_loop]. destruct (Z.leb_spec l i); [lia|]. destruct b as [|y b]; cbn [app hd firstn]; change (lower 0) with 0; change (negb (0 =? 0)) with false; cbn [andb]; (split; [reflexivity|]; split; [reflexivity|]; split; [reflexivity|]; split; [constructor|]; split; [reflexivity|]).
      * auto.
      * intros E. exfalso. apply (hd_nz _ Cb ltac:(discriminate)). cbn [hd]. lia.
    + inversion Ca as [|? ? (_ & Nx) Ca']; subst. pose proof (lower_nz _ Nx) as Nl. destruct b as [|y b]; cbn [app ncasecmp_loop firstn].
      * exists (lower x), [], [], (x :: firstn n a), []. destruct (Z.leb_spec (i + Z.of_nat (S n)) i); [lia|]. change (lower 0) with 0. destruct (Z.eqb_spec (lower x) 0) as [E|_]; [contradiction|]. cbn [negb andb hd]. change (lower 0) with 0. destruct (Z.eqb_spec (lower x) 0) as [E|_]; [contradiction|]. rewrite Z.sub_0_r. repeat (split; [reflexivity|]). split; [constructor|]. split; [reflexivity|]. intros Q; contradiction.
      * destruct (Z.leb_spec (i + Z.of_nat (S n)) i); [lia|]. destruct (Z.eqb_spec (lower x) 0) as [E|_]; [contradiction|]. cbn [negb andb]. destruct (Z.eqb_spec (lower x) (lower y)) as [E|E].
        -- inversion Cb as [|? ? _ Cb']; subst. destruct (IH (Some (lower x, lower y)) a b ra rb (i + Z.of_nat (S n)) (i + 1) Ca' Cb' ltac:(lia)) as (r & p & q & a' & b' & E1 & E2 & E3 & E4 & E5 & E6); [intros _; exists (lower x); congruence|].
           exists r, (x :: p), (y :: q), a', b'. split; [exact E1|]. rewrite E2, E3. split; [reflexivity|]. split; [reflexivity|]. split; [constructor; assumption|]. split; assumption.
        -- exists (lower x - lower y), [], [], (x :: firstn n a), (y :: firstn n b). split; [reflexivity|]. split; [reflexivity|]. split; [reflexivity|]. split; [constructor|]. split; [reflexivity|]. cbn [hd]. lia.
Qed.
(** strncasecmp compares the first [l] chars.  Only for l > 0: C51_strncasecmp_refuted *)
Theorem C51_strncasecmp_partial : forall a b ra rb same l, cstr a -> cstr b -> (same = true -> a = b) -> 0 < l ->
  exists r, strncasecmp_ same (a ++ 0 :: ra) (b ++ 0 :: rb) l = Ret r /\ compared (firstn (Z.to_nat l) a) (firstn (Z.to_nat l) b) r.
Proof.
  intros a b ra rb same l Ca Cb Hs Hl. pose proof (cstr_firstn (Z.to_nat l) _ Ca) as Ca'. pose proof (cstr_firstn (Z.to_nat l) _ Cb) as Cb'. unfold strncasecmp_. destruct same.
  - rewrite (Hs eq_refl). exists 0. split; [reflexivity|]. set (c := firstn _ b) in *. apply (compared_of c c 0 c c [] []); try assumption; try (symmetry; apply app_nil_r); [apply same_text_refl|reflexivity|auto].
  - destruct (ncasecmp_ok (Z.to_nat l) None a b ra rb l 0 Ca Cb ltac:(lia) ltac:(lia)) as (r & p & q & a' & b' & E & E1 & E2 & E3 & E4 & E5). exists r. split; [exact E|]. eapply compared_of; eassumption.
Qed.
(** with l = 0 the result should be 0 (nothing is compared), but ca and cb are not initialised *)
Theorem C51_strncasecmp_refuted : forall a b, strncasecmp_ false a b 0 = UB.
Proof. reflexivity. Qed.

(** ** strcasestr *)
Lemma c_string_ok s r : cstr s -> c_string (s ++ 0 :: r) = Ret s.
Proof.
  induction 1 as [|c s (_ & Nc) _ IH]; [reflexivity|]. cbn [app c_string]. destruct (Z.eqb_spec c 0); [contradiction|]. rewrite IH. reflexivity.
Qed.
Lemma begins_ok : forall little big, begins little big = true <-> exists t, big = little ++ t.
Proof.
  induction little as [|x l IH]; intros big; cbn [begins]; [split; [exists big; reflexivity|reflexivity]|]. destruct big as [|y b]; [split; [discriminate|intros (t & E); discriminate]|].
  rewrite andb_true_iff, IH, Z.eqb_eq. split; [intros (-> & t & ->); exists t; reflexivity|intros (t & E); injection E as -> ->; split; [reflexivity|exists t; reflexivity]].
Qed.
Lemma strstr_ok little : forall big i,
  match strstr_at big little i with
  | Some j => (exists p t, big = p ++ little ++ t /\ zlen p = j - i) /\ forall p t, big = p ++ little ++ t -> j - i <= zlen p
  | None => forall p t, big <> p ++ little ++ t
  end.
Proof.
  induction big as [|y b IH]; intros i; cbn [strstr_at]; destruct (begins little _) eqn:E; try (apply begins_ok in E; destruct E as (t & E); (split; [exists [], t; split; [exact E|change (zlen (@nil Z)) with 0; lia]|intros p s _; pose proof (zlen_nonneg p); lia])).
  - intros p t Q. destruct p; [|discriminate]. assert (begins little [] = true) as W by (apply begins_ok; exists t; exact Q). congruence.
  - specialize (IH (i + 1)). assert (forall t, y :: b <> little ++ t) as N by (intros t Q; assert (begins little (y :: b) = true) as W by (apply begins_ok; exists t; exact Q); congruence).
    destruct (strstr_at b little (i + 1)) as [j|].
    + destruct IH as ((p & t & -> & Lp) & IH). split; [exists (y :: p), t; split; [reflexivity|rewrite zlen_cons; lia]|]. intros p' t' Q. destruct p' as [|z p']; [exfalso; exact (N _ Q)|]. injection Q as -> Q. specialize (IH p' t' Q). rewrite zlen_cons. lia.
    + intros p' t' Q. destruct p' as [|z p']; [exact (N _ Q)|]. injection Q as -> Q. exact (IH _ _ Q).
Qed.
Lemma map_split {A B} (f : A -> B) : forall l p q, map f l = p ++ q -> exists a b, l = a ++ b /\ map f a = p /\ map f b = q.
Proof.
  intros l p. revert l. induction p as [|x p IH]; intros l q E; [exists [], l; split; [reflexivity|split; [reflexivity|exact E]]|]. destruct l as [|y l]; [discriminate|]. injection E as E1 E2. destruct (IH _ _ E2) as (a & b & -> & E3 & E4). exists (y :: a), b. split; [reflexivity|]. split; [cbn; congruence|exact E4].
Qed.
Lemma zlen_map {A B} (f : A -> B) l : zlen (map f l) = zlen l. Proof. unfold zlen. rewrite map_length. reflexivity. Qed.
Lemma occurs_lower big little i : occurs_at little big i <-> exists p t, map lower big = p ++ map lower little ++ t /\ zlen p = i.
Proof.
  split.
  - intros (p & m & t & -> & L & S). exists (map lower p), (map lower t). rewrite !map_app. apply same_text_map in S. rewrite S. split; [reflexivity|]. rewrite zlen_map. exact L.
  - intros (p & t & E & L). apply map_split in E. destruct E as (a & b & -> & E1 & E2). apply map_split in E2. destruct E2 as (m & u & -> & E2 & E3). exists a, m, u. split; [reflexivity|]. split; [rewrite <- L, <- E1, zlen_map; reflexivity|apply same_text_map; exact E2].
Qed.
(** strcasestr finds the first occurrence without regard to case.  With HAVE_STRLWR; without it only if both strings have no
    upper case letters: C51_strcasestr_refuted *)
Theorem C51_strcasestr_partial : forall lwr big little rb rl, cstr big -> cstr little -> lwr = true \/ (map lower big = big /\ map lower little = little) ->
  exists r, strcasestr_ lwr (big ++ 0 :: rb) (little ++ 0 :: rl) = Ret r /\
    match r with Some i => occurs_at little big i /\ forall j, j < i -> ~ occurs_at little big j | None => forall j, ~ occurs_at little big j end.
Proof.
  intros lwr big little rb rl Cb Cl H. unfold strcasestr_. rewrite (c_string_ok _ rb Cb), (c_string_ok _ rl Cl). cbn [bind].
  assert ((if lwr then map lower big else big) = map lower big) as -> by (destruct lwr; [reflexivity|destruct H as [H|(H & _)]; [discriminate|symmetry; exact H]]).
  assert ((if lwr then map lower little else little) = map lower little) as -> by (destruct lwr; [reflexivity|destruct H as [H|(_ & H)]; [discriminate|symmetry; exact H]]).
  eexists. split; [reflexivity|]. pose proof (strstr_ok (map lower little) (map lower big) 0) as S. destruct (strstr_at _ _ _) as [i|].
  - destruct S as ((p & t & E & L) & S). split; [apply occurs_lower; exists p, t; split; [exact E|lia]|]. intros j Hj Q. apply occurs_lower in Q. destruct Q as (p' & t' & E' & L'). specialize (S p' t' E'). lia.
  - intros j Q. apply occurs_lower in Q. destruct Q as (p' & t' & E' & _). exact (S _ _ E').
Qed.
(** "AB" contains "b" when case is ignored, but the code for systems without strlwr does not find it *)
Theorem C51_strcasestr_refuted : occurs_at [98] [65;66] 1 /\ strcasestr_ false [65;66;0] [98;0] = Ret None.
Proof. split; [|reflexivity]. exists [65], [66], []. split; [reflexivity|]. split; [reflexivity|]. constructor; [reflexivity|constructor]. Qed.

(** ** isblank *)
(** blanks are blank.  The converse is false: C51_isblank_refuted *)
Theorem C51_isblank_partial : forall c, (c = 32 \/ c = 9 -> isblank_ c = true) /\ (isblank_ c = true -> c = 32 \/ c = 9 \/ c = 10 \/ c = 13).
Proof. intros c. unfold isblank_. rewrite !orb_true_iff, !Z.eqb_eq. split; intros; lia. Qed.
(** the standard isblank is true for space and tab only *)
Theorem C51_isblank_refuted : isblank_ 10 = true. Proof. reflexivity. Qed.

(** ** setenv *)
(** the environment is in order: its blocks exist and are of the form name=value *)
Definition env_ok (s : sys) : Prop := Forall (fun i => exists n v, nth_error (e_heap s) i = Some (Some (n ++ [61] ++ v)) /\ ~ In 61 n) (e_env s).
Lemma upto_eq_ok n v : ~ In 61 n -> upto_eq (n ++ [61] ++ v) = n.
Proof. induction n as [|c n IH]; intros H; [reflexivity|]. cbn [app upto_eq]. destruct (Z.eqb_spec c 61) as [->|]; [exfalso; apply H; left; reflexivity|]. f_equal. apply IH. intros Q; apply H; right; exact Q. Qed.
Lemma begins_name n m v : ~ In 61 n -> ~ In 61 m -> begins (n ++ [61]) (m ++ [61] ++ v) = true <-> n = m.
Proof.
  intros Hn Hm. rewrite begins_ok. split.
  - intros (t & E). rewrite <- app_assoc in E. rewrite <- (upto_eq_ok n t Hn), <- (upto_eq_ok m v Hm). f_equal. symmetry. exact E.
  - intros ->. exists v. rewrite <- app_assoc. reflexivity.
Qed.
Lemma nth_grow {A} (l r : list A) i x : nth_error l i = Some x -> nth_error (l ++ r) i = Some x.
Proof. intros H. rewrite nth_error_app1; [exact H|]. apply nth_error_Some. congruence. Qed.
Lemma nth_set {A} : forall (l : list A) i j x, i <> j -> nth_error (set_nth l i x) j = nth_error l j.
Proof. induction l as [|y l IH]; intros [|i] [|j] x H; cbn; try reflexivity; try congruence. apply IH. congruence. Qed.
(** what the caller sees: the variables *)
Definition vars (s : sys) (f : list Z -> option (list Z)) : Prop := forall n, ~ In 61 n -> getenv s n = Ret (f n).
Lemma find_ext s s' n : forall env, Forall (fun i => nth_error (e_heap s') i = nth_error (e_heap s) i) env -> find_env s' n env = find_env s n env.
Proof.
  induction 1 as [|i env E _ IH]; [reflexivity|]. cbn [find_env]. unfold block. rewrite E. destruct (nth_error (e_heap s) i) as [[b|]|]; cbn [bind]; try reflexivity. rewrite IH. reflexivity.
Qed.
Lemma drop_ok s n : ~ In 61 n -> forall env, Forall (fun i => exists m v, nth_error (e_heap s) i = Some (Some (m ++ [61] ++ v)) /\ ~ In 61 m) env ->
  exists env', drop_env s n env = Ret env' /\ incl env' env /\ find_env s n env' = Ret None /\ forall m, ~ In 61 m -> m <> n -> find_env s m env' = find_env s m env.
Proof.
  intros Hn. induction env as [|i env IH]; intros H.
  - exists []. split; [reflexivity|]. split; [intros x Q; exact Q|]. split; [reflexivity|]. reflexivity.
  - inversion H as [|? ? (k & v & E & Hk) H']; subst. destruct (IH H') as (env' & E1 & E2 & E3 & E4). cbn [drop_env]. unfold block. rewrite E. cbn [bind]. rewrite E1. cbn [bind]. destruct (begins (n ++ [61]) (k ++ [61] ++ v)) eqn:B.
    + apply begins_name in B; [subst k|assumption|assumption]. exists env'. split; [reflexivity|]. split; [intros x Q; right; apply E2, Q|]. split; [exact E3|]. intros m Hm Nm. rewrite (E4 m Hm Nm). cbn [find_env]. unfold block. rewrite E. cbn [bind]. destruct (begins (m ++ [61]) (n ++ [61] ++ v)) eqn:B; [|reflexivity]. apply begins_name in B; [congruence|assumption|assumption].
    + exists (i :: env'). split; [reflexivity|]. split; [intros x [->|Q]; [left; reflexivity|right; apply E2, Q]|]. cbn [find_env]. unfold block. rewrite E. cbn [bind]. rewrite B. split; [exact E3|]. intros m Hm Nm. rewrite (E4 m Hm Nm). reflexivity.
Qed.
(** With a putenv that copies its argument: afterwards the variable has the value (unless it existed and [overwrite] is 0), the
    others are as before.  With POSIX's putenv this is false: C51_setenv_refuted *)
Theorem C51_setenv_partial : forall s f name value overwrite, env_ok s -> vars s f -> ~ In 61 name ->
  exists s', setenv true s name value overwrite = Ret (s', 0) /\ env_ok s' /\
    forall n, ~ In 61 n -> getenv s' n = Ret (if list_eq_dec Z.eq_dec n name then (match f name with Some v => if overwrite then Some value else Some v | None => Some value end) else f n).
Proof.
  intros s f name value overwrite HE HV Hn. unfold setenv.
  assert (exists old, (if overwrite then Ret None else getenv s name) = Ret old /\ (forall v, old = Some v -> overwrite = false /\ f name = Some v) /\ (old = None -> overwrite = true \/ f name = None)) as (old & -> & O1 & O2).
  { destruct overwrite; [exists None; split; [reflexivity|]; split; [discriminate|left; reflexivity]|]. exists (f name). split; [apply HV, Hn|]. split; [intros v ->; split; reflexivity|intros Q; right; exact Q]. }
  cbn [bind]. destruct old as [v|].
  { destruct (O1 v eq_refl) as (-> & E). exists s. split; [reflexivity|]. split; [exact HE|]. intros n Nn. rewrite (HV n Nn). destruct (list_eq_dec Z.eq_dec n name) as [->|]; [rewrite E; reflexivity|reflexivity]. }
  set (k := length (e_heap s)). set (blk := name ++ [61] ++ value). set (s1 := mkSys (e_heap s ++ [Some blk]) (e_env s)).
  assert (nth_error (e_heap s1) k = Some (Some blk)) as Ek. { unfold s1, k. cbn [e_heap]. rewrite nth_error_app2 by lia. rewrite Nat.sub_diag. reflexivity. }
  assert (forall i, In i (e_env s) -> exists n v, nth_error (e_heap s) i = Some (Some (n ++ [61] ++ v)) /\ ~ In 61 n) as HE' by (apply Forall_forall, HE).
  assert (Forall (fun i => exists m v, nth_error (e_heap s1) i = Some (Some (m ++ [61] ++ v)) /\ ~ In 61 m) (e_env s1)) as HE1.
  { apply Forall_forall. intros i Hi. destruct (HE' i Hi) as (n & v & E & Q). exists n, v. split; [apply nth_grow, E|exact Q]. }
  destruct (drop_ok s1 name Hn (e_env s1) HE1) as (env' & E1 & E2 & E3 & E4).
  unfold putenv. unfold block at 1. rewrite Ek. cbn [bind]. unfold blk at 1. rewrite (upto_eq_ok name value Hn), E1. cbn [bind].
  assert (forall i, In i (e_env s) -> i < k)%nat as Hlt. { intros i Hi. destruct (HE' i Hi) as (n & v & E & _). apply nth_error_Some. unfold k. congruence. }
  set (s2 := mkSys (e_heap s1 ++ [Some blk]) (length (e_heap s1) :: env')). assert (length (e_heap s1) = S k) as L1 by (unfold s1, k; cbn [e_heap]; rewrite app_length; cbn; lia).
  assert (nth_error (set_nth (e_heap s2) k None) (S k) = Some (Some blk)) as Ek2. { rewrite nth_set by lia. unfold s2. cbn [e_heap]. rewrite <- L1. rewrite nth_error_app2 by lia. rewrite Nat.sub_diag. reflexivity. }
  assert (forall i, In i env' -> nth_error (set_nth (e_heap s2) k None) i = nth_error (e_heap s1) i) as Keep.
  { intros i Hi. apply E2 in Hi. specialize (Hlt i Hi). rewrite nth_set by lia. unfold s2. cbn [e_heap]. rewrite nth_error_app1 by lia. reflexivity. }
  exists (free s2 k). split; [reflexivity|]. unfold free. cbn [e_env]. split.
  - unfold env_ok. cbn [e_env e_heap]. change (e_env s2) with (length (e_heap s1) :: env'). apply Forall_cons; [exists name, value; rewrite L1; split; [exact Ek2|exact Hn]|]. apply Forall_forall. intros i Hi. rewrite (Keep i Hi). pose proof (proj1 (Forall_forall _ _) HE1 i (E2 i Hi)) as Q. exact Q.
  - intros n Nn. unfold getenv. cbn [e_env]. change (e_env s2) with (length (e_heap s1) :: env'). cbn [find_env]. unfold block at 1. cbn [e_heap]. rewrite L1, Ek2. cbn [bind].
    match goal with |- context [find_env ?x n env'] => rewrite (find_ext s1 x n env') by (apply Forall_forall; exact Keep) end.
    destruct (begins (n ++ [61]) blk) eqn:B.
    + apply begins_name in B; [subst n|assumption|assumption]. destruct (list_eq_dec Z.eq_dec name name) as [_|Q]; [|congruence]. unfold blk. assert (skipn (length name + 1) (name ++ [61] ++ value) = value) as ->. { rewrite app_assoc, skipn_app. replace (length name + 1)%nat with (length (name ++ [61])) by (rewrite app_length; reflexivity). rewrite skipn_all, Nat.sub_diag. reflexivity. }
      destruct (f name) as [v|] eqn:Ef; [|reflexivity]. destruct overwrite; [reflexivity|]. destruct (O2 eq_refl); discriminate.
    + destruct (list_eq_dec Z.eq_dec n name) as [->|Q]. { exfalso. assert (begins (name ++ [61]) (name ++ [61] ++ value) = true) as W by (apply begins_name; auto). unfold blk in B. congruence. }
      rewrite (E4 n Nn Q). rewrite <- (HV n Nn). unfold getenv. apply find_ext. apply Forall_forall. intros i Hi. unfold s1. cbn [e_heap]. rewrite nth_error_app1; [reflexivity|]. exact (Hlt i Hi).
Qed.
(** POSIX: putenv keeps the pointer, and setenv frees the string: looking at the environment afterwards reads freed memory *)
Theorem C51_setenv_refuted : exists s', setenv false (mkSys [] []) [65] [49] true = Ret (s', 0) /\ getenv s' [65] = UB.
Proof. eexists. split; reflexivity. Qed.

(** ** Cases *)
Example C51_case_cmp : strcasecmp_ false [83;116;114;105;103;105;0] [115;84;82;73;71;73;0;1] = Ret 0 /\ strncasecmp_ false [97;98;99;0] [65;66;100;0] 2 = Ret 0 /\ strncasecmp_ false [97;98;99;0] [65;66;100;0] 3 = Ret (-1) /\ cstr [83;116;114;105;103;105].
Proof. repeat (split; [reflexivity|]). unfold cstr. repeat (apply Forall_cons; [lia|]). apply Forall_nil. Qed.
Example C51_case_str : strcasestr_ true [120;65;98;65;66;0] [97;66;97;0] = Ret (Some 1). Proof. reflexivity. Qed.
Definition c51_env : sys := mkSys [Some [65;61;49]; None; Some [66;61]] [2%nat; 0%nat].
Example C51_case_env : env_ok c51_env /\ getenv c51_env [65] = Ret (Some [49]) /\ match setenv true c51_env [65] [50;51] true with Ret (s', r) => r = 0 /\ getenv s' [65] = Ret (Some [50;51]) /\ getenv s' [66] = Ret (Some []) | _ => False end.
Proof.
  split; [|split; [reflexivity|split; [reflexivity|split; reflexivity]]].
  apply Forall_cons; [exists [66], []; split; [reflexivity|intros [Q|[]]; discriminate]|]. apply Forall_cons; [exists [65], [49]; split; [reflexivity|intros [Q|[]]; discriminate]|]. apply Forall_nil.
Qed.
