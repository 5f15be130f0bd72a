From Verif Require Import Base M_Base64 B64Spec P_Base64.

Lemma inb_app pre x post : inb (pre ++ x :: post) (zlen pre) = Ret x.
Proof. unfold inb. rewrite zget_app. destruct (Z.ltb_spec (zlen pre) (zlen pre)); [lia|]. rewrite Z.sub_diag. reflexivity. Qed.
Lemma inb_app' pre x post i : i = zlen pre -> inb (pre ++ x :: post) i = Ret x.
Proof. intros ->. apply inb_app. Qed.
Definition alphab (c : Z) : bool := is_some (b64val c).
Lemma alphab_iff c : alphab c = true <-> alpha c.
Proof. unfold alphab, alpha. destruct (b64val c); cbn; split; intros H; try discriminate; eauto. destruct H; discriminate. Qed.
Lemma ina c : byte c -> inalphabet c = Ret (alphab c). Proof. intros H. apply (tables_ok c H). Qed.
Definition val (c : Z) : Z := match b64val c with Some v => v | None => 0 end.
Lemma deco c : byte c -> alphab c = true -> decoder c = Ret (val c) /\ 0 <= val c < 64 /\ b64val c = Some (val c).
Proof.
  intros H HA. unfold alphab, val in *. destruct (b64val c) as [v|] eqn:E; [|discriminate]. destruct (tables_ok c H) as (_ & T). destruct (T v E) as (T1 & T2 & _). tauto.
Qed.
Lemma groups_app4 cl x : forall n, length x = (4 * n)%nat -> forall y, groups cl (x ++ y) = groups cl x ++ groups cl y.
Proof.
  intros n; revert x; induction n as [|n IH]; intros x Hx y.
  - destruct x; [reflexivity|cbn in Hx; lia].
  - destruct x as [|a [|b [|c [|d x]]]]; cbn [length] in Hx; try lia. cbn [groups app]. rewrite (IH x) by lia. reflexivity.
Qed.
Lemma groups_len4 x : forall n, length x = (4 * n)%nat -> groups true x = groups false x.
Proof.
  intros n; revert x; induction n as [|n IH]; intros x Hx.
  - destruct x; [reflexivity|cbn in Hx; lia].
  - destruct x as [|a [|b [|c [|d x]]]]; cbn [length] in Hx; try lia. cbn [groups]. rewrite (IH x) by lia. reflexivity.
Qed.
Lemma sextets_alpha l : forallb alphab l = true -> sextets l = map val l.
Proof.
  induction l as [|c l IH]; intros H; [reflexivity|]. cbn in H. apply andb_true_iff in H as [H1 H2]. cbn [sextets map]. unfold alphab, val in *.
  destruct (b64val c); [|discriminate]. rewrite IH by exact H2. reflexivity.
Qed.
Lemma before_pad_alpha q r : forallb alphab q = true -> before_pad (q ++ r) = q ++ before_pad r /\ has_pad (q ++ r) = has_pad r.
Proof.
  induction q as [|c q IH]; intros H; [split; reflexivity|]. cbn in H. apply andb_true_iff in H as [H1 H2]. destruct (IH H2) as (I1 & I2).
  assert (c <> pad) as N by (intros ->; discriminate). cbn [app before_pad has_pad existsb]. fold (has_pad (q ++ r)).
  destruct (Z.eqb_spec c pad); [contradiction|]. destruct (Z.eqb_spec pad c); [congruence|]. rewrite I1, I2. split; reflexivity.
Qed.
Lemma four_bytes a b c d : 0 <= a < 64 -> 0 <= b < 64 -> 0 <= c < 64 -> 0 <= d < 64 ->
  (Z.shiftl a 2 + Z.shiftr b 4) mod 256 = a * 4 + b / 16 /\
  (Z.shiftl b 4 + Z.shiftr c 2) mod 256 = b mod 16 * 16 + c / 4 /\
  (Z.shiftl c 6 + d) mod 256 = c mod 4 * 64 + d.
Proof.
  intros Ha Hb Hc Hd. rewrite !Z.shiftl_mul_pow2, !Z.shiftr_div_pow2 by lia. change (2 ^ 2) with 4. change (2 ^ 4) with 16. change (2 ^ 6) with 64.
  pose proof (Z.div_mod b 16 ltac:(lia)). pose proof (Z.mod_pos_bound b 16 ltac:(lia)).
  pose proof (Z.div_mod c 4 ltac:(lia)). pose proof (Z.mod_pos_bound c 4 ltac:(lia)).
  set (b1 := b / 16) in *. set (b0 := b mod 16) in *. set (c1 := c / 4) in *. set (c0 := c mod 4) in *.
  split; [|split].
  - apply Z.mod_small; lia.
  - symmetry. apply Z.mod_unique with b1; lia.
  - symmetry. apply Z.mod_unique with c1; lia.
Qed.
Lemma dec_words_ok : forall n mid pre post d c, length mid = (4 * n)%nat -> Forall byte mid -> c = zlen pre ->
  dec_words n (pre ++ mid ++ post) c d = Ret (if forallb alphab mid then Some (d ++ groups false (map val mid)) else None).
Proof.
  induction n as [|n IH]; intros mid pre post d cc Hl HB ->.
  - destruct mid; [|cbn in Hl; lia]. cbn. rewrite app_nil_r. reflexivity.
  - destruct mid as [|a [|b [|c [|e mid]]]]; cbn [length] in Hl; try lia.
    inversion HB as [|? ? Ba HB1]; inversion HB1 as [|? ? Bb HB2]; inversion HB2 as [|? ? Bc HB3]; inversion HB3 as [|? ? Be HB4]; subst.
    cbn [dec_words app].
    rewrite inb_app. cbn [bind]. rewrite (ina a Ba). cbn [bind forallb]. destruct (alphab a) eqn:Ea; cbn [negb andb]; [|reflexivity].
    replace (pre ++ a :: b :: c :: e :: mid ++ post) with ((pre ++ [a]) ++ b :: c :: e :: mid ++ post) by (rewrite <- app_assoc; reflexivity).
    rewrite (inb_app' (pre ++ [a])) by (rewrite zlen_app; reflexivity). cbn [bind]. rewrite (ina b Bb). cbn [bind]. destruct (alphab b) eqn:Eb; cbn [negb andb]; [|reflexivity].
    replace ((pre ++ [a]) ++ b :: c :: e :: mid ++ post) with ((pre ++ [a; b]) ++ c :: e :: mid ++ post) by (rewrite <- !app_assoc; reflexivity).
    rewrite (inb_app' (pre ++ [a; b])) by (rewrite zlen_app; reflexivity). cbn [bind]. rewrite (ina c Bc). cbn [bind]. destruct (alphab c) eqn:Ec; cbn [negb andb]; [|reflexivity].
    replace ((pre ++ [a; b]) ++ c :: e :: mid ++ post) with ((pre ++ [a; b; c]) ++ e :: mid ++ post) by (rewrite <- !app_assoc; reflexivity).
    rewrite (inb_app' (pre ++ [a; b; c])) by (rewrite zlen_app; reflexivity). cbn [bind]. rewrite (ina e Be). cbn [bind]. destruct (alphab e) eqn:Ee; cbn [negb andb]; [|reflexivity].
    destruct (deco a Ba Ea) as (Da & Ra & _), (deco b Bb Eb) as (Db & Rb & _), (deco c Bc Ec) as (Dc & Rc & _), (deco e Be Ee) as (De & Re & _).
    rewrite Da, Db, Dc, De. cbn [bind].
    replace ((pre ++ [a; b; c]) ++ e :: mid ++ post) with ((pre ++ [a; b; c; e]) ++ mid ++ post) by (rewrite <- !app_assoc; reflexivity).
    rewrite IH; [|lia|exact HB4|rewrite zlen_app; reflexivity].
    destruct (four_bytes (val a) (val b) (val c) (val e) Ra Rb Rc Re) as (-> & -> & ->).
    destruct (forallb alphab mid); [|reflexivity]. cbn [map groups]. rewrite <- app_assoc. reflexivity.
Qed.

Lemma forallb_alpha q : forallb alphab q = true <-> Forall alpha q.
Proof. rewrite forallb_forall, Forall_forall. split; intros H x Hx; apply alphab_iff, H, Hx. Qed.
Lemma wf_tail mid a b c d n : length mid = (4 * n)%nat ->
  (well_formed (mid ++ [a; b; c; d]) <-> forallb alphab mid = true /\ alphab a = true /\ alphab b = true /\
    ((alphab c = true /\ alphab d = true) \/ (alphab c = true /\ d = pad) \/ (c = pad /\ d = pad))).
Proof.
  intros Hl. assert (zlen (mid ++ [a; b; c; d]) mod 4 = 0) as HM.
  { rewrite zlen_app. change (zlen [a; b; c; d]) with 4. unfold zlen. rewrite Hl. replace (Z.of_nat (4 * n) + 4) with ((Z.of_nat n + 1) * 4) by lia. apply Z_mod_mult. }
  assert (forall q r x (l : list Z), q ++ r ++ [x] = l -> l = (q ++ r) ++ [x]) as Hre by (intros; subst; rewrite app_assoc; reflexivity).
  split.
  - intros (_ & q & r & E & HA & Hr).
    assert (mid ++ [a; b; c; d] = (mid ++ [a; b; c]) ++ [d]) as E1 by (rewrite <- app_assoc; reflexivity).
    assert (mid ++ [a; b; c] = (mid ++ [a; b]) ++ [c]) as E2 by (rewrite <- app_assoc; reflexivity).
    apply forallb_alpha in HA.
    destruct Hr as [-> | [-> | ->]].
    + rewrite app_nil_r in E. rewrite <- E in HA. rewrite forallb_app in HA. cbn in HA. rewrite !andb_true_iff in HA. tauto.
    + rewrite E1 in E. apply app_inj_tail in E as [E ->]. rewrite <- E in HA. rewrite forallb_app in HA. cbn in HA. rewrite !andb_true_iff in HA. tauto.
    + change [pad; pad] with ([pad] ++ [pad]) in E. rewrite app_assoc in E. rewrite E1 in E. apply app_inj_tail in E as [E ->].
      rewrite E2 in E. apply app_inj_tail in E as [E ->]. rewrite <- E in HA. rewrite forallb_app in HA. cbn in HA. rewrite !andb_true_iff in HA. tauto.
  - intros (H1 & H2 & H3 & H4). split; [exact HM|].
    destruct H4 as [(H5 & H6)|[(H5 & ->)|(-> & ->)]].
    + exists (mid ++ [a; b; c; d]), []. rewrite app_nil_r. split; [reflexivity|]. split; [|tauto]. apply forallb_alpha. rewrite forallb_app. cbn. rewrite H1, H2, H3, H5, H6. reflexivity.
    + exists (mid ++ [a; b; c]), [pad]. rewrite <- app_assoc. split; [reflexivity|]. split; [|tauto]. apply forallb_alpha. rewrite forallb_app. cbn. rewrite H1, H2, H3, H5. reflexivity.
    + exists (mid ++ [a; b]), [pad; pad]. rewrite <- app_assoc. split; [reflexivity|]. split; [|tauto]. apply forallb_alpha. rewrite forallb_app. cbn. rewrite H1, H2, H3. reflexivity.
Qed.

Lemma pad_not_alpha : alphab pad = false. Proof. reflexivity. Qed.

Theorem b64_decode_ok l : Forall byte l -> l <> [] -> exists r, b64_decode l = Ret r /\
  (well_formed l -> r = b64decoded l) /\ (~ well_formed l -> r = []).
Proof.
  intros HB HN. unfold b64_decode. destruct (Z.eqb_spec (zlen l mod 4) 0) as [M|M]; cbn [negb].
  2:{ exists []. split; [reflexivity|]. split; [|reflexivity]. intros (W & _). contradiction. }
  pose proof (Z.div_mod (zlen l) 4 ltac:(lia)) as DM. rewrite M in DM.
  set (k := zlen l / 4) in *.
  assert (1 <= k) as Hk by (destruct l; [congruence|]; rewrite zlen_cons in DM; pose proof (zlen_nonneg l); lia).
  (* split off the last word *)
  set (mid := firstn (Z.to_nat (4 * (k - 1))) l). set (tl := skipn (Z.to_nat (4 * (k - 1))) l).
  assert (l = mid ++ tl) as El by (symmetry; apply firstn_skipn).
  assert (length mid = (4 * Z.to_nat (k - 1))%nat) as Lm by (unfold mid; rewrite firstn_length; unfold zlen in *; lia).
  assert (length tl = 4%nat) as Lt by (unfold tl; rewrite skipn_length; unfold zlen in *; lia).
  clearbody mid tl. destruct tl as [|a [|b [|c [|d [|? ?]]]]]; cbn [length] in Lt; try lia. clear Lt. 
  assert (zlen l = 4 * k) as Zl by lia. assert (zlen mid = 4 * (k - 1)) as Zm by (unfold zlen; lia). clearbody k. subst l.
  apply Forall_app in HB as [HBm HBt].
  inversion HBt as [|? ? Ba HB1]; inversion HB1 as [|? ? Bb HB2]; inversion HB2 as [|? ? Bc HB3]; inversion HB3 as [|? ? Bd _]; subst.
  assert (inb (mid ++ [a; b; c; d]) (4 * (k - 1)) = Ret a) as Ia by (apply inb_app'; lia).
  assert (inb (mid ++ [a; b; c; d]) (4 * (k - 1) + 1) = Ret b) as Ib.
  { replace (mid ++ [a; b; c; d]) with ((mid ++ [a]) ++ [b; c; d]) by (rewrite <- app_assoc; reflexivity). apply inb_app'. rewrite zlen_app. change (zlen [a]) with 1. lia. }
  assert (forall i, i = 4 * k - 2 -> inb (mid ++ [a; b; c; d]) i = Ret c) as Ic.
  { intros i ->. replace (mid ++ [a; b; c; d]) with ((mid ++ [a; b]) ++ [c; d]) by (rewrite <- app_assoc; reflexivity). apply inb_app'. rewrite zlen_app. change (zlen [a; b]) with 2. lia. }
  assert (forall i, i = 4 * k - 1 -> inb (mid ++ [a; b; c; d]) i = Ret d) as Id.
  { intros i ->. replace (mid ++ [a; b; c; d]) with ((mid ++ [a; b; c]) ++ [d]) by (rewrite <- app_assoc; reflexivity). apply inb_app'. rewrite zlen_app. change (zlen [a; b; c]) with 3. lia. }
  rewrite Zl, (Id (4 * k - 1)) by lia. cbn [bind].
  pose proof (wf_tail mid a b c d _ Lm) as HW.
  pose proof (dec_words_ok (Z.to_nat (k - 1)) mid [] [a; b; c; d] [] 0 Lm HBm eq_refl) as HD1. cbn [app] in HD1.
  assert (forallb alphab mid = true -> forall x, groups true (map val mid ++ x) = groups false (map val mid) ++ groups true x) as HG.
  { intros _ x. rewrite (groups_app4 true (map val mid) (Z.to_nat (k - 1))) by (rewrite map_length; exact Lm). f_equal. eapply groups_len4. rewrite map_length; exact Lm. }
  destruct (Z.eqb_spec d 61) as [Ed|Ed].
  - rewrite HD1. cbn [bind]. destruct (forallb alphab mid) eqn:Fm.
    2:{ exists []. split; [reflexivity|]. split; [intros W; apply HW in W; destruct W; discriminate|reflexivity]. }
    rewrite (Ic (4 * k - 2)) by lia. cbn [bind]. rewrite Ia. cbn [bind]. rewrite (ina a Ba). cbn [bind]. rewrite Ib. cbn [bind]. rewrite (ina b Bb).
    rewrite (Ic (4 * (k - 1) + 2)) by lia. cbn [bind]. rewrite (ina c Bc). cbn [bind].
    assert (d = pad) as Ep by exact Ed.
    destruct (alphab a) eqn:Ea; cbn [negb].
    2:{ exists []. split; [destruct (c =? 61); reflexivity|]. split; [intros W; apply HW in W; destruct W as (_ & W & _); discriminate|reflexivity]. }
    destruct (alphab b) eqn:Eb; cbn [negb].
    2:{ exists []. split; [destruct (c =? 61); reflexivity|]. split; [intros W; apply HW in W; destruct W as (_ & _ & W & _); discriminate|reflexivity]. }
    destruct (deco a Ba Ea) as (Da & Ra & Va), (deco b Bb Eb) as (Db & Rb & Vb).
    destruct (Z.eqb_spec c 61) as [Ecp|Ecp].
    + rewrite Da, Db. cbn [bind]. eexists; split; [reflexivity|]. split; [|intros W; exfalso; apply W, HW; tauto].
      intros _. unfold b64decoded. replace (mid ++ [a; b; c; d]) with ((mid ++ [a; b]) ++ [c; d]) by (rewrite <- app_assoc; reflexivity).
      assert (forallb alphab (mid ++ [a; b]) = true) as FA by (rewrite forallb_app; cbn; rewrite Fm, Ea, Eb; reflexivity).
      destruct (before_pad_alpha (mid ++ [a; b]) [c; d] FA) as (-> & ->). subst c d. change (before_pad [61; 61]) with (@nil Z). change (has_pad [61; 61]) with true.
      rewrite app_nil_r, sextets_alpha by exact FA. rewrite map_app, HG by reflexivity. cbn [map groups app].
      destruct (four_bytes (val a) (val b) 0 0 Ra Rb ltac:(lia) ltac:(lia)) as (-> & _). reflexivity.
    + destruct (alphab c) eqn:Ec; cbn [negb].
      2:{ exists []. split; [reflexivity|]. split; [|reflexivity]. intros W; apply HW in W. destruct W as (_ & _ & _ & [(W & _)|[(W & _)|(W & _)]]); try discriminate. exfalso; apply Ecp; exact W. }
      destruct (deco c Bc Ec) as (Dc & Rc & Vc). rewrite Da, Db, Dc. cbn [bind].
      eexists; split; [reflexivity|]. split; [|intros W; exfalso; apply W, HW; tauto].
      intros _. unfold b64decoded. replace (mid ++ [a; b; c; d]) with ((mid ++ [a; b; c]) ++ [d]) by (rewrite <- app_assoc; reflexivity).
      assert (forallb alphab (mid ++ [a; b; c]) = true) as FA by (rewrite forallb_app; cbn; rewrite Fm, Ea, Eb, Ec; reflexivity).
      destruct (before_pad_alpha (mid ++ [a; b; c]) [d] FA) as (-> & ->). subst d. change (before_pad [61]) with (@nil Z). change (has_pad [61]) with true.
      rewrite app_nil_r, sextets_alpha by exact FA. rewrite map_app, HG by reflexivity. cbn [map groups app].
      destruct (four_bytes (val a) (val b) (val c) 0 Ra Rb Rc ltac:(lia)) as (-> & -> & _). reflexivity.
  - assert (length (mid ++ [a; b; c; d]) = (4 * Z.to_nat k)%nat) as L4 by (rewrite app_length, Lm; cbn; lia).
    assert (Forall byte (mid ++ [a; b; c; d])) as HBa by (apply Forall_app; split; assumption).
    pose proof (dec_words_ok (Z.to_nat k) (mid ++ [a; b; c; d]) [] [] [] 0 L4 HBa eq_refl) as HD2. cbn [app] in HD2. rewrite app_nil_r in HD2.
    rewrite HD2. cbn [bind]. destruct (forallb alphab (mid ++ [a; b; c; d])) eqn:Fm.
    2:{ exists []. split; [reflexivity|]. split; [|reflexivity]. intros W; apply HW in W. rewrite forallb_app in Fm. cbn in Fm.
        destruct W as (W1 & W2 & W3 & [(W4 & W5)|[(_ & W4)|(_ & W4)]]); [|exfalso; apply Ed; exact W4|exfalso; apply Ed; exact W4].
        rewrite W1, W2, W3, W4, W5 in Fm. discriminate. }
    rewrite (Ic (4 * k - 2)) by lia. cbn [bind]. rewrite forallb_app in Fm. cbn in Fm. rewrite !andb_true_iff in Fm.
    destruct (Z.eqb_spec c 61) as [->|Nc]; [destruct Fm as (_ & _ & _ & Fm & _); discriminate|].
    eexists; split; [reflexivity|]. split; [|intros W; exfalso; apply W, HW; tauto].
    intros _. unfold b64decoded.
    assert (forallb alphab (mid ++ [a; b; c; d]) = true) as FA by (rewrite forallb_app; cbn; rewrite !andb_true_iff; tauto).
    destruct (before_pad_alpha (mid ++ [a; b; c; d]) [] FA) as (E1 & E2). rewrite app_nil_r in E1, E2. rewrite E1, E2. cbn [before_pad has_pad existsb]. rewrite app_nil_r.
    rewrite sextets_alpha by exact FA. reflexivity.
Qed.

(** ** encoding *)
Lemma val_char v : 0 <= v < 64 -> b64val (b64char v) = Some v. Proof. intros H. apply b64val_char, H. Qed.
(** characters of the alphabet and '=' *)
Definition relevant (c : Z) : bool := alphab c || (c =? pad).
Lemma filter_decoded l : b64decoded (filter relevant l) = b64decoded l.
Proof.
  rewrite !b64decoded_dec. generalize (@nil Z) as acc. induction l as [|c l IH]; intros acc; [reflexivity|].
  cbn [filter]. unfold relevant, alphab. destruct (Z.eqb_spec c pad) as [->|N].
  - rewrite pad_val. cbn [is_some orb]. reflexivity.
  - destruct (b64val c) as [v|] eqn:E; cbn [is_some orb].
    + cbn [dec]. destruct (Z.eqb_spec c pad); [contradiction|]. rewrite E. destruct acc as [|? [|? [|? [|? ?]]]]; rewrite IH; reflexivity.
    + cbn [dec]. destruct (Z.eqb_spec c pad); [contradiction|]. rewrite E. apply IH.
Qed.
Lemma encode_ind (P : list Z -> Prop) : P [] -> (forall a, P [a]) -> (forall a b, P [a; b]) -> (forall a b c r, P r -> P (a :: b :: c :: r)) -> forall l, P l.
Proof.
  intros H0 H1 H2 H3 l. enough (P l /\ (forall a, P (a :: l)) /\ (forall a b, P (a :: b :: l))) by tauto.
  induction l as [|x l (I1 & I2 & I3)]; [tauto|]. split; [apply I2|]. split; [intros; apply I3|]. intros a b. apply H3, I1.
Qed.
Lemma enc_bounds a b c : byte a -> byte b -> byte c ->
  0 <= a / 4 < 64 /\ 0 <= a mod 4 * 16 + b / 16 < 64 /\ 0 <= b mod 16 * 4 + c / 64 < 64 /\ 0 <= c mod 64 < 64 /\
  a / 4 * 4 + (a mod 4 * 16 + b / 16) / 16 = a /\
  (a mod 4 * 16 + b / 16) mod 16 * 16 + (b mod 16 * 4 + c / 64) / 4 = b /\
  (b mod 16 * 4 + c / 64) mod 4 * 64 + c mod 64 = c.
Proof.
  unfold byte; intros Ha Hb Hc.
  pose proof (Z.div_mod a 4 ltac:(lia)). pose proof (Z.mod_pos_bound a 4 ltac:(lia)).
  pose proof (Z.div_mod b 16 ltac:(lia)). pose proof (Z.mod_pos_bound b 16 ltac:(lia)).
  pose proof (Z.div_mod c 64 ltac:(lia)). pose proof (Z.mod_pos_bound c 64 ltac:(lia)).
  set (a1 := a / 4) in *. set (a0 := a mod 4) in *. set (b1 := b / 16) in *. set (b0 := b mod 16) in *. set (c1 := c / 64) in *. set (c0 := c mod 64) in *.
  assert ((a0 * 16 + b1) / 16 = a0) as -> by (symmetry; apply Z.div_unique with b1; lia).
  assert ((a0 * 16 + b1) mod 16 = b1) as -> by (symmetry; apply Z.mod_unique with a0; lia).
  assert ((b0 * 4 + c1) / 4 = b0) as -> by (symmetry; apply Z.div_unique with c1; lia).
  assert ((b0 * 4 + c1) mod 4 = c1) as -> by (symmetry; apply Z.mod_unique with b0; lia).
  lia.
Qed.
Lemma dec_char acc v r : 0 <= v < 64 -> (length acc < 3)%nat -> dec acc (b64char v :: r) = dec (acc ++ [v]) r.
Proof.
  intros Hv Hl. destruct (b64val_char v Hv) as (E & N & _). cbn [dec]. destruct (Z.eqb_spec (b64char v) pad); [contradiction|]. rewrite E.
  destruct acc as [|? [|? [|? ?]]]; cbn in Hl; try lia; reflexivity.
Qed.
Lemma dec_char3 x y z v r : 0 <= v < 64 -> dec [x; y; z] (b64char v :: r) = three x y z v ++ dec [] r.
Proof.
  intros Hv. destruct (b64val_char v Hv) as (E & N & _). cbn [dec]. destruct (Z.eqb_spec (b64char v) pad); [contradiction|]. rewrite E. reflexivity.
Qed.
Lemma decoded_encode l : Forall byte l -> b64decoded (b64encode l) = l.
Proof.
  rewrite b64decoded_dec. induction l as [|a|a b|a b c r IH] using encode_ind; intros HB.
  - reflexivity.
  - inversion HB as [|? ? Ba _]; subst. destruct (enc_bounds a 0 0 Ba ltac:(unfold byte; lia) ltac:(unfold byte; lia)) as (H1 & H2 & _ & _ & H5 & _).
    change (0 / 16) with 0 in *. rewrite Z.add_0_r in H2, H5. cbn [b64encode]. rewrite dec_char by (cbn; lia). rewrite dec_char by (cbn; lia). cbn [dec app]. change (pad =? pad) with true. cbn [flush]. rewrite H5. reflexivity.
  - inversion HB as [|? ? Ba HB1]; inversion HB1 as [|? ? Bb _]; subst. destruct (enc_bounds a b 0 Ba Bb ltac:(unfold byte; lia)) as (H1 & H2 & H3 & _ & H5 & H6 & _).
    change (0 / 64) with 0 in *. rewrite Z.add_0_r in H3, H6. cbn [b64encode]. do 3 rewrite dec_char by (cbn; lia). cbn [dec app]. change (pad =? pad) with true. cbn [flush]. rewrite H5, H6. reflexivity.
  - inversion HB as [|? ? Ba HB1]; inversion HB1 as [|? ? Bb HB2]; inversion HB2 as [|? ? Bc HB3]; subst. destruct (enc_bounds a b c Ba Bb Bc) as (H1 & H2 & H3 & H4 & H5 & H6 & H7).
    cbn [b64encode]. do 3 rewrite dec_char by (cbn; lia). cbn [app]. rewrite dec_char3 by lia. unfold three. rewrite H5, H6, H7. cbn [app]. rewrite IH by exact HB3. reflexivity.
Qed.
Lemma wf_cons4 a b c d l : alphab a = true -> alphab b = true -> alphab c = true -> alphab d = true -> well_formed l -> well_formed (a :: b :: c :: d :: l).
Proof.
  intros Ha Hb Hc Hd (M & q & r & -> & HA & Hr). split.
  - rewrite !zlen_cons. replace (1 + (1 + (1 + (1 + zlen (q ++ r))))) with (zlen (q ++ r) + 1 * 4) by lia. rewrite Z_mod_plus_full. exact M.
  - exists (a :: b :: c :: d :: q), r. split; [reflexivity|]. split; [|exact Hr]. repeat (constructor; [apply alphab_iff; assumption|]). exact HA.
Qed.
Lemma char_alphab v : 0 <= v < 64 -> alphab (b64char v) = true.
Proof. intros H. unfold alphab. rewrite (val_char v H). reflexivity. Qed.
Lemma encode_wf l : Forall byte l -> well_formed (b64encode l) /\ Forall byte (b64encode l) /\ filter relevant (b64encode l) = b64encode l.
Proof.
  assert (byte pad) as Bp by (unfold byte, pad; lia).
  assert (forall v, 0 <= v < 64 -> relevant (b64char v) = true) as HRel by (intros v Hv; unfold relevant; rewrite char_alphab by exact Hv; reflexivity).
  induction l as [|a|a b|a b c r IH] using encode_ind; intros HB.
  - split; [|split; [constructor|reflexivity]]. split; [reflexivity|]. exists [], []. repeat split; [constructor|tauto].
  - inversion HB as [|? ? Ba _]; subst. destruct (enc_bounds a 0 0 Ba ltac:(unfold byte; lia) ltac:(unfold byte; lia)) as (H1 & H2 & _ & _ & H5 & _).
    change (0 / 16) with 0 in *. rewrite Z.add_0_r in H2. cbn [b64encode]. split; [|split].
    + apply (wf_tail [] _ _ _ _ 0 eq_refl). rewrite !char_alphab by assumption. tauto.
    + repeat constructor; try assumption; try (apply b64val_char; assumption); unfold byte, pad in *; lia.
    + cbn [filter]. rewrite !HRel by assumption. reflexivity.
  - inversion HB as [|? ? Ba HB1]; inversion HB1 as [|? ? Bb _]; subst. destruct (enc_bounds a b 0 Ba Bb ltac:(unfold byte; lia)) as (H1 & H2 & H3 & _ & H5 & H6 & _).
    change (0 / 64) with 0 in *. rewrite Z.add_0_r in H3. cbn [b64encode]. split; [|split].
    + apply (wf_tail [] _ _ _ _ 0 eq_refl). rewrite !char_alphab by assumption. tauto.
    + repeat constructor; try assumption; try (apply b64val_char; assumption); unfold byte, pad in *; lia.
    + cbn [filter]. rewrite !HRel by assumption. reflexivity.
  - inversion HB as [|? ? Ba HB1]; inversion HB1 as [|? ? Bb HB2]; inversion HB2 as [|? ? Bc HB3]; subst. destruct (enc_bounds a b c Ba Bb Bc) as (H1 & H2 & H3 & H4 & _).
    destruct (IH HB3) as (I1 & I2 & I3). cbn [b64encode]. split; [|split].
    + apply wf_cons4; try (apply char_alphab; assumption). exact I1.
    + repeat (constructor; [apply b64val_char; assumption|]). exact I2.
    + cbn [filter]. rewrite !HRel by assumption. rewrite I3. reflexivity.
Qed.
