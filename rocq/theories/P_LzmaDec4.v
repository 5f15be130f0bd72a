(** No context is used twice for one symbol; the dictionary is a ring of the last bytes of the output. *)
From Verif Require Import Base LzmaFormatSpec P_LzmaFormat P_LzmaFormat2 M_LzmaDec.

Definition tag (c : ctx) : Z :=
  match c with
  | CMatch _ _ => 0 | CRep _ => 1 | CRepG0 _ => 2 | CRepG1 _ => 3 | CRepG2 _ => 4 | CRep0Long _ _ => 5
  | CLenChoice _ => 6 | CLenChoice2 _ => 7 | CLenLow _ _ _ => 8 | CLenMid _ _ _ => 9 | CLenHigh _ _ => 10
  | CSlot _ _ => 11 | CSpecial _ _ => 12 | CAlign _ => 13 | CLiteral _ _ => 14
  end.
Definition below (t : Z) (T : ctx -> Prop) : Prop := forall c, T c -> tag c < t.
Definition okp {A} (lo hi : Z) (p : prog A) : Prop := touches (fun c => tag c < hi) p /\ forall T, below lo T -> fresh T p.
Lemma okp_weak {A} (p : prog A) a b a' b' : okp a b p -> a' <= a -> b <= b' -> okp a' b' p.
Proof.
  intros (H1 & H2) Ha Hb. split; [apply (touches_impl _ _ _ H1); intros c; lia|]. intros T HT. apply H2. intros c Hc. specialize (HT c Hc). lia.
Qed.
Lemma okp_bind {A B} (p : prog A) (g : A -> prog B) a b c : a <= b -> b <= c -> okp a b p -> (forall r, okp b c (g r)) -> okp a c (pbind p g).
Proof.
  intros Hab Hbc (H1 & H2) Hg. split.
  - apply (touches_bind _ _ (fun _ => True)); [apply (touches_impl _ _ _ H1); intros d; lia|apply returns_any|]. intros r _. apply Hg.
  - intros T HT. apply (fresh_bind _ _ (fun _ => True) (fun d => tag d < b)); [apply H2, HT|exact H1|apply returns_any|]. intros r _. apply Hg. intros d [Hd|Hd]; [specialize (HT d Hd)|]; lia.
Qed.
Lemma okp_done {A} (x : A) a b : okp a b (Done x).
Proof. split; [exact Logic.I|intros T _; exact Logic.I]. Qed.
Lemma okp_one c a b : a <= tag c < b -> okp a b (one c).
Proof. intros H. split; [split; [lia|intros x; exact Logic.I]|]. intros T HT. split; [|intros x; exact Logic.I]. intros Q. specialize (HT c Q). lia. Qed.
Lemma fresh_tree mk : (forall i j, mk i = mk j -> i = j) -> forall n m (T : ctx -> Prop), 1 <= m -> (forall j, m <= j -> ~ T (mk j)) -> fresh T (tree mk n m).
Proof.
  intros Hmk. induction n as [|n IH]; intros m T Hm HT; [exact Logic.I|]. cbn [tree one pbind fresh]. split; [apply HT; lia|]. intros b. apply IH; [destruct b; cbn [z_of]; lia|].
  intros j Hj [Q|Q]; [apply (HT j); [destruct b; cbn [z_of] in Hj; lia|exact Q]|]. apply Hmk in Q. destruct b; cbn [z_of] in Hj; lia.
Qed.
Lemma touches_tree mk (U : ctx -> Prop) : (forall j, U (mk j)) -> forall n m, touches U (tree mk n m).
Proof. intros HU. induction n as [|n IH]; intros m; [exact Logic.I|]. cbn [tree one pbind touches]. split; [apply HU|]. intros b. apply IH. Qed.
Lemma okp_tree mk n m a b t : (forall i j, mk i = mk j -> i = j) -> 1 <= m -> (forall j, tag (mk j) = t) -> a <= t < b -> okp a b (tree mk n m).
Proof.
  intros Hmk Hm Ht Hab. split; [apply touches_tree; intros j; rewrite Ht; lia|]. intros T HT. apply fresh_tree; [exact Hmk|exact Hm|]. intros j _ Q. specialize (HT _ Q). rewrite Ht in HT. lia.
Qed.
Lemma okp_number mk n a b t : (forall i j, mk i = mk j -> i = j) -> (forall j, tag (mk j) = t) -> a <= t < b -> okp a b (number mk n).
Proof. intros Hmk Ht Hab. apply (okp_bind _ _ a b b); [lia|lia|apply (okp_tree mk n 1 a b t); [exact Hmk|lia|exact Ht|exact Hab]|]. intros r. apply okp_done. Qed.
Lemma fresh_reverse mk : (forall i j, mk i = mk j -> i = j) -> forall n m w (T : ctx -> Prop), 1 <= m -> (forall j, m <= j -> ~ T (mk j)) -> fresh T (reverse mk n m w).
Proof.
  intros Hmk. assert (forall n m w (T : ctx -> Prop), 1 <= m -> (forall j, m <= j -> ~ T (mk j)) -> forall g, fresh T (pbind (reverse mk n m w) (fun r => Done (g r : Z)))) as H.
  { induction n as [|n IH]; intros m w T Hm HT g; [exact Logic.I|]. cbn [reverse one pbind fresh]. split; [apply HT; lia|]. intros b.
    assert (forall (A B C : Type) (p : prog A) (f : A -> prog B) (h : B -> prog C) U, fresh U (pbind p (fun a => pbind (f a) h)) -> fresh U (pbind (pbind p f) h)) as AS.
    { intros A B C p f h. induction p as [a|c q IHq|q IHq]; intros U; cbn [pbind fresh]; [auto| |]; [intros (F1 & F2); split; [exact F1|]; intros x; apply IHq, F2|intros F x; apply IHq, F]. }
    apply AS. cbn [pbind]. apply (IH (2 * m + z_of b) (2 * w) _ ltac:(destruct b; cbn [z_of]; lia)).
    intros j Hj [Q|Q]; [apply (HT j); [destruct b; cbn [z_of] in Hj; lia|exact Q]|]. apply Hmk in Q. destruct b; cbn [z_of] in Hj; lia. }
  intros n m w T Hm HT. destruct n as [|n]; [exact Logic.I|]. cbn [reverse one pbind fresh]. split; [apply HT; lia|]. intros b. apply H; [destruct b; cbn [z_of]; lia|].
  intros j Hj [Q|Q]; [apply (HT j); [destruct b; cbn [z_of] in Hj; lia|exact Q]|]. apply Hmk in Q. destruct b; cbn [z_of] in Hj; lia.
Qed.
Lemma touches_reverse mk (U : ctx -> Prop) : (forall j, U (mk j)) -> forall n m w, touches U (reverse mk n m w).
Proof.
  intros HU. induction n as [|n IH]; intros m w; [exact Logic.I|]. cbn [reverse one pbind touches]. split; [apply HU|]. intros b.
  apply (touches_bind _ _ (fun _ => True)); [apply IH|apply returns_any|]. intros r _. exact Logic.I.
Qed.
Lemma okp_reversed mk n a b t : (forall i j, mk i = mk j -> i = j) -> (forall j, tag (mk j) = t) -> a <= t < b -> okp a b (reversed mk n).
Proof.
  intros Hmk Ht Hab. split; [apply touches_reverse; intros j; rewrite Ht; lia|]. intros T HT. apply fresh_reverse; [exact Hmk|lia|]. intros j _ Q. specialize (HT _ Q). rewrite Ht in HT. lia.
Qed.
Lemma okp_direct a b : forall n m, okp a b (direct n m).
Proof.
  induction n as [|n IH]; intros m; [apply okp_done|]. split; cbn [direct touches fresh]; [intros x; apply IH|]. intros T HT x. apply IH, HT.
Qed.
Lemma okp_length r pos : okp 6 11 (length_ r pos).
Proof.
  unfold length_. apply (okp_bind _ _ 6 7 11); [lia|lia|apply okp_one; cbn; lia|]. intros [|].
  - apply (okp_bind _ _ 7 8 11); [lia|lia|apply okp_one; cbn; lia|]. intros [|].
    + apply (okp_bind _ _ 8 11 11); [lia|lia| |intros x; apply okp_done]. apply (okp_number _ 8 8 11 10); [intros i j E; congruence|reflexivity|lia].
    + apply (okp_bind _ _ 8 11 11); [lia|lia| |intros x; apply okp_done]. apply (okp_number _ 3 8 11 9); [intros i j E; congruence|reflexivity|lia].
  - apply (okp_number _ 3 7 11 8); [intros i j E; congruence|reflexivity|lia].
Qed.
Lemma okp_distance l : okp 11 14 (distance l).
Proof.
  unfold distance. apply (okp_bind _ _ 11 12 14); [lia|lia|apply (okp_number _ 6 11 12 11); [intros i j E; congruence|reflexivity|lia]|].
  intros slot. destruct (slot <? 4); [apply okp_done|]. cbv zeta. destruct (slot <? 14).
  - apply (okp_bind _ _ 12 14 14); [lia|lia| |intros x; apply okp_done]. apply (okp_reversed _ _ 12 14 12); [intros i j E; congruence|reflexivity|lia].
  - apply (okp_bind _ _ 12 13 14); [lia|lia|apply okp_direct|]. intros mid. apply (okp_bind _ _ 13 14 14); [lia|lia| |intros x; apply okp_done].
    apply (okp_reversed _ _ 13 14 13); [intros i j E; congruence|reflexivity|lia].
Qed.
Lemma fresh_plain lit n m (T : ctx -> Prop) : 1 <= m -> (m + 1) * 2 ^ Z.of_nat n <= 512 -> (forall x, m <= x mod 256 -> ~ T (CLiteral lit x)) -> fresh T (plain lit n m).
Proof.
  revert m T. assert (forall n m (T : ctx -> Prop), 1 <= m -> (m + 1) * 2 ^ Z.of_nat n <= 512 -> (forall x, m <= x mod 256 -> ~ T (CLiteral lit x)) -> forall g, fresh T (pbind (tree (CLiteral lit) n m) (fun r => Done (g r : Z)))) as H.
  { clear n. induction n as [|n IH]; intros m T Hm Hn HT g; [exact Logic.I|]. rewrite Nat2Z.inj_succ, Z.pow_succ_r in Hn by lia. assert (0 < 2 ^ Z.of_nat n) by (apply Z.pow_pos_nonneg; lia). assert (m < 256) by nia.
    cbn [tree one pbind fresh]. split; [apply HT; rewrite Z.mod_small by lia; lia|]. intros b. apply IH; [destruct b; cbn [z_of]; lia|destruct b; cbn [z_of]; nia|].
    intros x Hx [Q|Q]; [apply (HT x); [destruct b; cbn [z_of] in Hx; lia|exact Q]|]. injection Q as ->. rewrite Z.mod_small in Hx by lia. destruct b; cbn [z_of] in Hx; lia. }
  intros m T H1 H2 H3. apply H; assumption.
Qed.
Lemma fresh_matched lit e : forall n m (T : ctx -> Prop), 1 <= m -> (m + 1) * 2 ^ Z.of_nat n <= 512 -> (forall x, m <= x mod 256 -> ~ T (CLiteral lit x)) -> fresh T (matched lit e n m).
Proof.
  induction n as [|n IH]; intros m T Hm Hn HT; [exact Logic.I|]. rewrite Nat2Z.inj_succ, Z.pow_succ_r in Hn by lia. assert (0 < 2 ^ Z.of_nat n) by (apply Z.pow_pos_nonneg; lia). assert (m < 256) by nia.
  cbn [matched]. cbv zeta. set (t := Z.testbit e (Z.of_nat n)). cbn [one pbind fresh]. assert (((1 + z_of t) * 256 + m) mod 256 = m) as E by (rewrite Z.add_comm, Z_mod_plus_full; apply Z.mod_small; lia).
  split; [apply HT; lia|]. intros b.
  assert (forall x, 2 * m + z_of b <= x mod 256 -> ~ (T (CLiteral lit x) \/ CLiteral lit x = CLiteral lit ((1 + z_of t) * 256 + m))) as HT'.
  { intros x Hx [Q|Q]; [apply (HT x); [destruct b; cbn [z_of] in Hx; lia|exact Q]|]. assert (x = (1 + z_of t) * 256 + m) as -> by congruence. rewrite E in Hx. destruct b; cbn [z_of] in Hx; lia. }
  destruct (Bool.eqb b t); [apply IH|apply fresh_plain]; try assumption; destruct b; cbn [z_of]; nia.
Qed.
Lemma sym_fresh st pos lit ex : fresh (fun _ => False) (sym st pos lit ex).
Proof.
  unfold sym. cbn [one pbind fresh]. split; [auto|]. intros [|].
  - cbn [fresh]. split; [intros [[]|Q]; discriminate|]. intros [|].
    + assert (okp 2 11 (Coded (CRepG0 st) (fun b => pbind (if b then Coded (CRepG1 st) (fun b => pbind (if b then Coded (CRepG2 st) (fun b => Done (Some (if b then 3 else 2))) else Done (Some 1)) Done) else Coded (CRep0Long st pos) (fun b => Done (if b then Some 0 else None))) (fun w => match w with Some w => pbind (length_ true pos) (fun l => Done (Again w (l + 2))) | None => Done Short end)))) as (_ & H).
      { change (okp 2 11 (pbind (one (CRepG0 st)) (fun b => pbind (if b then pbind (one (CRepG1 st)) (fun b => pbind (if b then pbind (one (CRepG2 st)) (fun b => Done (Some (if b then 3 else 2))) else Done (Some 1)) Done) else pbind (one (CRep0Long st pos)) (fun b => Done (if b then Some 0 else None))) (fun w => match w with Some w => pbind (length_ true pos) (fun l => Done (Again w (l + 2))) | None => Done Short end)))).
        apply (okp_bind _ _ 2 3 11); [lia|lia|apply okp_one; cbn; lia|]. intros g. apply (okp_bind _ _ 3 6 11); [lia|lia| |].
        - destruct g; [|apply (okp_bind _ _ 3 6 6); [lia|lia|apply okp_one; cbn; lia|intros x; apply okp_done]]. apply (okp_bind _ _ 3 4 6); [lia|lia|apply okp_one; cbn; lia|]. intros g.
          apply (okp_bind _ _ 4 6 6); [lia|lia| |intros x; apply okp_done]. destruct g; [|apply okp_done]. apply (okp_bind _ _ 4 6 6); [lia|lia|apply okp_one; cbn; lia|intros x; apply okp_done].
        - intros [w|]; [|apply okp_done]. apply (okp_bind _ _ 6 11 11); [lia|lia|apply okp_length|intros x; apply okp_done]. }
      match goal with |- fresh ?T ?p => assert (fresh T (Coded (CRepG0 st) (fun b => pbind (if b then Coded (CRepG1 st) (fun b => pbind (if b then Coded (CRepG2 st) (fun b => Done (Some (if b then 3 else 2))) else Done (Some 1)) Done) else Coded (CRep0Long st pos) (fun b => Done (if b then Some 0 else None))) (fun w => match w with Some w => pbind (length_ true pos) (fun l => Done (Again w (l + 2))) | None => Done Short end)))) as HF end.
      { apply H. intros c [[[] | ->] | ->]; cbn; lia. }
      cbn [fresh pbind] in HF |- *. destruct HF as (F1 & F2). split; [exact F1|]. intros b. specialize (F2 b). destruct b; [|exact F2]. cbn [fresh pbind] in F2 |- *. destruct F2 as (F2 & F3). split; [exact F2|]. intros b. specialize (F3 b). destruct b; exact F3.
    + assert (okp 6 14 (ask l := length_ false pos in ask d := distance l in Done (if d =? 4294967295 then EndMark else New (l + 2) (d + 1)))) as (_ & H).
      { apply (okp_bind _ _ 6 11 14); [lia|lia|apply okp_length|]. intros l. apply (okp_bind _ _ 11 14 14); [lia|lia|apply okp_distance|intros x; apply okp_done]. }
      apply H. intros c [[[] | ->] | ->]; cbn; lia.
  - apply (fresh_bind _ _ (fun _ => True) (fun _ => True)); [|destruct ex|apply returns_any|intros a _; exact Logic.I].
    + destruct ex; [apply fresh_matched|apply fresh_plain]; try lia; try (cbn; lia); intros x Hx [[]|Q]; discriminate.
    + apply (touches_impl _ (fun _ => True)); [|auto]. generalize 8%nat 1. intros n. induction n as [|n IH]; intros m; [exact Logic.I|]. cbn [matched one pbind touches]. cbv zeta. split; [exact Logic.I|]. intros b. destruct (Bool.eqb _ _); [apply IH|].
      unfold plain. apply (touches_bind _ _ (fun _ => True)); [apply touches_tree; auto|apply returns_any|intros a _; exact Logic.I].
    + unfold plain. apply (touches_bind _ _ (fun _ => True)); [apply touches_tree; auto|apply returns_any|intros a _; exact Logic.I].
Qed.

(** ** The dictionary *)
Record Ring (D : Z) (dic : list (option Z)) (dicPos : Z) (o : list Z) : Prop := {
  rg_len : zlen dic = D; rg_pos : 0 <= dicPos <= D;
  rg_get : forall d, 1 <= d <= zlen o -> d <= D -> zget dic (back_pos D dicPos d) = Some (Some (back d o)) }.
Lemma ring_get D dic dicPos o d : Ring D dic dicPos o -> 1 <= d <= zlen o -> d <= D -> dget dic (back_pos (zlen dic) dicPos d) = Ret (back d o).
Proof. intros [L P G] H1 H2. unfold dget. rewrite L, G by assumption. reflexivity. Qed.
Lemma back_last o b : back 1 (o ++ [b]) = b.
Proof. unfold back. rewrite app_length. cbn [length]. rewrite app_nth2 by lia. replace (length o + 1 - Z.to_nat 1 - length o)%nat with 0%nat by lia. reflexivity. Qed.
Lemma back_older o b d : 2 <= d <= zlen o + 1 -> back d (o ++ [b]) = back (d - 1) o.
Proof. intros H. unfold zlen in H. unfold back. rewrite app_length. cbn [length]. rewrite app_nth1 by lia. f_equal. lia. Qed.
Lemma ring_write D dic dicPos o b : Ring D dic dicPos o -> dicPos < D -> aset dic dicPos (Some b) = Ret (splice dic dicPos [Some b]) /\ Ring D (splice dic dicPos [Some b]) (dicPos + 1) (o ++ [b]).
Proof.
  intros [L P G] H. assert (zlen [Some b] = 1) as L1 by reflexivity. split.
  - unfold aset. rewrite L. destruct (Z.leb_spec 0 dicPos); [|lia]. destruct (Z.ltb_spec dicPos D); [|lia]. reflexivity.
  - constructor; [rewrite zlen_splice by lia; exact L|lia|]. intros d H1 H2. rewrite zlen_app in H1. change (zlen [b]) with 1 in H1. rewrite zget_splice by lia. rewrite L1. destruct (Z.eq_dec d 1) as [->|Hd].
    + rewrite back_last. unfold back_pos. destruct (Z.ltb_spec (dicPos + 1) 1); [lia|]. replace (dicPos + 1 - 1 + 0) with dicPos by lia.
      destruct (Z.leb_spec dicPos dicPos); [|lia]. destruct (Z.ltb_spec dicPos (dicPos + 1)); [|lia]. cbn [andb]. rewrite Z.sub_diag. reflexivity.
    + rewrite back_older by lia. assert (back_pos D (dicPos + 1) d = back_pos D dicPos (d - 1)) as -> by (unfold back_pos; destruct (Z.ltb_spec (dicPos + 1) d), (Z.ltb_spec dicPos (d - 1)); lia).
      assert (back_pos D dicPos (d - 1) <> dicPos) as Hne by (unfold back_pos; destruct (Z.ltb_spec dicPos (d - 1)); lia).
      rewrite <- (G (d - 1)) by lia. destruct (Z.leb_spec dicPos (back_pos D dicPos (d - 1))); [|reflexivity]. destruct (Z.ltb_spec (back_pos D dicPos (d - 1)) (dicPos + 1)); [lia|reflexivity].
Qed.
Lemma ring_wrap D dic o : Ring D dic D o -> Ring D dic 0 o.
Proof.
  intros [L P G]. constructor; [exact L|lia|]. intros d H1 H2. rewrite <- (G d) by assumption. f_equal. unfold back_pos. destruct (Z.ltb_spec 0 d), (Z.ltb_spec D d); lia.
Qed.
Lemma copy_plain_ok D d : forall n dic dest o pos, Ring D dic dest o -> 1 <= d <= zlen o -> d <= D -> dest + Z.of_nat n <= D -> (n <> 0%nat -> pos = back_pos D dest d) -> pos + Z.of_nat n <= D ->
  exists dic', copy_plain n dic dest pos = Ret dic' /\ Ring D dic' (dest + Z.of_nat n) (copy n d o).
Proof.
  induction n as [|n IH]; intros dic dest o pos R Hd HD Hn Hp Hpn.
  - exists dic. split; [reflexivity|]. cbn [copy]. rewrite Z.add_0_r. exact R.
  - specialize (Hp ltac:(lia)). cbn [copy_plain copy]. pose proof (ring_get _ _ _ _ d R Hd HD) as E. rewrite (rg_len _ _ _ _ R) in E. rewrite Hp, E. cbn [bind]. destruct (ring_write _ _ _ _ (back d o) R ltac:(lia)) as (-> & R'). cbn [bind].
    destruct (IH _ _ _ (back_pos D dest d + 1) R') as (dic' & E' & R2); [rewrite zlen_app; change (zlen [back d o]) with 1; lia|exact HD|lia| |lia|].
    + intros Hn0. unfold back_pos in *. pose proof (rg_pos _ _ _ _ R). destruct (Z.ltb_spec dest d), (Z.ltb_spec (dest + 1) d); lia.
    + exists dic'. split; [exact E'|]. replace (dest + Z.of_nat (S n)) with (dest + 1 + Z.of_nat n) by lia. exact R2.
Qed.
Lemma copy_wrap_ok D d : forall n dic dest o pos, Ring D dic dest o -> 1 <= d <= zlen o -> d <= D -> dest + Z.of_nat n <= D -> (n <> 0%nat -> pos = back_pos D dest d) ->
  exists dic', copy_wrap n dic dest pos = Ret dic' /\ Ring D dic' (dest + Z.of_nat n) (copy n d o).
Proof.
  induction n as [|n IH]; intros dic dest o pos R Hd HD Hn Hp.
  - exists dic. split; [reflexivity|]. cbn [copy]. rewrite Z.add_0_r. exact R.
  - specialize (Hp ltac:(lia)). cbn [copy_wrap copy]. pose proof (ring_get _ _ _ _ d R Hd HD) as E. rewrite (rg_len _ _ _ _ R) in E. rewrite Hp, E. cbn [bind]. destruct (ring_write _ _ _ _ (back d o) R ltac:(lia)) as (-> & R'). cbn [bind].
    rewrite (rg_len _ _ _ _ R').
    destruct (IH _ _ _ (if back_pos D dest d + 1 =? D then 0 else back_pos D dest d + 1) R') as (dic' & E' & R2); [rewrite zlen_app; change (zlen [back d o]) with 1; lia|exact HD|lia| |].
    + intros Hn0. unfold back_pos in *. pose proof (rg_pos _ _ _ _ R). destruct (Z.ltb_spec dest d), (Z.ltb_spec (dest + 1) d); destruct (Z.eqb_spec (dest - d + D + 1) D); try lia; destruct (Z.eqb_spec (dest - d + 0 + 1) D); lia.
    + exists dic'. split; [exact E'|]. replace (dest + Z.of_nat (S n)) with (dest + 1 + Z.of_nat n) by lia. exact R2.
Qed.
Lemma rem_loop_ok D d : forall n dic dest o, Ring D dic dest o -> 1 <= d <= zlen o -> d <= D -> dest + Z.of_nat n <= D ->
  exists dic', rem_loop n dic dest d = Ret dic' /\ Ring D dic' (dest + Z.of_nat n) (copy n d o).
Proof.
  induction n as [|n IH]; intros dic dest o R Hd HD Hn.
  - exists dic. split; [reflexivity|]. cbn [copy]. rewrite Z.add_0_r. exact R.
  - cbn [rem_loop copy]. rewrite (ring_get _ _ _ _ d R Hd HD). cbn [bind]. destruct (ring_write _ _ _ _ (back d o) R ltac:(lia)) as (-> & R'). cbn [bind].
    destruct (IH _ _ _ R') as (dic' & E' & R2); [rewrite zlen_app; change (zlen [back d o]) with 1; lia|exact HD|lia|].
    exists dic'. split; [exact E'|]. replace (dest + Z.of_nat (S n)) with (dest + 1 + Z.of_nat n) by lia. exact R2.
Qed.
Lemma copy_add : forall m n d o, copy (m + n) d o = copy n d (copy m d o).
Proof. induction m as [|m IH]; intros n d o; [reflexivity|]. cbn [copy Nat.add]. apply IH. Qed.
Lemma zlen_copy n d o : zlen (copy n d o) = zlen o + Z.of_nat n.
Proof. destruct (copy_app n d o) as (w & -> & L & _). rewrite zlen_app. lia. Qed.
(** the last [n] bytes *)
Definition lastn (n : Z) (o : list Z) : list Z := skipn (Z.to_nat (zlen o - n)) o.
Lemma lastn_0 o : lastn 0 o = [].
Proof. unfold lastn. rewrite Z.sub_0_r. unfold zlen. rewrite Nat2Z.id. apply skipn_all. Qed.
Lemma lastn_cons n o : 1 <= n <= zlen o -> lastn n o = back n o :: lastn (n - 1) o.
Proof.
  intros H. unfold lastn, back. unfold zlen in *. replace (Z.to_nat (Z.of_nat (length o) - (n - 1))) with (S (Z.to_nat (Z.of_nat (length o) - n))) by lia.
  replace (length o - Z.to_nat n)%nat with (Z.to_nat (Z.of_nat (length o) - n)) by lia. assert (Z.to_nat (Z.of_nat (length o) - n) < length o)%nat as L by lia. generalize dependent (Z.to_nat (Z.of_nat (length o) - n)). clear H. intros i Hi.
  revert i Hi. induction o as [|x o IH]; intros i Hi; [cbn in Hi; lia|]. destruct i as [|i]; [reflexivity|]. cbn [skipn nth]. apply IH. cbn in Hi. lia.
Qed.
Lemma dic_bytes_ok D dic o dicPos : Ring D dic dicPos o -> forall n, (Z.of_nat n <= zlen o) -> Z.of_nat n <= dicPos -> dic_bytes (slice dic (dicPos - Z.of_nat n) (Z.of_nat n)) = Ret (lastn (Z.of_nat n) o).
Proof.
  intros R. pose proof (rg_len _ _ _ _ R) as L. pose proof (rg_pos _ _ _ _ R) as P. induction n as [|n IH]; intros H1 H2.
  - rewrite lastn_0. change (Z.of_nat 0) with 0. unfold slice. reflexivity.
  - assert (slice dic (dicPos - Z.of_nat (S n)) (Z.of_nat (S n)) = Some (back (Z.of_nat (S n)) o) :: slice dic (dicPos - Z.of_nat n) (Z.of_nat n)) as ->.
    { pose proof (rg_get _ _ _ _ R (Z.of_nat (S n)) ltac:(lia) ltac:(lia)) as G. unfold back_pos in G. destruct (Z.ltb_spec dicPos (Z.of_nat (S n))); [lia|]. rewrite Z.add_0_r in G.
      apply zget_ext_range; [rewrite zlen_cons, !zlen_slice by lia; lia|]. intros i Hi. rewrite zlen_slice in Hi by lia. rewrite zget_slice by lia. rewrite zget_cons.
      destruct (Z.eqb_spec i 0) as [->|Q]; [|].
      - destruct (Z.leb_spec 0 0); [|lia]. destruct (Z.ltb_spec 0 (Z.of_nat (S n))); [|lia]. cbn [andb]. rewrite Z.add_0_r. exact G.
      - destruct (Z.ltb_spec i 0); [lia|]. rewrite zget_slice by lia. destruct (Z.leb_spec 0 i); [|lia]. destruct (Z.ltb_spec i (Z.of_nat (S n))); [|lia]. destruct (Z.leb_spec 0 (i - 1)); [|lia]. destruct (Z.ltb_spec (i - 1) (Z.of_nat n)); [|lia]. cbn [andb]. f_equal. lia. }
    cbn [dic_bytes]. rewrite IH by lia. cbn [bind]. rewrite (lastn_cons (Z.of_nat (S n))) by lia. replace (Z.of_nat (S n) - 1) with (Z.of_nat n) by lia. reflexivity.
Qed.
