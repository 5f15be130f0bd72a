From Verif Require Import Base StreamSpec P_Stream KmpSpec M_Ar M_Mail M_MailList MailPartsSpec.

Lemma is_ws_white c : is_ws c = true <-> white c.
Proof. unfold is_ws, white. rewrite orb_true_iff, andb_true_iff, Z.eqb_eq, !Z.leb_le. lia. Qed.
Lemma not_white c : ~ white c -> is_ws c = false.
Proof. intros H. destruct (is_ws c) eqn:E; [|reflexivity]. exfalso. apply H, is_ws_white, E. Qed.
Lemma nl_len nl : newline nl -> 1 <= zlen nl <= 2.
Proof. intros [-> | ->]; unfold zlen; cbn; lia. Qed.

Lemma hl_scan_app a : forall b lp st, hl_scan (a ++ b) lp st = match hl_scan a lp st with inl x => inl x | inr st' => hl_scan b (lp + zlen a) st' end.
Proof.
  induction a as [|c a IH]; intros b lp st; cbn [app hl_scan].
  - change (zlen (@nil Z)) with 0. rewrite Z.add_0_r. reflexivity.
  - destruct (hl_char st lp c) as [e|s]; [reflexivity|]. rewrite IH, zlen_cons. replace (lp + 1 + zlen a) with (lp + (1 + zlen a)) by lia. reflexivity.
Qed.
Lemma scan_char c lp : c <> 13 -> c <> 10 -> hl_char 0 lp c = inr 0.
Proof. intros H1 H2. unfold hl_char. cbn [Z.eqb]. destruct (Z.eqb_spec c 13); [lia|]. destruct (Z.eqb_spec c 10); [lia|]. reflexivity. Qed.
Lemma hl0 lp c : hl_char 0 lp c = inr (if c =? 13 then 1 else if c =? 10 then 2 else 0). Proof. reflexivity. Qed.
Lemma hl1 lp c : hl_char 1 lp c = if c =? 10 then inr 3 else if (c =? 13) || negb (is_ws c) then inl (lp - 1) else inr 0. Proof. reflexivity. Qed.
Lemma hl2 lp c : hl_char 2 lp c = if (c =? 10) || negb (is_ws c) then inl (lp - 1) else inr 0. Proof. reflexivity. Qed.
Lemma hl3 lp c : hl_char 3 lp c = if (c =? 13) || (lp =? 2) || negb (is_ws c) then inl (lp - 2) else inr 0. Proof. reflexivity. Qed.

Lemma scan_folded nl l : newline nl -> folded nl l -> forall lp, 0 < lp -> hl_scan l lp 0 = inr 0.
Proof.
  intros Hnl H. induction H as [|c r C1 C2 H IH|c r C H IH]; intros lp Hlp; cbn [hl_scan].
  - reflexivity.
  - rewrite scan_char by assumption. apply IH; lia.
  - assert (is_ws c = true /\ c <> 13 /\ c <> 10) as (W & C1 & C2) by (split; [apply is_ws_white; unfold white|]; lia).
    destruct Hnl as [-> | ->]; cbn [app hl_scan].
    + rewrite hl0. change (13 =? 13) with true. cbv iota. rewrite hl1. change (10 =? 10) with true. cbv iota. rewrite hl3, W.
      destruct (Z.eqb_spec c 13); [lia|]. destruct (Z.eqb_spec (lp + 1 + 1) 2); [lia|]. cbn [orb negb]. apply IH; lia.
    + rewrite hl0. change (10 =? 13) with false. change (10 =? 10) with true. cbv iota. rewrite hl2, W.
      destruct (Z.eqb_spec c 10); [lia|]. cbn [orb negb]. apply IH; lia.
Qed.
Lemma scan_folded0 nl l : newline nl -> folded nl l -> (forall c, hd_error l = Some c -> c <> 13 /\ c <> 10) -> hl_scan l 0 0 = inr 0.
Proof.
  intros Hnl H Hh. destruct H as [|c r C1 C2 H|c r C H].
  - reflexivity.
  - cbn [hl_scan]. rewrite scan_char by assumption. apply (scan_folded nl); [assumption|assumption|lia].
  - exfalso. destruct Hnl as [-> | ->]; [destruct (Hh 13 eq_refl)|destruct (Hh 10 eq_refl)]; lia.
Qed.
(** a complete line *)
Lemma scan_line nl l t : newline nl -> folded nl l -> (forall c, hd_error l = Some c -> c <> 13 /\ c <> 10) ->
  (l = [] /\ nl = [13;10] /\ t <> [] \/ unfolded nl t) -> hl_scan (l ++ nl ++ t) 0 0 = inl (zlen l, zlen l + zlen nl).
Proof.
  intros Hnl H Hh Ht. rewrite hl_scan_app, (scan_folded0 nl l Hnl H Hh), Z.add_0_l.
  pose proof (zlen_nonneg l).
  destruct Ht as [(-> & -> & Ht)|(c & r & -> & Hc)].
  - destruct t as [|c r]; [congruence|]. cbn [app hl_scan]. change (zlen (@nil Z)) with 0. change (zlen [13;10]) with 2. rewrite hl0. change (13 =? 13) with true. cbv iota. rewrite hl1. change (10 =? 10) with true. cbv iota. rewrite hl3. change (0 + 1 + 1 =? 2) with true. rewrite orb_true_r. reflexivity.
  - destruct Hnl as [-> | ->]; cbn [app hl_scan hd_error] in *; rewrite hl0.
    + change (13 =? 13) with true. cbv iota. rewrite hl1. change (10 =? 10) with true. cbv iota. rewrite hl3. change (zlen [13; 10]) with 2.
      destruct ((c =? 13) || (zlen l + 1 + 1 =? 2) || negb (is_ws c)) eqn:E; [do 2 f_equal; lia|].
      exfalso. rewrite !orb_false_iff, negb_false_iff in E. destruct E as ((E1 & _) & E2). destruct Hc as [Hc|Hc]; [rewrite not_white in E2 by exact Hc; discriminate|].
      injection Hc as ->. discriminate.
    + change (10 =? 13) with false. change (10 =? 10) with true. cbv iota. rewrite hl2. change (zlen [10]) with 1.
      destruct ((c =? 10) || negb (is_ws c)) eqn:E; [do 2 f_equal; lia|].
      exfalso. rewrite !orb_false_iff, negb_false_iff in E. destruct E as (E1 & E2). destruct Hc as [Hc|Hc]; [rewrite not_white in E2 by exact Hc; discriminate|].
      injection Hc as ->. discriminate.
Qed.
(** the last line, without anything behind *)
Lemma scan_last nl l : newline nl -> folded nl l -> (forall c, hd_error l = Some c -> c <> 13 /\ c <> 10) -> exists st, hl_scan (l ++ nl) 0 0 = inr st.
Proof.
  intros Hnl H Hh. rewrite hl_scan_app, (scan_folded0 nl l Hnl H Hh). destruct Hnl as [-> | ->]; cbn [hl_scan]; rewrite hl0.
  - change (13 =? 13) with true. cbv iota. rewrite hl1. change (10 =? 10) with true. eauto.
  - change (10 =? 13) with false. change (10 =? 10) with true. eauto.
Qed.
(** states that can be reached *)
Lemma hl_char_state st lp c s : hl_char st lp c = inr s -> 0 <= st <= 3 -> 0 <= s <= 3.
Proof.
  intros H Hs. assert (st = 0 \/ st = 1 \/ st = 2 \/ st = 3) as [E|[E|[E|E]]] by lia; subst st; revert H; rewrite ?hl0, ?hl1, ?hl2, ?hl3;
    repeat match goal with |- context [if ?b then _ else _] => destruct b end; intros H; try discriminate; injection H as <-; lia.
Qed.
Lemma scan_state l : forall lp st s, hl_scan l lp st = inr s -> 0 <= st <= 3 -> 0 <= s <= 3.
Proof.
  induction l as [|c l IH]; intros lp st s H Hs; cbn [hl_scan] in H; [injection H as <-; exact Hs|].
  destruct (hl_char st lp c) as [e|s1] eqn:E; [discriminate|]. eapply IH; [exact H|]. eapply hl_char_state; eassumption.
Qed.
(** what is found is inside *)
Lemma scan_bound l : forall lp st e k, hl_scan l lp st = inl (e, k) -> lp <= k < lp + zlen l.
Proof.
  induction l as [|c l IH]; intros lp st e k H; cbn [hl_scan] in H; [discriminate|]. rewrite zlen_cons. pose proof (zlen_nonneg l).
  destruct (hl_char st lp c) as [e1|s1]; [injection H as <- <-; lia|]. apply IH in H. lia.
Qed.
(** without CR only the states 0 and 2 *)
Lemma scan_nocr l : forall lp st s, ~ In 13 l -> hl_scan l lp st = inr s -> st = 0 \/ st = 2 -> s = 0 \/ s = 2.
Proof.
  induction l as [|c l IH]; intros lp st s Hn H Hs; cbn [hl_scan] in H; [injection H as <-; exact Hs|].
  destruct (hl_char st lp c) as [e|s1] eqn:E; [discriminate|]. eapply IH; [intros X; apply Hn; right; exact X|exact H|].
  assert (c <> 13) by (intros ->; apply Hn; left; reflexivity).
  revert E. destruct Hs as [-> | ->]; rewrite ?hl0, ?hl2.
  - destruct (Z.eqb_spec c 13); [lia|]. destruct (c =? 10); intros E; injection E as <-; lia.
  - destruct ((c =? 10) || negb (is_ws c)); intros E; [discriminate|injection E as <-; lia].
Qed.
Lemma scan_short nl maxl x : newline nl -> short_start nl maxl x -> exists e k, hl_scan x 0 0 = inl (e, k) /\ k < maxl.
Proof.
  intros Hnl (u & c & r & -> & Hc & Hl & Hu). rewrite hl_scan_app. destruct (hl_scan u 0 0) as [(e & k)|s] eqn:E.
  - apply scan_bound in E. exists e, k. split; [reflexivity|]. pose proof (nl_len nl Hnl). lia.
  - assert (0 <= s <= 3) as Hs by (eapply scan_state; [exact E|lia]). pose proof (zlen_nonneg u). apply not_white in Hc. rewrite Z.add_0_l.
    destruct Hnl as [-> | ->]; cbn [app hl_scan].
    + change (zlen [13;10]) with 2 in Hl. assert (s = 0 \/ s = 1 \/ s = 2 \/ s = 3) as [E1|[E1|[E1|E1]]] by lia; subst s.
      * rewrite hl0. change (13 =? 13) with true. cbv iota. rewrite hl1. change (10 =? 10) with true. cbv iota. rewrite hl3, Hc. cbn [negb]. rewrite !orb_true_r. do 2 eexists; split; [reflexivity|lia].
      * rewrite hl1. change (13 =? 10) with false. change (13 =? 13) with true. cbn [orb]. do 2 eexists; split; [reflexivity|lia].
      * rewrite hl2. change (13 =? 10) with false. change (is_ws 13) with true. cbn [orb negb]. rewrite hl0. change (10 =? 13) with false. change (10 =? 10) with true. cbv iota.
        rewrite hl2, Hc. cbn [negb]. rewrite !orb_true_r. do 2 eexists; split; [reflexivity|lia].
      * rewrite hl3. change (13 =? 13) with true. cbn [orb]. do 2 eexists; split; [reflexivity|lia].
    + change (zlen [10]) with 1 in Hl. assert (s = 0 \/ s = 2) as [E1|E1] by (eapply scan_nocr; [apply Hu; reflexivity|exact E|lia]); subst s.
      * rewrite hl0. change (10 =? 13) with false. change (10 =? 10) with true. cbv iota. rewrite hl2, Hc. cbn [negb]. rewrite orb_true_r. do 2 eexists; split; [reflexivity|lia].
      * rewrite hl2. change (10 =? 10) with true. cbn [orb]. do 2 eexists; split; [reflexivity|lia].
Qed.
