From Verif Require Import Base StreamSpec P_Stream M_Kmp M_Buffered BufferedSpec P_Buffered ArchiveSpec P_BufInv.
From Verif Require Import B64Spec TextSpec M_Text T_Text M_Detect DetectSpec P_Detect OleSpec M_Ole P_Ole.

Lemma skipn_skip {A} (l : list A) : forall a b, skipn (a + b) l = skipn a (skipn b l).
Proof.
  intros a b. revert l. induction b as [|b IH]; intros l; [rewrite Nat.add_0_r; reflexivity|].
  rewrite Nat.add_succ_r. destruct l; cbn [skipn]; [rewrite skipn_nil; reflexivity|apply IH].
Qed.
Section D.
Variables (big : bool) (D : list Z).
Hypothesis HB : Forall byte D.
Hypothesis HL : zlen D <= INT32_MAX.
Notation mi := (maxindex D).
Notation odyn := (odyn D).
Notation uu := (uu D).

(** what the entry stream in state [s] can still deliver *)
Fixpoint rest (k : nat) (s : ocore) : list Z :=
  match k with
  | O => []
  | S k' => match ole_fill big s 512 with
            | Ret (s', n, w, _) => if n <? 0 then w else w ++ rest k' s'
            | _ => []
            end
  end.
Lemma rest_done k s : oc_done s = oc_msize s -> rest k s = [].
Proof. intros E. destruct k; [reflexivity|]. cbn [rest]. unfold ole_fill. rewrite E, Z.eqb_refl. reflexivity. Qed.

Lemma fill_step s space : odyn s -> oc_done s < oc_msize s -> 1 <= space ->
  exists s' n w err, ole_fill big s space = Ret (s', n, w, err) /\ zlen w <= space /\ zlen w <= full s /\
   (err = true /\ n = -1 \/
    err = false /\ 0 < n /\ zlen w = n /\ odyn s' /\ oc_done s' = oc_done s + n /\ oc_msize s' = oc_msize s /\
      ((n < full s /\ uu s' = uu s /\ forall k, rest (S k) s = w ++ rest (S k) s') \/
       (n = full s /\ (oc_done s' < oc_msize s' -> (uu s' < uu s)%nat) /\ forall k, rest (S k) s = w ++ rest k s'))).
Proof.
  intros Hd Hlt Hsp. rewrite (fill_eq big D HL s space Hd Hlt Hsp). cbv zeta.
  assert (Hd' := Hd). destruct Hd' as [HS Hbs Hoff Hdone Hdb]. specialize (Hdb Hlt).
  assert (full s <= oc_bs s - oc_off s /\ 1 <= full s /\ full s <= oc_msize s - oc_done s) as Hf by (unfold full; lia).
  assert (oc_bs s <= 512) as Hbs' by lia.
  set (n := Z.min space (full s)). assert (1 <= n <= full s /\ n <= space) as Hn by (unfold n; lia).
  destruct (where_ok D HL s Hd Hlt) as (r & Er & Hr & _). rewrite Er. cbn [bind]. destruct r as [d|].
  2:{ do 4 eexists. split; [reflexivity|]. rewrite zlen_nil. split; [lia|]. split; [lia|]. left. tauto. }
  destruct (Hr d eq_refl) as (Hd0 & Hd1).
  assert (forall m, 0 <= m <= full s -> zlen (slice D (d + oc_off s) m) = m) as HZ by (intros; apply zlen_slice; lia).
  destruct (Z.eqb_spec (oc_off s + n) (oc_bs s)) as [En|En].
  - assert (n = full s) as Hnf by lia.
    destruct (advance_ok big D HB s Hd Hlt) as (us & u & x & Ea & Hx). rewrite Ea. cbn [bind].
    destruct ((x <? 0) && (negb (x =? -2) || negb (oc_done s + n =? oc_msize s))) eqn:Eerr.
    + do 4 eexists. split; [reflexivity|]. rewrite HZ by lia. split; [lia|]. split; [lia|]. left. tauto.
    + do 4 eexists. split; [reflexivity|]. rewrite HZ by lia. split; [lia|]. split; [lia|]. right.
      assert (x < 0 -> oc_done s + n = oc_msize s) as Hneg.
      { intros Hx0. destruct (Z.ltb_spec x 0); [|lia]. cbn [andb] in Eerr. apply orb_false_iff in Eerr as [_ Eerr]. apply negb_false_iff, Z.eqb_eq in Eerr. exact Eerr. }
      split; [reflexivity|]. split; [lia|]. split; [reflexivity|]. split.
      { split; cbn [odo oc_bs oc_off oc_done oc_msize oc_db]; try assumption; try lia.
        eapply same_ostat; [|exact HS]. unfold same_stat; cbn; tauto. }
      split; [reflexivity|]. split; [reflexivity|]. right. split; [exact Hnf|]. split.
      { cbn [odo oc_done oc_msize]. intros Hlt2. unfold P_Ole.uu, sidx. cbn [odo oc_bs oc_used oc_usedS oc_sbatb].
        destruct Hx as [Hx|[(X1 & X2 & X3 & X4 & X5 & X6)|(X1 & X2 & X3 & X4 & X5 & X6)]]; [lia| |].
        - rewrite X2. change (512 =? 64) with false. cbv iota. rewrite X6. apply unused_add; [lia|exact X5].
        - rewrite X2. change (64 =? 64) with true. cbv iota. rewrite X6. apply unused_add; [unfold sidx in X3; lia|exact X5]. }
      intros k. cbn [rest]. rewrite (fill_eq big D HL s 512 Hd Hlt) by lia. cbv zeta. rewrite Er. cbn [bind].
      replace (Z.min 512 (full s)) with n by lia. destruct (Z.eqb_spec (oc_off s + n) (oc_bs s)); [|lia]. rewrite Ea. cbn [bind]. rewrite Eerr.
      destruct (Z.ltb_spec n 0); [lia|]. reflexivity.
  - do 4 eexists. split; [reflexivity|]. rewrite HZ by lia. split; [lia|]. split; [lia|]. right.
    split; [reflexivity|]. split; [lia|]. split; [reflexivity|].
    set (s' := odo s (oc_usedS s) (oc_used s) (oc_db s) (oc_done s + n) (oc_off s + n)).
    assert (odyn s') as Hd2.
    { split; unfold s'; cbn [odo oc_bs oc_off oc_done oc_msize oc_db]; try assumption; try lia.
      eapply same_ostat; [|exact HS]. unfold same_stat; cbn; tauto. }
    split; [exact Hd2|]. split; [reflexivity|]. split; [reflexivity|].
    destruct (Z.eq_dec n (full s)) as [Hnf|Hnf].
    + right. split; [exact Hnf|]. assert (oc_done s' = oc_msize s') as Hd3 by (unfold s'; cbn; unfold full in *; lia).
      split; [lia|]. intros k. rewrite (rest_done k s' Hd3). cbn [rest]. rewrite (fill_eq big D HL s 512 Hd Hlt) by lia. cbv zeta. rewrite Er. cbn [bind].
      replace (Z.min 512 (full s)) with n by lia. destruct (Z.eqb_spec (oc_off s + n) (oc_bs s)); [lia|].
      destruct (Z.ltb_spec n 0); [lia|]. fold s'. rewrite (rest_done k s' Hd3). reflexivity.
    + left. split; [lia|]. split; [reflexivity|]. intros k.
      assert (oc_done s' < oc_msize s') as Hlt2 by (unfold s'; cbn; lia).
      assert (full s' = full s - n) as Hfs by (unfold s', full; cbn; lia).
      cbn [rest]. rewrite (fill_eq big D HL s 512 Hd Hlt), (fill_eq big D HL s' 512 Hd2 Hlt2) by lia. cbv zeta.
      change (where_is s') with (where_is s). change (advance big s') with (advance big s). rewrite Er. cbn [bind]. rewrite Hfs.
      replace (Z.min 512 (full s)) with (full s) by lia. replace (Z.min 512 (full s - n)) with (full s - n) by lia.
      unfold s'. cbn [odo oc_off oc_bs oc_done oc_msize oc_usedS oc_used oc_db].
      replace (oc_off s + n + (full s - n)) with (oc_off s + full s) by lia. replace (oc_done s + n + (full s - n)) with (oc_done s + full s) by lia.
      assert (slice D (d + oc_off s) (full s) = slice D (d + oc_off s) n ++ slice D (d + (oc_off s + n)) (full s - n)) as Hsl.
      { replace (d + (oc_off s + n)) with (d + oc_off s + n) by lia. rewrite slice_app by lia. f_equal; lia. }
      destruct (oc_off s + full s =? oc_bs s).
      * destruct (advance_ok big D HB s Hd Hlt) as (us & u & x & Ea & _). rewrite Ea. cbn [bind].
        destruct (_ && _); cbn [bind].
        -- rewrite Hsl. reflexivity.
        -- destruct (Z.ltb_spec (full s) 0), (Z.ltb_spec (full s - n) 0); try lia. rewrite Hsl, <- app_assoc. reflexivity.
      * destruct (Z.ltb_spec (full s) 0), (Z.ltb_spec (full s - n) 0); try lia. rewrite Hsl, <- app_assoc.
        replace (oc_off s + n + (full s - n)) with (oc_off s + full s) by lia. reflexivity.
Qed.

(** ** the entry stream as a source *)
Definition oSR (content : list Z) (s : ocore) (c : Z) : Prop :=
  odyn s /\ c = oc_done s /\ exists k, (1 <= k)%nat /\ (oc_done s < oc_msize s -> (uu s + 2 <= k)%nat) /\
    c <= zlen content /\ skipn (Z.to_nat c) content = rest k s.
Lemma ole_SrcOK content : SrcOK (ole_src big) content True (oSR content) (fun _ => True).
Proof.
  intros s c space (Hd & -> & k & Hk1 & Hk2 & Hc & Hrest) Hsp. cbn [ole_src fill mu].
  assert (Hd' := Hd). destruct Hd' as [HS Hbs Hoff Hdone Hdb].
  destruct (Z.eq_dec (oc_done s) (oc_msize s)) as [E|E].
  { exists s, (-1), [], false. split; [unfold ole_fill; rewrite E, Z.eqb_refl; reflexivity|]. rewrite zlen_nil. split; [lia|].
    right. right. left. split; [reflexivity|]. split; [lia|]. split; [|exact I].
    rewrite rest_done in Hrest by exact E. apply (f_equal (@length Z)) in Hrest. rewrite skipn_length in Hrest. cbn in Hrest. unfold zlen in *. lia. }
  assert (oc_done s < oc_msize s) as Hlt by lia. specialize (Hk2 Hlt).
  destruct (fill_step s space Hd Hlt) as (s' & n & w & err & -> & Hw1 & Hw2 & Hres); [lia|].
  exists s', n, w, err. split; [reflexivity|]. split; [exact Hw1|].
  destruct Hres as [(-> & ->)|(-> & Hn & Hw & Hd2 & Hdone2 & Hms & Hres)].
  { right. right. right. split; [reflexivity|]. split; [exact I|]. left. lia. }
  left. split; [reflexivity|]. split; [exact Hn|].
  destruct k as [|k]; [lia|].
  assert (exists k', (1 <= k')%nat /\ (oc_done s' < oc_msize s' -> (uu s' + 2 <= k')%nat) /\ rest (S k) s = w ++ rest k' s') as (k' & K1 & K2 & K3).
  { destruct Hres as [(R1 & R2 & R3)|(R1 & R2 & R3)].
    - exists (S k). split; [lia|]. split; [intros; lia|]. apply R3.
    - exists k. split; [lia|]. split; [intros Hx; specialize (R2 Hx); lia|]. apply R3. }
  rewrite K3 in Hrest.
  assert (w = slice content (oc_done s) n) as Hwe.
  { unfold slice. rewrite Hrest. rewrite firstn_app. rewrite (firstn_all2 w) by (unfold zlen in *; lia).
    replace (Z.to_nat n - length w)%nat with O by (unfold zlen in *; lia). cbn. rewrite app_nil_r. reflexivity. }
  assert (oc_done s + n <= zlen content) as Hle.
  { apply (f_equal (@length Z)) in Hrest. rewrite skipn_length, app_length in Hrest. unfold zlen in *. lia. }
  split; [exact Hwe|]. split; [exact Hle|]. split; [|lia].
  unfold oSR. split; [exact Hd2|]. split; [lia|]. exists k'. split; [exact K1|]. split; [exact K2|]. split; [lia|].
  replace (Z.to_nat (oc_done s + n)) with (Z.to_nat n + Z.to_nat (oc_done s))%nat by lia. rewrite skipn_skip, Hrest.
  replace (Z.to_nat n) with (length w) by (unfold zlen in *; lia). rewrite skipn_app, skipn_all, Nat.sub_diag. reflexivity.
Qed.

(** its length *)
Lemma rest_size : forall k s, odyn s -> zlen (rest k s) <= oc_msize s - oc_done s.
Proof.
  induction k as [|k IH]; intros s Hd; assert (Hd' := Hd); destruct Hd' as [HS Hbs Hoff Hdone Hdb]; [cbn [rest]; rewrite zlen_nil; lia|].
  destruct (Z.eq_dec (oc_done s) (oc_msize s)) as [E|E]; [rewrite rest_done by exact E; rewrite zlen_nil; lia|].
  assert (oc_done s < oc_msize s) as Hlt by lia.
  assert (full s <= oc_bs s - oc_off s /\ 1 <= full s /\ full s <= oc_msize s - oc_done s) as Hf by (unfold full; lia).
  destruct (fill_step s 512 Hd Hlt) as (s' & n & w & err & Ef & Hw1 & Hw2 & Hres); [lia|].
  cbn [rest]. rewrite Ef. destruct Hres as [(-> & ->)|(-> & Hn & Hw & Hd2 & Hdone2 & Hms & Hres)].
  - destruct (Z.ltb_spec (-1) 0); [|lia]. lia.
  - destruct (Z.ltb_spec n 0); [lia|]. rewrite zlen_app. specialize (IH s' Hd2). lia.
Qed.
(** the number of blocks that can still be entered and hold something *)
Definition vv (s : ocore) : Z :=
  if oc_bs s =? 64 then Z.of_nat (unused (sidx s) (oc_usedS s)) + (if oc_db s <? sidx s then 1 else 0)
  else Z.of_nat (unused (mi + 1) (oc_used s)) + 1.
Lemma rest_blocks : forall k s, odyn s -> zlen (rest k s) <= oc_bs s * vv s - (if (oc_bs s =? 64) && negb (oc_db s <? sidx s) then 0 else oc_off s).
Proof.
  induction k as [|k IH]; intros s Hd; assert (Hd' := Hd); destruct Hd' as [HS Hbs Hoff Hdone Hdb].
  { cbn [rest]. rewrite zlen_nil. unfold vv. destruct Hbs as [E | E]; rewrite E in *; [change (64 =? 64) with true|change (512 =? 64) with false]; cbn [andb]; [destruct (_ <? _); cbn [negb]|]; lia. }
  assert (0 <= oc_bs s * vv s - (if (oc_bs s =? 64) && negb (oc_db s <? sidx s) then 0 else oc_off s)) as Hnn.
  { unfold vv. destruct Hbs as [E | E]; rewrite E in *; [change (64 =? 64) with true|change (512 =? 64) with false]; cbn [andb]; [destruct (_ <? _); cbn [negb]|]; lia. }
  destruct (Z.eq_dec (oc_done s) (oc_msize s)) as [E|E]; [rewrite rest_done by exact E; rewrite zlen_nil; lia|].
  assert (oc_done s < oc_msize s) as Hlt by lia. specialize (Hdb Hlt).
  assert (full s <= oc_bs s - oc_off s /\ 1 <= full s /\ full s <= oc_msize s - oc_done s) as Hf by (unfold full; lia).
  cbn [rest]. rewrite (fill_eq big D HL s 512 Hd Hlt) by lia. cbv zeta.
  destruct (where_ok D HL s Hd Hlt) as (r & Er & Hr & Hnone). rewrite Er. cbn [bind]. destruct r as [d|].
  2:{ destruct (Z.ltb_spec (-1) 0); [|lia]. rewrite zlen_nil. exact Hnn. }
  destruct (Hr d eq_refl) as (Hd0 & Hd1). replace (Z.min 512 (full s)) with (full s) by lia.
  assert (zlen (slice D (d + oc_off s) (full s)) = full s) as HZ by (apply zlen_slice; lia).
  assert (oc_bs s = 64 -> oc_db s < sidx s) as Hsm.
  { intros E64. destruct (Z.lt_ge_cases (oc_db s) (sidx s)) as [L|L]; [exact L|]. specialize (Hnone E64 L). discriminate Hnone. }
  assert ((oc_bs s =? 64) && negb (oc_db s <? sidx s) = false) as Ec.
  { destruct (Z.eqb_spec (oc_bs s) 64) as [E64|]; [|reflexivity]. cbn [andb]. specialize (Hsm E64). destruct (Z.ltb_spec (oc_db s) (sidx s)); [reflexivity|lia]. }
  rewrite Ec in *.
  assert (1 <= vv s) as Hv1.
  { unfold vv. destruct Hbs as [E1 | E1]; rewrite E1 in *; [change (64 =? 64) with true|change (512 =? 64) with false]; cbv iota; [|lia].
    destruct (Z.ltb_spec (oc_db s) (sidx s)); lia. }
  assert (full s <= oc_bs s * vv s - oc_off s) as Hfull by (destruct Hbs as [E1 | E1]; rewrite E1 in *; lia).
  destruct (Z.eqb_spec (oc_off s + full s) (oc_bs s)) as [En|En].
  - destruct (advance_ok big D HB s Hd Hlt) as (us & u & x & Ea & Hx). rewrite Ea. cbn [bind].
    destruct ((x <? 0) && (negb (x =? -2) || negb (oc_done s + full s =? oc_msize s))) eqn:Eerr.
    { destruct (Z.ltb_spec (-1) 0); [|lia]. lia. }
    destruct (Z.ltb_spec (full s) 0); [lia|]. rewrite zlen_app, HZ.
    set (s' := odo s us u x (oc_done s + full s) 0).
    assert (x < 0 -> oc_done s + full s = oc_msize s) as Hneg.
    { intros Hx0. destruct (Z.ltb_spec x 0); [|lia]. cbn [andb] in Eerr. apply orb_false_iff in Eerr as [_ Eerr]. apply negb_false_iff, Z.eqb_eq in Eerr. exact Eerr. }
    assert (odyn s') as Hd2.
    { split; unfold s'; cbn [odo oc_bs oc_off oc_done oc_msize oc_db]; try assumption; try lia.
      eapply same_ostat; [|exact HS]. unfold same_stat; cbn; tauto. }
    destruct (Z.lt_ge_cases x 0) as [Hx0|Hx0].
    { rewrite (rest_done k s') by (unfold s'; cbn; auto). rewrite zlen_nil. lia. }
    specialize (IH s' Hd2).
    assert (oc_bs s * vv s' + oc_bs s <= oc_bs s * vv s /\ oc_off s' = 0 /\ oc_bs s' = oc_bs s) as (V1 & V2 & V3).
    { split; [|split; reflexivity]. enough (vv s' + 1 <= vv s) by (destruct Hbs as [E1 | E1]; rewrite E1 in *; lia).
      destruct Hx as [Hx|[(X1 & X2 & X3 & X4 & X5 & X6)|(X1 & X2 & X3 & X4 & X5 & X6)]]; [lia| |].
      - unfold vv, s'. cbn [odo oc_bs oc_used]. rewrite X2. change (512 =? 64) with false. cbv iota. rewrite X6.
        assert (0 <= x < mi + 1) as Hxr by lia. pose proof (unused_add (mi + 1) x (oc_used s) Hxr X5). lia.
      - unfold vv, s'. unfold sidx. cbn [odo oc_bs oc_usedS oc_db oc_sbatb]. rewrite X2. change (64 =? 64) with true. cbv iota. rewrite X6.
        specialize (Hsm X2). fold (sidx s). destruct (Z.ltb_spec (oc_db s) (sidx s)); [|lia].
        pose proof (unused_mono (sidx s) x (oc_usedS s)).
        destruct (Z.ltb_spec x (sidx s)); [|lia]. assert (0 <= x < sidx s) as Hxr by lia. pose proof (unused_add (sidx s) x (oc_usedS s) Hxr X5). lia. }
    rewrite V2, V3 in IH. destruct (_ && _); lia.
  - destruct (Z.ltb_spec (full s) 0); [lia|]. rewrite zlen_app, HZ.
    rewrite rest_done; [rewrite zlen_nil; lia|]. cbn. unfold full in *. lia.
Qed.
Lemma vv_bound s : odyn s -> -1 <= mi -> zlen (oc_sbatb s) <= mi + 2 -> oc_bs s * vv s <= zlen D + 64.
Proof.
  intros [HS Hbs Hoff Hdone Hdb] Hm1 Hsb. pose proof (zlen_nonneg D) as H0. pose proof (zlen_nonneg (oc_sbatb s)).
  assert (512 * (mi + 2) <= zlen D /\ -2 <= mi) as Hmi.
  { unfold maxindex. rewrite Z.quot_div_nonneg by lia. pose proof (Z.mul_div_le (zlen D) 512). pose proof (Z.div_pos (zlen D) 512). lia. }
  unfold vv. destruct Hbs as [E | E]; rewrite E; [change (64 =? 64) with true|change (512 =? 64) with false]; cbv iota.
  - pose proof (unused_max (sidx s) (oc_usedS s)). unfold sidx in *. destruct (_ <? _); lia.
  - pose proof (unused_max (mi + 1) (oc_used s)). lia.
Qed.

(** ** what survives whatever is done with an entry stream *)
Definition oJ (s0 s : ocore) : Prop :=
  same_stat s0 s /\ oc_tb s = oc_tb s0 /\ oc_ti s = oc_ti s0 /\ (unused (mi + 1) (oc_used s) <= unused (mi + 1) (oc_used s0))%nat.
Lemma oJ_refl s : oJ s s. Proof. unfold oJ, same_stat. lia || (repeat split; lia). Qed.
Lemma nextBlock_used d bat used inn u x : nextBlock big d bat used inn = Ret (u, x) -> u = used \/ u = x :: used.
Proof.
  unfold nextBlock. destruct (if _ <? 0 then _ else _); [|intros H; injection H as <- <-; auto].
  intros H. do 3 (apply bind_ret in H as (? & _ & H)). destruct (_ || _); [injection H as <- <-; auto|].
  apply bind_ret in H as (? & _ & H). destruct (_ || _); [injection H as <- <-; auto|]. destruct (0 <=? _); injection H as <- <-; auto.
Qed.
Lemma oJ_fill s0 s space s' n d e : oJ s0 s -> fill (ole_src big) s space = Ret (s', n, d, e) -> oJ s0 s'.
Proof.
  intros (J1 & J2 & J3 & J4). cbn [ole_src fill]. unfold ole_fill. destruct (_ =? _); [intros H; injection H as <- _ _ _; unfold oJ; tauto|].
  cbv zeta. intros H. apply bind_ret in H as (r & _ & H). destruct r as [r|]; [|injection H as <- _ _ _; unfold oJ; tauto].
  match type of H with (if ?c then _ else _) = _ => destruct c end; [injection H as <- _ _ _; unfold oJ; tauto|].
  match type of H with (if ?c then _ else _) = _ => destruct c end; [|discriminate].
  match type of H with (if ?c then _ else _) = _ => destruct c end; [|injection H as <- _ _ _; unfold oJ, same_stat in *; cbn; tauto].
  apply bind_ret in H as (((us & u) & x) & Ha & H).
  assert (u = oc_used s \/ u = x :: oc_used s) as Hu.
  { destruct (oc_bs s =? 64).
    - apply bind_ret in Ha as ((? & ?) & _ & Ha). injection Ha as _ <- _. auto.
    - apply bind_ret in Ha as ((? & ?) & Hb & Ha). injection Ha as _ <- <-. eapply nextBlock_used; exact Hb. }
  match type of H with (if ?c then _ else _) = _ => destruct c end; injection H as <- _ _ _; unfold oJ, same_stat in *; cbn;
    (split; [tauto|]; split; [tauto|]; split; [tauto|]; destruct Hu as [-> | ->]; [exact J4|pose proof (unused_mono (mi + 1) x (oc_used s)); lia]).
Qed.
End D.
