(** cpio archives of arbitrary bytes: iteration ends; no crash if the headers are sane. *)
From Verif Require Import Base StreamSpec P_Stream M_Sub ArchiveSpec M_Ar M_Cpio CpioSpec P_Cpio P_Tame P_TameBuf P_SafeAr P_SafeTar.

Lemma readHex_any (cr : Prop) l : cr -> forall v, INT32_MIN <= v <= INT32_MAX -> safe cr (readHex v l) (fun w => INT32_MIN <= w <= INT32_MAX).
Proof.
  intros Hcr. induction l as [|c l IH]; intros v Hv; cbn [readHex]; [exact Hv|]. cbv zeta.
  eapply safe_bind; [apply chk_any; exact Hcr|]. intros w (-> & Hw). apply IH; exact Hw.
Qed.
Lemma upto_nul_safe (cr : Prop) : forall l n, cr \/ In 0 l -> safe cr (upto_nul l n) (fun _ => True).
Proof.
  induction l as [|c l IH]; intros [|n] H; cbn [upto_nul]; try exact I; [destruct H as [H|[]]; exact H|].
  destruct (Z.eqb_spec c 0) as [->|N]; [exact I|]. eapply safe_bind; [apply IH; destruct H as [H|[H|H]]; [left; exact H|congruence|right; exact H]|]. intros r _. exact I.
Qed.
Lemma pad4_range x : 0 <= pad4 x <= 7.
Proof. unfold pad4. pose proof (Z.rem_bound_abs x 4 ltac:(lia)). destruct (Z.eqb_spec (Z.rem x 4) 0); lia. Qed.
Lemma pad4_nonneg x : 0 <= x -> 0 <= pad4 x <= 3.
Proof. intros H. unfold pad4. pose proof (Z.rem_bound_pos x 4 H ltac:(lia)). destruct (Z.eqb_spec (Z.rem x 4) 0); lia. Qed.
Lemma zget_In {A} (l : list A) i x : zget l i = Some x -> In x l.
Proof. unfold zget. destruct (i <? 0); [discriminate|]. apply nth_error_In. Qed.

Section Cpio.
Context {P : Type}.
Variables (par : ops P Z) (content : option (list Z)) (B lim : Z) (cr neg : Prop) (I : P -> Prop).
Hypothesis HT : Tame par content lim cr neg I.
(** [B] bounds the positions *)
Hypothesis HB : forall p, I p -> o_pos par p <= B.
Hypothesis HBe : forall q, at_end content q -> q = B.
Hypothesis Hlim : 110 <= lim <= INT32_MAX.
Hypothesis Hsane : (cr /\ lim = INT32_MAX /\ neg) \/ exists full, content = Some full /\ cpio_sane lim full.

Lemma cpio_header_safe p inf pad : I p -> 0 <= pad <= 7 -> -1 <= i_size inf <= INT32_MAX ->
  safe cr (cpio_header par p inf pad) (fun '(p', inf', pad', st) => I p' /\ o_pos par p <= o_pos par p' /\ 0 <= pad' <= 7 /\ 
    (cr \/ -1 <= i_size inf') /\ i_size inf' <= INT32_MAX /\ (st = Ok -> o_pos par p + 110 <= o_pos par p' /\ ((cr /\ lim = INT32_MAX /\ neg) \/ 0 <= i_size inf'))).
Proof.
  intros HI Hpad Hsz. unfold cpio_header.
  eapply safe_bind; [apply (tm_read _ _ _ _ _ _ HT p 110 110 HI); unfold INT32_MIN, INT32_MAX in *; lia|].
  intros ((p1 & n) & b) (R1 & R2 & R3 & R4 & R5 & R6 & R7 & R8 & R9). destruct (Z.eqb_spec n 110) as [->|Hn]; cbn [negb].
  2:{ cbn [safe]. split; [exact R1|]. split; [exact R6|]. split; [exact Hpad|]. split; [right; lia|]. split; [lia|]. intros Hst. exfalso.
      destruct (Z.lt_ge_cases n 110); [apply R9; [lia|lia|lia|exact Hst]|]. specialize (R8 ltac:(lia)). lia. }
  destruct (Z.leb_spec 110 (zlen b)); cbn [negb]; [|lia]. assert (zlen b = 110) as Hb by lia. specialize (R7 ltac:(lia)).
  destruct (list_eqb (slice b 0 6) cpio_magic) eqn:Em; cbn [negb].
  2:{ cbn [safe]. split; [exact R1|]. split; [exact R6|]. split; [exact Hpad|]. split; [right; lia|]. split; [lia|]. congruence. }
  apply list_eqb_true in Em. destruct (tm_pos _ _ _ _ _ _ HT p HI) as (Hp0 & _). destruct (tm_pos _ _ _ _ _ _ HT p1 R1) as (_ & Hp1).
  assert ((cr /\ lim = INT32_MAX /\ neg) \/ exists full mt sz fns, content = Some full /\ readHex 0 (slice b 54 8) = Ret sz /\ readHex 0 (slice b 46 8) = Ret mt /\ readHex 0 (slice b 94 8) = Ret fns /\
     0 <= sz <= INT32_MAX /\ 1 <= fns /\ fns + 3 <= lim /\ fns + 5 <= INT32_MAX /\ (o_pos par p + 110 + fns <= zlen full -> zget full (o_pos par p + 110 + fns - 1) = Some 0)) as Hnums.
  { destruct Hsane as [Hs|(full & Ef & Hs)]; [left; exact Hs|right]. rewrite Ef in R5, Hp1. cbn [data_at in_content] in R5, Hp1. rewrite Hb in R5.
    assert (forall o k, 0 <= o -> 0 <= k -> o + k <= 110 -> slice b o k = slice full (o_pos par p + o) k) as Hfld.
    { intros o k H1 H2 H3. rewrite R5. apply slice_slice; lia. }
    rewrite Hfld in Em by lia. rewrite Z.add_0_r in Em.
    destruct (Hs (o_pos par p) Hp0 ltac:(lia) Em) as (mt & sz & fns & A1 & A2 & A3 & A4 & A5 & A6 & A7 & A8 & A9).
    exists full, mt, sz, fns. rewrite !Hfld by lia. rewrite (readHex_num _ _ A1 A2), (readHex_num _ _ A3 A4), (readHex_num _ _ A5 ltac:(lia)).
    pose proof (hexnum_nonneg _ _ A3). split; [exact Ef|]; do 3 (split; [reflexivity|]). split; [lia|]. tauto. }
  eapply safe_bind with (Q := fun size => INT32_MIN <= size <= INT32_MAX /\ ((cr /\ lim = INT32_MAX /\ neg) \/ 0 <= size)).
  { destruct Hnums as [Hc|(full & mt & sz & fns & _ & -> & _ & _ & Hz & _)].
    - eapply safe_impl; [apply readHex_any; [apply Hc|unfold INT32_MIN, INT32_MAX; lia]|tauto|]. intros w Hw. split; [exact Hw|left; exact Hc].
    - cbn [safe]. unfold INT32_MIN. lia. }
  intros size (Hz1 & Hz2).
  eapply safe_bind with (Q := fun mt => True).
  { destruct Hnums as [Hc|(full & mt & sz & fns & _ & _ & -> & _)]; [eapply safe_impl; [apply readHex_any; [apply Hc|unfold INT32_MIN, INT32_MAX; lia]|tauto|auto]|exact Logic.I]. }
  intros mtime _.
  eapply safe_bind with (Q := fun fns => INT32_MIN <= fns <= INT32_MAX /\ ((cr /\ lim = INT32_MAX /\ neg) \/ 0 <= size /\ 1 <= fns /\ fns + 3 <= lim /\ fns + 5 <= INT32_MAX /\
     exists full, content = Some full /\ (o_pos par p + 110 + fns <= zlen full -> zget full (o_pos par p + 110 + fns - 1) = Some 0))).
  { destruct Hz2 as [Hc|Hz2]; [eapply safe_impl; [apply readHex_any; [apply Hc|unfold INT32_MIN, INT32_MAX; lia]|tauto|intros w Hw; split; [exact Hw|left; exact Hc]]|].
    destruct Hnums as [Hc|(full & mt & sz & fns & Ef & _ & _ & -> & _ & F1 & F2 & F3 & F4)]; [eapply safe_impl; [apply readHex_any; [apply Hc|unfold INT32_MIN, INT32_MAX; lia]|tauto|intros w Hw; split; [exact Hw|left; exact Hc]]|].
    cbn [safe]. split; [unfold INT32_MIN, INT32_MAX in *; lia|right]. do 4 (split; [assumption|]). exists full. split; assumption. }
  intros fns (Hf1 & Hf2). cbv zeta.
  eapply safe_bind with (Q := fun f2 => f2 = fns + 2).
  { destruct Hf2 as [Hc|Hf2]; [eapply safe_impl; [apply chk_any; apply Hc|tauto|intros w (-> & _); reflexivity]|]. rewrite chk32_ok by (unfold INT32_MIN, INT32_MAX in *; lia). reflexivity. }
  intros f2 ->.
  eapply safe_bind with (Q := fun t => t = fns + pad4 (fns + 2) /\ INT32_MIN <= t <= INT32_MAX).
  { destruct Hf2 as [Hc|Hf2]; [eapply safe_impl; [apply chk_any; apply Hc|tauto|intros w (-> & Hw); split; [reflexivity|exact Hw]]|].
    pose proof (pad4_nonneg (fns + 2) ltac:(lia)). rewrite chk32_ok by (unfold INT32_MIN, INT32_MAX in *; lia). cbn [safe]. split; [reflexivity|unfold INT32_MIN in *; lia]. }
  intros toread (-> & Ht).
  assert (fns + pad4 (fns + 2) <= lim) as Htl. { destruct Hf2 as [(_ & Hc & _)|Hf2]; [lia|]. pose proof (pad4_nonneg (fns + 2) ltac:(lia)). lia. }
  eapply safe_bind; [apply (tm_read _ _ _ _ _ _ HT p1 _ (fns + pad4 (fns + 2)) R1); assumption|].
  intros ((p2 & n2) & b2) (T1 & T2 & T3 & T4 & T5 & T6 & T7 & T8 & T9). 
  assert (forall st, cr \/ st = Error -> I p2 /\ o_pos par p <= o_pos par p2 /\ 0 <= pad4 size <= 7 /\ (cr \/ -1 <= size) /\ size <= INT32_MAX) as _ by (intros; pose proof (pad4_range size); destruct Hf2 as [Hc|Hf2]; repeat split; try lia; try tauto).
  assert (I p2 /\ o_pos par p <= o_pos par p2 /\ 0 <= pad4 size <= 7 /\ (cr \/ -1 <= size) /\ size <= INT32_MAX) as (G1 & G2 & G3 & G4 & G5).
  { pose proof (pad4_range size). split; [exact T1|]. split; [lia|]. split; [lia|]. split; [destruct Hf2 as [Hc|Hf2]; [left; apply Hc|right; lia]|lia]. }
  destruct (Z.eqb_spec n2 (fns + pad4 (fns + 2))) as [->|Hn2]; cbn [negb].
  2:{ cbn [safe i_size]. do 5 (split; [assumption|]). congruence. }
  assert (cr \/ 1 <= fns /\ fns <= zlen b2 /\ zget b2 (fns - 1) = Some 0) as Hname.
  { destruct Hf2 as [(Hc & _)|(F0 & F1 & F2 & F3 & full & Ef & F4)]; [left; exact Hc|right]. rewrite Ef in T5. cbn [data_at] in T5. split; [exact F1|]. pose proof (pad4_nonneg (fns + 2) ltac:(lia)). assert (fns <= zlen b2) as Hbl by lia. split; [exact Hbl|].
    destruct (tm_pos _ _ _ _ _ _ HT p2 T1) as (_ & Hp2). rewrite Ef in Hp2. cbn [in_content] in Hp2. rewrite T7 in Hp2 by lia. rewrite T5, zget_slice by lia.
    destruct (Z.leb_spec 0 (fns - 1)), (Z.ltb_spec (fns - 1) (zlen b2)); try lia. cbn [andb]. rewrite <- F4 by lia. f_equal. lia. }
  eapply safe_bind with (Q := fun b3 => cr \/ In 0 b3).
  { destruct (Z.ltb_spec 2 (fns - 1)) as [L|L].
    2:{ cbn [safe]. destruct Hname as [Hc|(_ & _ & HH)]; [left; exact Hc|right; exact (zget_In _ _ _ HH)]. }
    destruct Hname as [Hc|(_ & H1 & H2)].
    { destruct b2 as [|b0 [|b1 r]]; [exact Hc|destruct (b0 =? 46); [exact Hc|left; exact Hc]|left; exact Hc]. }
    destruct b2 as [|b0 [|b1 r]]; [change (zlen (@nil Z)) with 0 in H1; lia|change (zlen [b0]) with 1 in H1; lia|]. cbn [safe]. right.
    assert (In 0 r) as Hr by (rewrite !zget_cons in H2; destruct (Z.eqb_spec (fns - 1) 0), (Z.ltb_spec (fns - 1) 0); try lia; destruct (Z.eqb_spec (fns - 1 - 1) 0), (Z.ltb_spec (fns - 1 - 1) 0); try lia; exact (zget_In _ _ _ H2)).
    destruct (_ && _); [exact Hr|right; right; exact Hr]. }
  intros b3 Hb3. eapply safe_bind; [apply upto_nul_safe; exact Hb3|]. intros name _. cbn [safe i_size].
  do 5 (split; [assumption|]). intros _. split; [lia|]. destruct Hf2 as [Hc|Hf2]; [left; exact Hc|right; lia].
Qed.

(** an entry of unknown size (size field -1): it extends to the end of the archive *)
Definition uI (off : Z) (s : sub P) : Prop :=
  I (su_par s) /\ su_off s = off /\ 0 <= off <= o_pos par (su_par s) /\ (su_size s = -1 \/ 1 <= su_size s) /\
  (su_st s <> Error -> 0 <= su_pos s \/ su_size s = -1 /\ su_pos s = -1 /\ o_pos par (su_par s) = B).
Lemma u_exec off s c : cr -> neg -> lim = INT32_MAX -> uI off s -> su_st s <> Error -> any_call lim c ->
  safe cr (exec (sub_ops par) s c) (fun '(s', ob) => uI off s' /\ ob_st ob = su_st s').
Proof.
  intros Hcr Hneg Hl (H1 & H2 & H3 & H4 & H5) Hst Hc. specialize (H5 Hst). destruct c as [mn mx|n|q]; cbn [exec sub_ops o_read o_skip o_reset any_call] in *.
  - eapply safe_bind with (Q := fun '(s', _, _) => uI off s'); [|intros ((s' & n) & d) H; split; [exact H|reflexivity]]. unfold sub_read.
    assert (forall mn' mx', INT32_MIN <= mn' <= INT32_MAX -> INT32_MIN <= mx' <= INT32_MAX -> (1 <= mn' \/ 2 <= su_pos s) -> safe cr (sub_read_body par s mn' mx') (fun '(s', _, _) => uI off s')) as Hbody.
    { intros mn' mx' A1 A2 A3. unfold sub_read_body. eapply safe_bind; [apply (tm_read _ _ _ _ _ _ HT _ mn' mx' H1); lia|].
      intros ((p & n) & d) (R1 & R2 & R3 & R4 & R5 & R6 & R7 & R8 & R9).
      pose proof (HB p R1) as Hp1.
      destruct (negb _); [exact Hcr|].
      destruct (Z.ltb_spec n (-1)); [cbn [safe]; unfold uI; cbn; split; [exact R1|]; split; [exact H2|]; split; [lia|]; split; [exact H4|congruence]|].
      destruct (Z.ltb_spec n mn').
      - destruct (su_size s =? -1); [|cbn [safe]; unfold uI; cbn; split; [exact R1|]; split; [exact H2|]; split; [lia|]; split; [exact H4|congruence]].
        destruct (Z.ltb_spec 0 n); cbn [safe]; unfold uI; cbn; (split; [exact R1|]; split; [exact H2|]; split; [lia|]); split; try lia; exact H4.
      - cbn [safe]; unfold uI; cbn; split; [exact R1|]; split; [exact H2|]; split; [lia|]; split; [exact H4|lia]. }
    destruct (Z.eqb_spec (su_size s) (-1)) as [E|E]; [apply Hbody; unfold INT32_MIN, INT32_MAX in *; lia|].
    destruct (Z.eqb_spec (su_size s - su_pos s) 0); [cbn [safe]; unfold uI; cbn; split; [exact H1|]; split; [exact H2|]; split; [lia|]; split; [exact H4|lia]|].
    cbv zeta. set (mn' := if su_size s - su_pos s <? mn then wrap32 (su_size s - su_pos s) else mn).
    assert (INT32_MIN <= mn' <= INT32_MAX /\ (1 <= mn' \/ 2 <= su_pos s)) as (M1 & M2).
    { unfold mn'. destruct (Z.ltb_spec (su_size s - su_pos s) mn); [|unfold INT32_MIN, INT32_MAX in *; lia]. split; [apply wrap32_range|].
      destruct (Z.lt_ge_cases (su_size s - su_pos s) 0); [lia|]. rewrite wrap32_id by (unfold INT32_MIN, INT32_MAX in *; lia). lia. }
    clearbody mn'. apply Hbody; [exact M1| |exact M2]. destruct (_ || _); [apply wrap32_range|lia].
  - eapply safe_bind with (Q := fun '(s', _) => uI off s'); [|intros (s' & k) H; split; [exact H|reflexivity]]. unfold sub_skip.
    destruct (Z.eqb_spec (su_size s) (su_pos s)) as [E|E]; [cbn [safe]; unfold uI; cbn; tauto|].
    destruct (n =? 0); [cbn [safe]; unfold uI; tauto|]. cbv zeta.
    eapply safe_bind; [apply (tm_skip _ _ _ _ _ _ HT _ _ H1); right; exact Hneg|]. intros (p & k) (R1 & R2 & R3 & R4 & R5). assert (k < 0 -> o_status par p = Error \/ o_pos par p = B) as R5' by (intros Q; destruct (R5 Hneg Q) as [Q1|Q1]; [left; exact Q1|right; apply HBe; exact Q1]); clear R5; rename R5' into R5.
    destruct (is_error (o_status par p)) eqn:Ee; [cbn [safe]; unfold uI; cbn; split; [exact R1|]; split; [exact H2|]; split; [lia|]; split; [exact H4|congruence]|].
    assert (o_status par p <> Error) as Ee' by (intros Q; rewrite Q in Ee; discriminate).
    destruct (Z.eqb_spec (su_pos s + k) (su_size s)) as [E2|E2].
    { cbn [safe]; unfold uI; cbn; split; [exact R1|]; split; [exact H2|]; split; [lia|]. destruct H4 as [H4|H4]; [|split; [right; exact H4|lia]].
      split; [left; exact H4|]. intros _. right. split; [exact H4|]. split; [lia|]. destruct R5 as [R5|R5]; [lia|congruence|exact R5]. }
    destruct (Z.leb_spec k 0); cbn [safe]; unfold uI; cbn; (split; [exact R1|]; split; [exact H2|]; split; [lia|]; split; [exact H4|]); [congruence|lia].
  - eapply safe_bind with (Q := fun '(s', _) => uI off s'); [|intros (s' & k) H; split; [exact H|reflexivity]]. unfold sub_reset.
    destruct (Z.ltb_spec q 0); [lia|]. eapply safe_bind; [apply (tm_reset _ _ _ _ _ _ HT _ (q + su_off s) H1); lia|]. intros (p & r) (R1 & R2). rewrite H2 in *.
    destruct (Z.ltb_spec r off); cbn [safe]; unfold uI; cbn; (split; [exact R1|]; split; [reflexivity|]; split; [lia|]; split; [exact H4|]); [congruence|lia].
Qed.
Lemma u_run off i h : cr -> neg -> lim = INT32_MAX -> Forall (within lim i) h -> forall s, uI off s -> su_st s <> Error -> safe cr (run (sub_ops par) s h) (fun '(s', _) => uI off s').
Proof.
  intros Hcr Hneg Hl. induction 1 as [|c h Hc _ IH]; intros s HI Hst; cbn [run]; [exact HI|].
  destruct Hc as (Hc & _). eapply safe_bind; [exact (u_exec off s c Hcr Hneg Hl HI Hst Hc)|].
  intros (s' & ob) (R1 & R2). rewrite R2. destruct (is_error (su_st s')) eqn:E; [exact R1|].
  eapply safe_bind; [apply IH; [exact R1|intros Q; rewrite Q in E; discriminate]|]. intros (s2 & obs) R. exact R.
Qed.
Definition cpio_sub (off : Z) (s : sub P) : Prop :=
  (exists size, sub_I par I off size s /\ 0 <= off /\ 0 <= size < 4294967296) \/ (neg /\ uI off s).
Lemma cpio_sub_facts off s : cpio_sub off s -> I (su_par s) /\ su_off s = off /\ 0 <= off <= o_pos par (su_par s).
Proof. intros [(size & (H1 & H2 & H3 & H4 & _) & H5 & _)|(_ & H1 & H2 & H3 & _)]; auto. Qed.
Lemma cpio_drain_safe fuel : forall off s, cpio_sub off s -> B < o_pos par (su_par s) + Z.of_nat fuel ->
  safe cr (cpio_drain par fuel s) (fun s' => cpio_sub off s').
Proof.
  induction fuel as [|f IH]; intros off s HS Hf; cbn [cpio_drain].
  { destruct (cpio_sub_facts _ _ HS) as (H1 & _). pose proof (HB _ H1) as H2. lia. }
  destruct (su_st s) eqn:Est; try exact HS.
  assert (f = 0%nat -> o_pos par (su_par s) = B) as Hf0.
  { intros ->. destruct (cpio_sub_facts _ _ HS) as (H1 & _). pose proof (HB _ H1) as H2. lia. }
  eapply safe_bind with (Q := fun '(s', _) => cpio_sub off s' /\ (su_st s' = Ok -> o_pos par (su_par s) < o_pos par (su_par s'))).
  { destruct HS as [(size & HS & Ho & Hz)|(Hneg & HU)].
    - assert (HS' := HS). destruct HS' as (S1 & S2 & S3 & S4 & S5 & S6). destruct (S6 ltac:(congruence)) as (S7 & S8).
      destruct (Z.eq_dec (su_size s) (su_pos s)) as [Ez|Ez].
      { unfold sub_skip. rewrite Ez, Z.eqb_refl. cbn [safe su_st]. split; [|congruence]. left. exists size. split; [|tauto]. unfold sub_I; cbn.
        split; [exact S1|]. split; [exact S2|]. split; [congruence|]. split; [exact S4|]. split; [lia|]. intros _; lia. }
      eapply safe_impl; [apply (sub_skip_tame par content lim cr neg I HT) with (off := off) (size := size); [lia|exact HS|congruence|lia]|tauto|].
      intros (s' & k) (T1 & T2). split; [left; exists size; tauto|]. intros Hst. assert (T1' := T1). destruct T1' as (U1 & U2 & U3 & U4 & U5 & U6).
      destruct (U6 ltac:(congruence)) as (U7 & U8). rewrite U8, S8. assert (su_size s <> 0) as E0 by lia. specialize (T2 Hst E0). lia.
    - destruct HU as (H1 & H2 & H3 & H4 & H5). specialize (H5 ltac:(congruence)). unfold sub_skip.
      destruct (Z.eqb_spec (su_size s) (su_pos s)) as [E|E]; [cbn [safe su_st]; split; [right; split; [exact Hneg|]; unfold uI; cbn; tauto|congruence]|].
      destruct (Z.eqb_spec (su_size s) 0); [lia|]. cbv zeta.
      eapply safe_bind; [apply (tm_skip _ _ _ _ _ _ HT _ _ H1); right; exact Hneg|]. intros (p & k) (R1 & R2 & R3 & R4 & R5). assert (k < 0 -> o_status par p = Error \/ o_pos par p = B) as R5' by (intros Q; destruct (R5 Hneg Q) as [Q1|Q1]; [left; exact Q1|right; apply HBe; exact Q1]); clear R5; rename R5' into R5.
      destruct (is_error (o_status par p)) eqn:Ee; [cbn [safe su_st]; split; [right; split; [exact Hneg|]; unfold uI; cbn; split; [exact R1|]; split; [exact H2|]; split; [lia|]; split; [exact H4|congruence]|congruence]|].
      assert (o_status par p <> Error) as Ee' by (intros Q; rewrite Q in Ee; discriminate).
      destruct (Z.eqb_spec (su_pos s + k) (su_size s)) as [E2|E2].
      { cbn [safe su_st]. split; [|congruence]. right. split; [exact Hneg|]. unfold uI; cbn; split; [exact R1|]; split; [exact H2|]; split; [lia|]. destruct H4 as [H4|H4]; [|split; [right; exact H4|lia]].
        split; [left; exact H4|]. intros _. right. split; [exact H4|]. split; [lia|]. destruct R5 as [R5|R5]; [lia|congruence|exact R5]. }
      destruct (Z.leb_spec k 0); cbn [safe su_st su_par].
      { split; [|congruence]. right. split; [exact Hneg|]. unfold uI; cbn. split; [exact R1|]; split; [exact H2|]; split; [lia|]; split; [exact H4|congruence]. }
      split; [right; split; [exact Hneg|]; unfold uI; cbn; split; [exact R1|]; split; [exact H2|]; split; [lia|]; split; [exact H4|lia]|].
      intros _. rewrite R3; [lia|exact Ee']. }
  intros (s' & k) (T1 & T2). destruct (su_st s') eqn:Es'; [|destruct f; cbn [cpio_drain]; rewrite Es'; exact T1|destruct f; cbn [cpio_drain]; rewrite Es'; exact T1].
  apply IH; [exact T1|]. specialize (T2 eq_refl). lia.
Qed.

Definition cpio_inv (a : cpio P) : Prop := 0 <= c_pad a <= 7 /\ -1 <= i_size (c_info a) <= INT32_MAX /\
  match c_cur a with inl p => I p | inr s => exists off, cpio_sub off s end.
Definition cpio_in (a : cpio P) : Prop := I (match c_cur a with inl p => p | inr s => su_par s end).
Lemma cpio_inv_in a : cpio_inv a -> cpio_in a.
Proof. unfold cpio_inv, cpio_in. intros (_ & _ & H). destruct (c_cur a) as [p|s]; [exact H|]. destruct H as (off & H). apply (cpio_sub_facts _ _ H). Qed.
Definition cpio_base (a : cpio P) : Z := match c_cur a with inl p => o_pos par p | inr s => su_off s end.
Lemma cpio_base_le a : cpio_inv a -> 0 <= cpio_base a <= B.
Proof.
  unfold cpio_inv, cpio_base. intros (_ & _ & H). destruct (c_cur a) as [p|s].
  - destruct (tm_pos _ _ _ _ _ _ HT p H) as (H1 & _). pose proof (HB _ H) as H2. lia.
  - destruct H as (off & H). destruct (cpio_sub_facts _ _ H) as (H1 & H2 & H3). destruct (tm_pos _ _ _ _ _ _ HT _ H1) as (H7 & _). pose proof (HB _ H1) as H8. lia.
Qed.
Lemma cpio_ends_from fuel : B < Z.of_nat fuel -> forall k a, cpio_inv a -> B < Z.of_nat k ->
  ends_in cr (cpio_provider par fuel) (within lim) cpio_in k a.
Proof.
  intros Hf k a Ha Hk. apply ends_inv_in with (Inv := cpio_inv) (mu := fun a => B - cpio_base a); [|exact Ha|pose proof (cpio_base_le a Ha); lia].
  clear k a Ha Hk. intros a Ha. pose proof (cpio_base_le a Ha) as Hb. split; [lia|]. cbn [cpio_provider pv_next pv_entry]. unfold cpio_next.
  destruct (c_st a) eqn:Est; try (cbn [safe]; apply cpio_inv_in in Ha; unfold cpio_in in *; cbn [c_cur]; destruct (c_cur a); exact Ha).
  destruct Ha as (Hpad & Hsz & Ha).
  eapply safe_bind with (Q := fun p => I p /\ cpio_base a <= o_pos par p).
  { unfold cpio_base in *. destruct (c_cur a) as [p|s]; [cbn [safe]; split; [exact Ha|lia]|].
    destruct Ha as (off & HS). destruct (cpio_sub_facts _ _ HS) as (F1 & F2 & F3).
    eapply safe_bind; [apply (cpio_drain_safe fuel off s HS); lia|]. intros s' HS'. destruct (cpio_sub_facts _ _ HS') as (G1 & G2 & G3).
    destruct (c_pad a =? 0); [cbn [safe]; split; [exact G1|lia]|].
    eapply safe_bind; [apply (tm_skip _ _ _ _ _ _ HT _ (c_pad a) G1); left; lia|]. intros (p & k2) (U1 & U2 & _). cbn [safe]. split; [exact U1|lia]. }
  intros p (HIp & Hp).
  eapply safe_bind; [apply cpio_header_safe; [exact HIp|exact Hpad|exact Hsz]|]. intros (((p2 & inf) & pad2) & st) (R1 & R2 & R3 & R4 & R5 & R6).
  unfold sub_new. destruct (Z.ltb_spec (i_size inf) (-1)) as [L|L]; [cbn [bind safe]; destruct R4; [assumption|lia]|]. cbn [bind].
  destruct st; try (cbn [safe]; exact R1). destruct (R6 eq_refl) as (R7 & R8). cbn [safe]. intros h Hh. unfold cpio_entry. cbn [c_cur].
  destruct (tm_pos _ _ _ _ _ _ HT p HIp) as (Hp0 & _).
  eapply safe_bind with (Q := fun '(s', _) => cpio_sub (o_pos par p2) s').
  { destruct (Z.eq_dec (i_size inf) (-1)) as [Em|Em].
    - destruct R8 as [(Hcr & Hl & Hneg)|R8]; [|lia].
      eapply safe_impl; [apply (u_run (o_pos par p2)) with (i := inf); [exact Hcr|exact Hneg|exact Hl|exact Hh| |cbn; congruence]|tauto|].
      + unfold uI. cbn. split; [exact R1|]. split; [reflexivity|]. split; [lia|]. split; [left; exact Em|lia].
      + intros (s' & o) H. right. split; [exact Hneg|exact H].
    - eapply safe_impl; [apply (sub_run_tame par content lim cr neg I HT) with (off := o_pos par p2) (size := i_size inf) (i := inf);
        [lia|lia|unfold INT32_MAX in *; lia|reflexivity|exact Hh| |cbn; congruence]|tauto|].
      + unfold sub_I. cbn. split; [exact R1|]. split; [reflexivity|]. split; [reflexivity|]. split; [lia|]. split; [lia|]. intros _; lia.
      + intros (s' & o) H. left. exists (i_size inf). split; [exact H|]. unfold INT32_MAX in *; lia. }
  intros (s' & obs) HS'. cbn [safe]. unfold cpio_inv, cpio_base. cbn [c_cur c_pad c_info].
  destruct (cpio_sub_facts _ _ HS') as (G1 & G2 & G3). split; [|unfold cpio_base in *; lia].
  split; [exact R3|]. split; [lia|]. exists (o_pos par p2). exact HS'.
Qed.
Theorem cpio_safe_in p fuel k : I p -> B < Z.of_nat fuel -> B < Z.of_nat k -> ends_in cr (cpio_provider par fuel) (within lim) cpio_in k (cpio_new p).
Proof. intros HI Hf Hk. apply cpio_ends_from; [exact Hf| |exact Hk]. split; [cbn; lia|]. split; [cbn; unfold INT32_MAX; lia|exact HI]. Qed.
Theorem cpio_safe p fuel k : I p -> B < Z.of_nat fuel -> B < Z.of_nat k -> ends cr (cpio_provider par fuel) (within lim) k (cpio_new p).
Proof. intros HI Hf Hk. eapply ends_in_ends. apply cpio_safe_in; assumption. Qed.
End Cpio.
Theorem cpio_safe_content {P} (par : ops P Z) (full : list Z) (lim : Z) (cr neg : Prop) (I : P -> Prop) : Tame par (Some full) lim cr neg I -> 110 <= lim <= INT32_MAX ->
  (cr /\ lim = INT32_MAX /\ neg) \/ cpio_sane lim full ->
  forall p fuel k, I p -> zlen full < Z.of_nat fuel -> zlen full < Z.of_nat k -> ends cr (cpio_provider par fuel) (within lim) k (cpio_new p).
Proof.
  intros HT Hl Hs p fuel k HI. apply (cpio_safe par (Some full) (zlen full) lim cr neg I HT); [|auto|exact Hl| |exact HI].
  - intros q Hq. apply (tm_pos _ _ _ _ _ _ HT q Hq).
  - destruct Hs as [Hs|Hs]; [left; exact Hs|right; exists full; auto].
Qed.
