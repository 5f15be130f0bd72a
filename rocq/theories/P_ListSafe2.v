(** Going through the files in a file of arbitrary bytes ends (C55). *)
From Verif Require Import Base StreamSpec P_Stream M_StringStream M_Buffered BufferedSpec M_Inflate InflateSpec M_Lzma LzmaSpec M_Sub ArchiveSpec M_Text M_Kmp M_Detect P_Detect DetectSpec
  M_Ar M_Tar M_Zip M_Sdf CacheSpec M_Cache M_Listing M_Open M_ListReal.
From Verif Require Import P_Tame P_TameLayer P_SafeAr P_SafeTar P_SafeZip P_SafeSdf P_EntrySafe P_OpenSafe P_ListSafe1.

Lemma ends_at_weaken {St} cr (pv : provider St) C (E E' : info -> St -> Prop) (Q Q' : St -> Prop) : (forall i st, E i st -> E' i st) -> (forall st, Q st -> Q' st) ->
  forall k st, ends_at cr pv C E Q k st -> ends_at cr pv C E' Q' k st.
Proof.
  intros HE HQ. induction k as [|k IH]; intros st; cbn [ends_at]; [tauto|]. intros H. eapply safe_impl; [exact H|tauto|].
  intros (st1 & [i|]); [|apply HQ]. intros (H1 & H2). split; [apply HE; exact H1|]. intros h Hh. eapply safe_impl; [apply H2; exact Hh|tauto|]. intros (st2 & o). apply IH.
Qed.
Lemma entry_good_le {St} (pv : provider St) cr lim b b' i st : entry_good pv cr lim b i st -> b <= b' -> entry_good pv cr lim b' i st.
Proof.
  intros (X & e & x0 & J & wrap & bq & H1 & H2 & H3 & H4 & [H5 H5'] & H6) L. exists X, e, x0, J, wrap, bq. do 4 (split; [assumption|]). split; [|exact H6]. split; [|exact H5'].
  intros x HJ Hs. specialize (H5 x HJ Hs). lia.
Qed.
(** a provider at an entry: the entry is fine, and at most [k] further ones follow *)
Definition good {St} (b : Z) (k : nat) (pv : provider St) (st : St) (i : info) : Prop :=
  entry_good pv True INT32_MAX b i st /\
  forall h, Forall (within INT32_MAX i) h -> safe True (pv_entry pv st h) (fun '(st2, _) => ends_at True pv (within INT32_MAX) (entry_good pv True INT32_MAX b) (fun _ => True) k st2).
Definition opened_good {R} (b : Z) (k : nat) (o : opened R) : Prop := match o with NoArchive _ => True | Found pv st i _ => good b k pv st i end.

Section Open.
Context {R Dg Db Dl Dz : Type}.
Variables (cg : codec Dg) (cb : codec Db) (cl : lzcodec Dl) (cz : codec Dz).
Variables (X : Z) (DIg : Dg -> Z -> Z -> Prop) (DIb : Db -> Z -> Z -> Prop) (DIl : Dl -> Z -> Z -> Prop) (DIz : Dz -> Z -> Z -> Prop).
Hypothesis Hg : sane_codec cg X DIg.
Hypothesis Hb : sane_codec cb X DIb.
Hypothesis Hl : sane_lzcodec cl X DIl.
Hypothesis Hz : sane_codec cz X DIz.
Hypothesis HX : 0 <= X.
Variables (bufsize : Z) (gas : nat) (alloc_ok : bool) (mktime : tm -> Z) (fuel k : nat).
Hypothesis Hbuf : 0 <= bufsize <= BUF_LIM.
Definition nx (B : Z) : Z := X * (B + 1).
Section Level.
Variable Bf : Z.
Hypothesis HBf : 0 <= Bf.
Hypothesis Hgas : Bf <= Z.of_nat gas.
Hypothesis Hfuel : Bf + 2 < Z.of_nat fuel /\ X * (Bf + 1) < Z.of_nat fuel.
Hypothesis Hk : Bf + 2 < Z.of_nat k /\ X * (Bf + 1) < Z.of_nat k.
Notation Be := (Z.max Bf (nx Bf)).
Definition begins_good {St P} (pv : provider St) (inp : St -> P) (I : P -> Prop) (ss : St) : Prop :=
  safe True (pv_next pv ss) (fun '(st, r) => match r with None => I (inp st) | Some i => good Be k pv st i end).
Definition sub_good_ok (sb : sub_type) : Prop := (forall c, KmpSpec.bytes c -> runs (su_check sb c)) /\
  forall P (par : ops P Z) content B I hi p, openable False par content B I hi -> B <= Bf -> I p -> safe True (su_make sb P par p) (begins_good (su_pv sb P par) (su_input sb P) I).
Lemma begins_at {St P} (pv : provider St) (inp : St -> P) (I : P -> Prop) b ss (Q : St -> Prop) : b <= Be -> (forall st, Q st -> I (inp st)) ->
  ends_at True pv (within INT32_MAX) (entry_good pv True INT32_MAX b) Q (S k) ss -> begins_good pv inp I ss.
Proof.
  intros Lb HQ. cbn [ends_at]. intros H. unfold begins_good. eapply safe_impl; [exact H|tauto|]. intros (st & [i|]); [|apply HQ]. intros (He & Hc). split; [eapply entry_good_le; eassumption|].
  intros h Hh. eapply safe_impl; [apply Hc; exact Hh|tauto|]. intros (st2 & o). apply ends_at_weaken; [|auto]. intros i0 s0 H0. eapply entry_good_le; eassumption.
Qed.
Lemma mul_le' b : 0 <= b <= Bf -> X * (b + 1) <= X * (Bf + 1).
Proof. intros H. apply Z.mul_le_mono_nonneg_l; lia. Qed.
Lemma ar_good : sub_good_ok (sub_ar fuel).
Proof.
  split; [intros c _; destruct (ar_check_ok c) as (b & E & _); eapply runs_ret; exact E|]. intros P par content B I hi p HO HB HI. cbn [sub_ar su_make su_pv su_input].
  eapply safe_impl; [apply (ar_safe_in par content B True _ I (proj1 HO) (o_bound _ par content B I hi HO) p fuel (S k) HI); lia|tauto|]. intros a Ha.
  apply (begins_at _ _ _ B a (ar_in I)); [lia|intros st H; exact H|]. eapply ends_at_weaken; [|intros st H; exact H|exact Ha]. intros i st H. apply H. apply HO.
Qed.
Lemma tar_good : sub_good_ok (sub_tar fuel).
Proof.
  split; [intros c _; destruct (tar_check_ok c) as (b & E & _); eapply runs_ret; exact E|]. intros P par content B I hi p HO HB HI. cbn [sub_tar su_make su_pv su_input safe].
  eapply begins_at; [exact (Z.le_trans _ _ _ HB (Z.le_max_l _ _))| |eapply ends_at_weaken; [| |apply (tar_safe_in par content B INT32_MAX True _ I (proj1 HO) (o_bound _ par content B I hi HO)); [unfold INT32_MAX; lia|right; split; [exact Logic.I|reflexivity]|exact HI|lia|lia]]].
  2: intros i st H; apply H; apply HO. 2: intros st H; exact H. intros st H; exact H.
Qed.
Lemma zip_good : sub_good_ok (sub_zip bufsize gas cz mktime fuel).
Proof.
  split; [intros c _; destruct (zip_check_ok c) as (b & E & _); eapply runs_ret; exact E|]. intros P par content B I hi p HO HB HI. cbn [sub_zip su_make su_pv su_input safe].
  pose proof (mul_le' B ltac:(split; [apply HO|exact HB])).
  eapply begins_at; [| |eapply ends_at_weaken; [| |apply (zip_safe_in cz X DIz Hz HX par content B INT32_MAX True _ I (proj1 HO) (o_bound _ par content B I hi HO)); [unfold INT32_MAX; split; [lia|auto]|left; exact Logic.I|exact Hbuf|lia|lia|exact HI|lia]]].
  3: intros i st Hi; apply Hi; [exact Logic.I|apply HO]. 3: intros st Hi; exact Hi. 2: intros st Hi; exact Hi. unfold nx. lia.
Qed.
Lemma sdf_good : sub_good_ok (sub_sdf fuel).
Proof.
  split; [intros c Hc; destruct (sdf_check_ok c Hc) as (b & E & _); eapply runs_ret; exact E|]. intros P par content B I hi p HO HB HI. cbn [sub_sdf su_make su_pv su_input].
  destruct (sdf_safe_in par content B _ I (proj1 HO) (o_bound _ par content B I hi HO) (proj1 (proj2 (proj2 (proj2 HO)))) fuel (S k) p ltac:(lia) ltac:(lia) HI) as (a & E & H). rewrite E. cbn [safe].
  apply (begins_at _ _ _ B a (sdf_in I)); [lia|intros st Hi; exact Hi|exact H].
Qed.
Lemma try_subs_good {P} (par : ops P Z) content B I hi (inp : P -> R) : openable False par content B I hi -> B <= Bf -> forall subs, Forall sub_good_ok subs -> forall p c, I p -> KmpSpec.bytes c ->
  safe True (try_subs subs par p inp c) (opened_good Be k).
Proof.
  intros HO HB. induction 1 as [|sb subs Hsb _ IH]; intros p c HI Hc; cbn [try_subs]; [exact Logic.I|].
  destruct Hsb as (Hchk & Hsb). eapply safe_bind; [apply (Hchk c Hc)|]. intros is _. destruct is; [|apply IH; assumption].
  eapply safe_bind; [apply (Hsb P par content B I hi p HO HB HI)|]. intros ss Hss. eapply safe_bind; [exact Hss|]. intros (st & [i|]) Hst; [exact Hst|].
  eapply safe_bind; [apply (tm_reset _ _ _ _ _ _ (proj1 HO) _ 0 Hst); lia|]. intros (p2 & r) (I2 & _).
  eapply safe_bind; [apply (peek_safe _ gas par content B I hi HO p2 1 I2); unfold INT32_MAX; lia|]. intros ((p3 & n) & c3) (I3 & Hc3). apply IH; assumption.
Qed.
Lemma open_good subs B (x : anystream R) : Forall sub_good_ok subs -> ok_any False B x -> layers nx 99 B <= Bf -> safe True (open_archive cg cb cl bufsize gas alloc_ok subs x) (opened_good Be k).
Proof.
  intros Hs Hx HB. unfold open_archive. eapply safe_bind; [apply (unwrap_safe False cg cb cl X DIg DIb DIl Hg Hb Hl HX bufsize gas alloc_ok Hbuf nx) with (B := B)|].
  - intros b H. apply Z.mul_nonneg_nonneg; lia.
  - intros b b' H. apply Z.mul_le_mono_nonneg_l; lia.
  - intros d u o b HD Hu. transitivity (X * (u + 1)); [exact (sc_bound _ _ _ Hg _ _ _ HD)|apply Z.mul_le_mono_nonneg_l; lia].
  - intros d u o b HD Hu. transitivity (X * (u + 1)); [exact (sc_bound _ _ _ Hb _ _ _ HD)|apply Z.mul_le_mono_nonneg_l; lia].
  - intros d u o b HD Hu. transitivity (X * (u + 1)); [exact (sl_bound _ _ _ Hl _ _ _ HD)|apply Z.mul_le_mono_nonneg_l; lia].
  - exact Hx.
  - change (3 * 33)%nat with 99%nat. lia.
  - change (3 * 33)%nat with 99%nat. intros [P par p inp] (content & B' & I & hi & HO & HB' & HI).
    eapply safe_bind; [apply (peek_safe _ gas par content B' I hi HO p 1024 HI); unfold INT32_MAX; lia|]. intros ((p1 & n) & c) (I1 & Hc). apply (try_subs_good par content B' I hi inp HO); [lia|exact Hs|exact I1|exact Hc].
Qed.
End Level.
End Open.
