(** rpm files of arbitrary bytes: iteration ends. *)
From Verif Require Import Base StreamSpec P_Stream M_Buffered BufferedSpec M_Inflate InflateSpec M_Lzma LzmaSpec M_Sub ArchiveSpec M_Text M_Kmp M_Detect M_Ar M_Cpio M_Rpm.
From Verif Require Import P_Buffered P_Tame P_TameBuf P_TameZ P_TameLz P_TameLayer P_SafeZip P_SafeCpio.

Lemma cpio_next_ok {P} (par : ops P Z) fuel c c1 i : cpio_next par fuel c = Ret (c1, Some i) -> c_st c1 = Ok.
Proof.
  unfold cpio_next. destruct (c_st c); try discriminate.
  match goal with |- bind ?x _ = _ -> _ => destruct x as [p| | |]; cbn [bind]; try discriminate end.
  destruct (cpio_header par p (c_info c) (c_pad c)) as [(((p2 & inf) & pad) & st)| | |]; cbn [bind]; try discriminate.
  destruct (sub_new par p2 (i_size inf)); cbn [bind]; try discriminate. destruct st; try discriminate. intros E. injection E as <- _. reflexivity.
Qed.

Section Rpm.
Context {P Dg Db Dl : Type}.
Variables (par : ops P Z) (big : bool) (cg : codec Dg) (cb : codec Db) (cl : lzcodec Dl).
Variables (X : Z) (DIg : Dg -> Z -> Z -> Prop) (DIb : Db -> Z -> Z -> Prop) (DIl : Dl -> Z -> Z -> Prop).
Hypothesis Hg : sane_codec cg X DIg.
Hypothesis Hb : sane_codec cb X DIb.
Hypothesis Hl : sane_lzcodec cl X DIl.
Hypothesis HX : 0 <= X.
Variables (content : option (list Z)) (B : Z) (neg : Prop) (I : P -> Prop).
Hypothesis HT : Tame par content INT32_MAX True neg I.
Hypothesis HB : forall p, I p -> o_pos par p <= B.
Hypothesis Hcap : X * (B + 1) <= INT64_MAX.
Variables (bufsize : Z) (gas fuel : nat) (alloc_ok : bool).
Hypothesis Hbuf : 0 <= bufsize <= BUF_LIM.
Hypothesis Hgas : B <= Z.of_nat gas.
Hypothesis Hfuel : X * (B + 1) < Z.of_nat fuel.

Lemma section_safe p : I p -> safe True (rpm_section par big p) (fun '(p', _) => I p').
Proof.
  intros HI. unfold rpm_section. eapply safe_bind; [apply (rd par content neg I HT); [exact HI|unfold INT32_MIN, INT32_MAX; lia..]|]. intros ((p1 & n) & b) H1.
  destruct (negb _); [exact H1|]. eapply safe_bind; [apply memeq_runs|]. intros m _. destruct (negb m); [exact H1|].
  eapply safe_bind; [apply be32_runs|]. intros ni _. eapply safe_bind; [apply be32_runs|]. intros hs _. exact H1.
Qed.
Lemma open_safe p : I p -> safe True (rpm_open par big p) (fun '(p', _) => I p').
Proof.
  intros HI. unfold rpm_open. eapply safe_bind; [apply (rd par content neg I HT); [exact HI|unfold INT32_MIN, INT32_MAX; lia..]|]. intros ((p1 & n) & b) H1.
  destruct (negb _); [exact H1|]. eapply safe_bind; [apply section_safe; exact H1|]. intros (p2 & [(ni & hs)|]) H2; [|exact H2].
  eapply safe_bind; [apply chk_any; exact Logic.I|]. intros m _. eapply safe_bind; [apply chk_any; exact Logic.I|]. intros sz0 (-> & Hs0).
  eapply safe_bind with (Q := fun sz => INT32_MIN <= sz <= INT32_MAX).
  { destruct (_ =? 0); [exact Hs0|]. eapply safe_impl; [apply chk_any; exact Logic.I|tauto|]. intros v (-> & Hv). exact Hv. }
  intros sz Hsz. eapply safe_bind; [apply (rd par content neg I HT); [exact H2|exact Hsz|exact Hsz]|]. intros ((p3 & n3) & b3) H3.
  destruct (negb _); [exact H3|]. eapply safe_bind; [apply section_safe; exact H3|]. intros (p4 & [(ni4 & hs4)|]) H4; [|exact H4].
  eapply safe_bind; [apply chk_any; exact Logic.I|]. intros m4 _. eapply safe_bind; [apply chk_any; exact Logic.I|]. intros sz4 (-> & Hs4).
  eapply safe_bind; [apply (rd par content neg I HT); [exact H4|exact Hs4|exact Hs4]|]. intros ((p5 & n5) & b5) H5. destruct (negb _); [exact H5|].
  eapply safe_bind; [apply rpm_index_runs|]. intros ok _. destruct (negb ok); [exact H5|]. cbv zeta.
  eapply safe_bind; [apply (rd par content neg I HT); [exact H5|unfold INT32_MIN, INT32_MAX; lia..]|]. intros ((p6 & n6) & b6) H6. destruct (negb _); [exact H6|].
  destruct (tm_pos _ _ _ _ _ _ HT p5 H5) as (Hp5 & _).
  eapply safe_bind; [apply (tm_reset _ _ _ _ _ _ HT p6 (o_pos par p5) H6 Hp5)|]. intros (p7 & r) (H7 & _).
  eapply safe_bind; [apply bz2_check_runs|]. intros z _. destruct z; [exact H7|].
  eapply safe_bind; [apply lzma_check_runs|]. intros l _. destruct l; [exact H7|].
  eapply safe_bind; [apply gzip_check_runs|]. intros g _. exact H7.
Qed.
Definition cin {S} (g : S -> P) (a : cpio (bstream S Z)) : Prop := I (g (bs_src (match c_cur a with inl p => p | inr s => su_par s end))).
Lemma ends_in_impl {St} (pv : provider St) C (Q R : St -> Prop) : (forall st, Q st -> R st) -> forall k st, ends_in True pv C Q k st -> ends_in True pv C R k st.
Proof.
  intros H. induction k as [|k IH]; intros st; cbn [ends_in]; [tauto|]. intros E. eapply safe_impl; [exact E|tauto|].
  intros (st1 & [i|]); [|apply H]. intros Hc h Hh. eapply safe_impl; [apply Hc; exact Hh|tauto|]. intros (st2 & o). apply IH.
Qed.
Lemma cpio_over {S : Type} (g : S -> P) (ops_ : ops (bstream S Z) Z) (J : bstream S Z -> Prop) x :
  Tame ops_ None INT32_MAX True True J -> (forall y, J y -> o_pos ops_ y <= X * (B + 1)) -> (forall y, J y -> I (g (bs_src y))) -> J x ->
  forall k, X * (B + 1) < Z.of_nat k -> ends_in True (cpio_provider ops_ fuel) (within INT32_MAX) (cin g) k (cpio_new x).
Proof.
  intros HJ Hpos Hin Hx k Hk. eapply ends_in_impl; [intros st; apply (Hin _)|]. apply (cpio_safe_in ops_ None (X * (B + 1)) INT32_MAX True True J HJ Hpos); [cbn [at_end]; tauto|unfold INT32_MAX; lia|left; auto|exact Hx|exact Hfuel|exact Hk].
Qed.
Definition rpm_in (r : rpm P Dg Db Dl) : Prop := I (
  match rp_pay r with
  | PNone p => p
  | PGz c => z_par (bs_src (match c_cur c with inl p => p | inr s => su_par s end))
  | PBz c => z_par (bs_src (match c_cur c with inl p => p | inr s => su_par s end))
  | PLz c => l_par (bs_src (match c_cur c with inl p => p | inr s => su_par s end))
  end).
Definition rpv := rpm_provider par cg cb cl fuel.
Lemma lift_gz C k : forall c, ends_in True (cpio_provider (gz_ops par cg) fuel) C (cin z_par) k c -> ends_in True rpv C rpm_in k (mkRpm (PGz c) Ok).
Proof.
  induction k as [|k IH]; intros c H; [exact H|]. cbn [ends_in] in *. cbn [rpv rpm_provider pv_next]. unfold rpm_next. cbn [rp_st rp_pay].
  cbn [cpio_provider pv_next] in H. destruct (cpio_next (gz_ops par cg) fuel c) as [(c1 & [i|])| | |] eqn:E; cbn [bind safe] in *; try exact H.
  intros h Hh. specialize (H h Hh). cbn [rpv rpm_provider pv_entry]. unfold rpm_entry. cbn [rp_pay rp_st]. rewrite (cpio_next_ok _ _ _ _ _ E).
  eapply safe_bind; [exact H|]. intros (c2 & o) H2. cbn [safe]. apply IH; exact H2.
Qed.
Lemma lift_bz C k : forall c, ends_in True (cpio_provider (bz_ops par cb) fuel) C (cin z_par) k c -> ends_in True rpv C rpm_in k (mkRpm (PBz c) Ok).
Proof.
  induction k as [|k IH]; intros c H; [exact H|]. cbn [ends_in] in *. cbn [rpv rpm_provider pv_next]. unfold rpm_next. cbn [rp_st rp_pay].
  cbn [cpio_provider pv_next] in H. destruct (cpio_next (bz_ops par cb) fuel c) as [(c1 & [i|])| | |] eqn:E; cbn [bind safe] in *; try exact H.
  intros h Hh. specialize (H h Hh). cbn [rpv rpm_provider pv_entry]. unfold rpm_entry. cbn [rp_pay rp_st]. rewrite (cpio_next_ok _ _ _ _ _ E).
  eapply safe_bind; [exact H|]. intros (c2 & o) H2. cbn [safe]. apply IH; exact H2.
Qed.
Lemma lift_lz C k : forall c, ends_in True (cpio_provider (lz_ops par cl) fuel) C (cin l_par) k c -> ends_in True rpv C rpm_in k (mkRpm (PLz c) Ok).
Proof.
  induction k as [|k IH]; intros c H; [exact H|]. cbn [ends_in] in *. cbn [rpv rpm_provider pv_next]. unfold rpm_next. cbn [rp_st rp_pay].
  cbn [cpio_provider pv_next] in H. destruct (cpio_next (lz_ops par cl) fuel c) as [(c1 & [i|])| | |] eqn:E; cbn [bind safe] in *; try exact H.
  intros h Hh. specialize (H h Hh). cbn [rpv rpm_provider pv_entry]. unfold rpm_entry. cbn [rp_pay rp_st]. rewrite (cpio_next_ok _ _ _ _ _ E).
  eapply safe_bind; [exact H|]. intros (c2 & o) H2. cbn [safe]. apply IH; exact H2.
Qed.
Lemma none_ends C k p : I p -> (1 <= k)%nat -> ends_in True rpv C rpm_in k (mkRpm (PNone p) Error).
Proof. intros Hp Hk. destruct k; [lia|]. exact Hp. Qed.

Theorem rpm_safe_in p k : I p -> X * (B + 1) < Z.of_nat k ->
  safe True (rpm_new par big cg cb cl bufsize gas alloc_ok p) (ends_in True rpv (within INT32_MAX) rpm_in k).
Proof.
  intros HI Hk. assert (0 <= X * (B + 1)) as Hc0 by (pose proof (posle par content B neg I HT HB p HI); apply Z.mul_nonneg_nonneg; lia). assert (1 <= k)%nat as Hk1 by lia.
  unfold rpm_new. eapply safe_bind; [apply open_safe; exact HI|]. intros (p1 & kd) H1. destruct kd as [kd|]; [|cbn [safe]; apply none_ends; [exact H1|exact Hk1]].
  destruct kd.
  - eapply safe_bind; [apply (bz_new_safe par content B neg I HT HB X bufsize gas Hbuf Hgas cb DIb Hb (X * (B + 1)) Hc0 (z_layer par content B neg I HT HB X bufsize gas HX Hbuf cb DIb Hb) p1 H1)|].
    intros x (Hx1 & Hx2). cbn [safe]. destruct Hx2 as [->|(Hx2 & ->)]; [apply none_ends; [exact Hx1|exact Hk1]|]. apply lift_bz.
    apply (cpio_over z_par (bs_ops (z_src cb par true)) _ _ (bs_tame _ _ _ _ _ _ (z_layer par content B neg I HT HB X bufsize gas HX Hbuf cb DIb Hb true) INT32_MAX Plim True ltac:(unfold INT32_MAX; lia) (fun _ => Hcap))); [|intros y Hy; apply Hy|exact Hx2|exact Hk].
    intros y Hy. destruct (tI_pos _ _ _ _ _ _ (z_layer par content B neg I HT HB X bufsize gas HX Hbuf cb DIb Hb true) y Hy) as (_ & _ & H). exact H.
  - eapply safe_bind; [apply (l_new_safe par content B neg I HT HB X bufsize gas alloc_ok Hbuf Hgas cl DIl Hl (X * (B + 1)) Hc0 (l_layer par content B neg I HT HB X bufsize gas HX Hbuf cl DIl Hl) p1 H1)|].
    intros x (Hx1 & Hx2). cbn [safe]. destruct Hx2 as [->|(Hx2 & ->)]; [apply none_ends; [exact Hx1|exact Hk1]|]. apply lift_lz.
    apply (cpio_over l_par (lz_ops par cl) _ _ (l_ops_tame cl DIl par True I I (pl par B) B (X * (B + 1)) (l_layer par content B neg I HT HB X bufsize gas HX Hbuf cl DIl Hl) INT32_MAX Plim True ltac:(unfold INT32_MAX; lia) (fun _ => Hcap))); [|intros y Hy; apply Hy|exact Hx2|exact Hk].
    intros y Hy. destruct (tI_pos _ _ _ _ _ _ (l_layer par content B neg I HT HB X bufsize gas HX Hbuf cl DIl Hl) y Hy) as (_ & _ & H). exact H.
  - eapply safe_bind; [apply (gz_new_safe par content B neg I HT HB X bufsize gas Hbuf Hgas cg DIg Hg (X * (B + 1)) Hc0 (z_layer par content B neg I HT HB X bufsize gas HX Hbuf cg DIg Hg) p1 H1)|].
    intros x (Hx1 & Hx2). cbn [safe]. destruct Hx2 as [->|(Hx2 & ->)]; [apply none_ends; [exact Hx1|exact Hk1]|]. apply lift_gz.
    apply (cpio_over z_par (bs_ops (z_src cg par false)) _ _ (bs_tame _ _ _ _ _ _ (z_layer par content B neg I HT HB X bufsize gas HX Hbuf cg DIg Hg false) INT32_MAX Plim True ltac:(unfold INT32_MAX; lia) (fun _ => Hcap))); [|intros y Hy; apply Hy|exact Hx2|exact Hk].
    intros y Hy. destruct (tI_pos _ _ _ _ _ _ (z_layer par content B neg I HT HB X bufsize gas HX Hbuf cg DIg Hg false) y Hy) as (_ & _ & H). exact H.
Qed.
End Rpm.

Theorem rpm_safe {P Dg Db Dl} (par : ops P Z) (big : bool) (cg : codec Dg) (cb : codec Db) (cl : lzcodec Dl) (X : Z) DIg DIb DIl :
  sane_codec cg X DIg -> sane_codec cb X DIb -> sane_lzcodec cl X DIl -> 0 <= X -> forall (full : list Z) (neg : Prop) (I : P -> Prop), Tame par (Some full) INT32_MAX True neg I ->
  X * (zlen full + 1) <= INT64_MAX -> forall (bufsize : Z) (gas fuel : nat) (alloc_ok : bool), 0 <= bufsize <= BUF_LIM -> zlen full <= Z.of_nat gas -> X * (zlen full + 1) < Z.of_nat fuel ->
  forall p k, I p -> X * (zlen full + 1) < Z.of_nat k ->
  safe True (rpm_new par big cg cb cl bufsize gas alloc_ok p) (ends True (rpm_provider par cg cb cl fuel) (within INT32_MAX) k).
Proof.
  intros Hg Hb Hl HX full neg I HT Hcap bufsize gas fuel alloc_ok Hbuf Hgas Hfuel p k HI Hk.
  eapply safe_impl; [exact (rpm_safe_in par big cg cb cl X DIg DIb DIl Hg Hb Hl HX (Some full) (zlen full) neg I HT (in_bound _ _ _ _ _ _ HT) Hcap bufsize gas fuel alloc_ok Hbuf Hgas Hfuel p k HI Hk)|tauto|].
  intros a. apply ends_in_ends.
Qed.
