(** Opening a file of arbitrary bytes ends (C54): the layers of compression, then the formats. *)
From Verif Require Import Base StreamSpec P_Stream M_StringStream M_Buffered BufferedSpec M_Inflate InflateSpec M_Lzma LzmaSpec M_Sub ArchiveSpec M_Text M_Kmp M_Detect P_Detect DetectSpec
  M_Ar M_Cpio M_Tar M_Zip M_Sdf M_Rpm M_StringTerm M_Base64 M_MailList M_Open OpenEndsSpec.
From Verif Require Import P_Buffered P_Tame P_TameBuf P_TameZ P_TameLz P_TameLayer P_SafeAr P_SafeTar P_SafeZip P_SafeCpio P_SafeRpm P_SafeST P_SafeMail P_SafeSdf P_EntrySafe.

Lemma firm_sub {P} (par : ops P Z) (I J : P -> Prop) : Firm par I -> (forall p, J p -> I p) -> Firm par J.
Proof. intros [H1 H2 H3] Hs. split; [intros p mn mx p' n d HI; apply H1; apply Hs; exact HI|intros p q p' r HI; apply H2; apply Hs; exact HI|intros p HI; apply H3; apply Hs; exact HI]. Qed.
Lemma tame_neg {P} (par : ops P Z) content lim cr (neg neg' : Prop) I : Tame par content lim cr neg I -> (neg' -> neg) -> Tame par content lim cr neg' I.
Proof. intros [H1 H2 H3 H4] Hn. split; [exact H1|exact H2| |exact H4]. intros p n HI Hx. eapply safe_impl; [apply (H3 p n HI); tauto|tauto|]. intros (p' & k) (A1 & A2 & A3 & A4 & A5). do 4 (split; [assumption|]). intros Q; apply A5; auto. Qed.
Lemma safe_and {A} cr (x : out A) Q R : safe cr x Q -> safe cr x R -> safe cr x (fun a => Q a /\ R a).
Proof. destruct x; cbn; tauto. Qed.
Lemma ends_weaken {St} (pv : provider St) (C C' : info -> call -> Prop) : (forall i c, C' i c -> C i c) -> forall k st, ends True pv C k st -> ends True pv C' k st.
Proof.
  intros HC. induction k as [|k IH]; intros st; cbn [ends]; [tauto|]. intros H. eapply safe_impl; [exact H|tauto|].
  intros (st1 & [i|]); [|auto]. intros Hc h Hh. eapply safe_impl; [apply Hc; eapply Forall_impl; [|exact Hh]; intros c; apply HC|tauto|]. intros (st2 & o). apply IH.
Qed.

(** *** an LZMA stream as a stream to open *)
Section LOps.
Context {D P : Type}.
Variables (cd : lzcodec D) (par : ops P Z) (cap : Z) (J : bool -> lstate D P -> Z -> nat -> Prop) (K : lstate D P -> Prop).
Hypothesis HT : TameSrc (l_src cd par) None cap True J K.
Notation LI := (bI None cap J K).
Lemma l_read_as x mn mx : exists y, (y = x \/ exists z, y = resize x z) /\ l_read cd par x mn mx = bs_read (l_src cd par) y mn mx.
Proof. destruct (l_read_resize cd par x mn mx) as (_ & z & st & Est & R1 & R2). destruct st; [exists (resize x z)|exists x|exists x]; (split; [eauto|]); auto; apply R2; congruence. Qed.
Lemma l_read_as' x mn mx : exists y, (LI x -> LI y) /\ bs_hi y = bs_hi x /\ bs_pos y = bs_pos x /\ bs_st y = bs_st x /\ l_read cd par x mn mx = bs_read (l_src cd par) y mn mx.
Proof. destruct (l_read_as x mn mx) as (y & Hy & E). exists y. destruct Hy as [->|(z & ->)]; (split; [exact (fun H => H)|]); auto. Qed.
Lemma l_seek : Seek (l_ops cd par) cap LI bs_hi.
Proof.
  destruct (bs_seek (l_src cd par) None cap J K HT) as [S1 S2 S3]. split; [exact S1| |exact S3].
  intros x mn mx x' n d HI H1 H2 E. cbn [l_ops o_read o_pos o_status] in *. destruct (l_read_as' x mn mx) as (y & Y1 & Y2 & Y3 & Y4 & Y5).
  rewrite Y5 in E. destruct (S2 y mn mx x' n d (Y1 HI) H1 H2 E) as (A1 & A2 & A3). cbn [bs_ops o_pos o_status] in *. rewrite Y2, Y3, Y4 in *. auto.
Qed.
Lemma l_firm : Firm (l_ops cd par) LI.
Proof.
  destruct (firm_sub _ _ _ (bs_firm (l_src cd par) None cap J K True Logic.I HT) (fun x (H : LI x) => proj1 H)) as [S1 S2 S3]. split; [|exact S2|].
  - intros x mn mx x' n d HI H1 H2 E. cbn [l_ops o_read o_pos o_status] in *. destruct (l_read_as' x mn mx) as (y & Y1 & Y2 & Y3 & Y4 & Y5).
  rewrite Y5 in E. intros Hn. pose proof (S1 y mn mx x' n d (Y1 HI) H1 H2 E Hn) as A. cbn [bs_ops o_pos o_status] in A. rewrite Y3 in A. exact A.
  - intros x HI He. cbn [l_ops o_read o_skip o_status] in *.
    assert (forall mn mx x' n d, l_read cd par x mn mx = Ret (x', n, d) -> n < 0) as Hr.
    { intros mn mx x' n d E. destruct (l_read_as' x mn mx) as (y & _ & _ & _ & Y4 & Y5). rewrite Y5 in E. unfold bs_read in E. rewrite Y4, He in E. injection E as _ <- _. lia. }
    split; [exact Hr|]. intros n x' k Hn E. unfold l_skip in E. destruct (skip_rounds n); cbn [l_skip_loop] in E; destruct (n =? 0); try discriminate; try (injection E as _ <-; lia).
    match type of E with bind (l_read cd par x 1 ?st) _ = _ => pose proof (Hr 1 st) as Hr1; destruct (l_read cd par x 1 st) as [((x1 & m) & d1)| | |] eqn:Er end; cbn [bind] in E; try discriminate.
    specialize (Hr1 _ _ _ eq_refl). destruct (Z.leb_spec m 0); [injection E as _ <-; lia|lia].
Qed.
Lemma l_tame_bI (neg : Prop) : (forall x, LI x -> tI None cap J K x) -> Tame (l_ops cd par) None INT32_MAX True neg (tI None cap J K) -> Tame (l_ops cd par) None INT32_MAX True neg LI.
Proof.
  intros Hsub HL.
  assert (forall x mn mx x' n d, LI x -> INT32_MIN <= mn <= INT32_MAX -> INT32_MIN <= mx <= INT32_MAX -> l_read cd par x mn mx = Ret (x', n, d) -> bs_st x' = Eof -> b_avail (bs_buf x') = 0) as Hrd.
  { intros x mn mx x' n d HI H1 H2 E. destruct (l_read_as' x mn mx) as (y & Y1 & _ & _ & _ & Y5). rewrite Y5 in E. apply (bs_read_hi _ _ _ _ _ HT y mn mx x' n d (Y1 HI) H1 H2 E). }
  assert (forall fuel x n sk x' k, LI x -> l_skip_loop cd par fuel x n sk = Ret (x', k) -> bs_st x' = Eof -> b_avail (bs_buf x') = 0) as Hskip.
  { induction fuel as [|f IH]; intros x n sk x' k HI E He; cbn [l_skip_loop] in E; destruct (n =? 0); try discriminate; try (assert (x = x') as <- by congruence; apply HI; exact He).
    match type of E with bind (l_read cd par x 1 ?st) _ = _ => set (step := st) in *; assert (INT32_MIN <= step <= INT32_MAX) as Hs by apply wrap32_range end. clearbody step.
    pose proof (tm_read _ _ _ _ _ _ HL x 1 step (proj1 HI) ltac:(unfold INT32_MIN, INT32_MAX; lia) ltac:(unfold INT32_MAX; lia) Hs) as T. cbn [l_ops o_read] in T.
    destruct (l_read cd par x 1 step) as [((x1 & m) & d)| | |] eqn:Er; cbn [bind safe] in *; try discriminate.
    pose proof (Hrd x 1 step x1 m d HI ltac:(unfold INT32_MIN, INT32_MAX; lia) Hs Er) as A.
    destruct (m <=? 0); [assert (x1 = x') as <- by congruence; apply A; exact He|]. apply (IH x1 _ _ _ _ (conj (proj1 T) A) E He). }
  split.
  - intros p (H & _). exact (tm_pos _ _ _ _ _ _ HL p H).
  - intros p mn mx HI H1 H2 H3. pose proof (tm_read _ _ _ _ _ _ HL p mn mx (proj1 HI) H1 H2 H3) as R. pose proof (fun x' n d => Hrd p mn mx x' n d HI H1 H3) as Q.
    cbn [l_ops o_read o_pos o_status] in *. destruct (l_read cd par p mn mx) as [((x' & n) & d)| | |]; cbn [safe] in *; try exact R.
    destruct R as (R1 & R2). split; [split; [exact R1|exact (Q x' n d eq_refl)]|exact R2].
  - intros p n HI H1. pose proof (tm_skip _ _ _ _ _ _ HL p n (proj1 HI) H1) as R. pose proof (fun x' k => Hskip (skip_rounds n) p n 0 x' k HI) as Q.
    cbn [l_ops o_skip o_pos o_status] in *. unfold l_skip in *. destruct (l_skip_loop cd par (skip_rounds n) p n 0) as [(x' & k)| | |]; cbn [safe] in *; try exact R.
    destruct R as (R1 & R2). split; [split; [exact R1|exact (Q x' k eq_refl)]|exact R2].
  - intros p q HI H1. pose proof (tm_reset _ _ _ _ _ _ HL p q (proj1 HI) H1) as R.
    cbn [l_ops o_reset o_pos o_status] in *. destruct (bs_reset p q) as [(x' & r)| | |] eqn:E; cbn [safe] in *; try exact R.
    destruct R as (R1 & R2). split; [|exact R2]. split; [exact R1|]. unfold bs_reset in E. destruct (q <? 0); [discriminate|]. destruct (bs_st p) eqn:Est.
    3: assert (p = x') as <- by congruence; congruence.
    all: destruct (_ && _); [assert (bs_st x' = Ok) as -> by (injection E as <- _; reflexivity); congruence|assert (p = x') as <- by congruence; apply HI].
Qed.
End LOps.

(** *** a stream that can be opened: at most [B] bytes, any contents; [all]: in every format, otherwise not as mail *)
Definition openable (all : Prop) {P} (par : ops P Z) (content : option (list Z)) (B : Z) (I : P -> Prop) (hi : P -> Z) : Prop :=
  Tame par content INT32_MAX True (all /\ B <= INT64_MAX) I /\ (forall p, I p -> o_pos par p <= B) /\ (all -> (forall q, at_end content q -> q = B) /\ Seek par B I hi) /\ Firm par I /\ 0 <= B.
Definition ok_stream (all : Prop) (B : Z) {P} (par : ops P Z) (p : P) : Prop :=
  exists content B' I hi, openable all par content B' I hi /\ B' <= B /\ I p.
Definition ok_any (all : Prop) {R} (B : Z) (x : anystream R) : Prop := match x with Any par p _ => ok_stream all B par p end.
Lemma ok_any_le all {R} B B' (x : anystream R) : ok_any all B x -> B <= B' -> ok_any all B' x.
Proof. destruct x as [P par p inp]. intros (c & b & I & hi & H1 & H2 & H3) L. exists c, b, I, hi. split; [exact H1|]. split; [lia|exact H3]. Qed.

Section Open.
Context {R Dg Db Dl : Type}.
Variable all : Prop.
Variables (cg : codec Dg) (cb : codec Db) (cl : lzcodec Dl).
Variables (X : Z) (DIg : Dg -> Z -> Z -> Prop) (DIb : Db -> Z -> Z -> Prop) (DIl : Dl -> Z -> Z -> Prop).
Hypothesis Hg : sane_codec cg X DIg.
Hypothesis Hb : sane_codec cb X DIb.
Hypothesis Hl : sane_lzcodec cl X DIl.
Hypothesis HX : 0 <= X.
Variables (bufsize : Z) (gas : nat) (alloc_ok : bool).
Hypothesis Hbuf : 0 <= bufsize <= BUF_LIM.
(** [B] bytes decompress to at most [nx B] bytes *)
Variable nx : Z -> Z.
Hypothesis nx0 : forall B, 0 <= B -> 0 <= nx B.
Hypothesis nx_mono : forall B B', B <= B' -> nx B <= nx B'.
Hypothesis nx_g : forall d u o B, DIg d u o -> 0 <= u <= B -> o <= nx B.
Hypothesis nx_b : forall d u o B, DIb d u o -> 0 <= u <= B -> o <= nx B.
Hypothesis nx_l : forall d u o B, DIl d u o -> 0 <= u <= B -> o <= nx B.

Section One.
Context {P : Type}.
Variables (par : ops P Z) (content : option (list Z)) (B : Z) (I : P -> Prop) (hi : P -> Z).
Hypothesis HO : openable all par content B I hi.
Hypothesis Hgas : B <= Z.of_nat gas.
Let HT := proj1 HO.
Lemma o_bound p : I p -> o_pos par p <= B.
Proof. apply HO. Qed.
Lemma peek_safe p mn : I p -> 0 <= mn <= INT32_MAX -> safe True (peek par p mn) (fun '(p', _, c) => I p' /\ KmpSpec.bytes c).
Proof.
  intros HI Hm. unfold peek. eapply safe_bind; [apply (tm_read _ _ _ _ _ _ HT p mn 0 HI); unfold INT32_MIN, INT32_MAX in *; lia|].
  intros ((p1 & n) & c) (I1 & _ & _ & Hc & _). eapply safe_bind; [apply (tm_reset _ _ _ _ _ _ HT p1 0 I1); lia|]. intros (p2 & r) (I2 & _). split; [exact I2|exact Hc].
Qed.
Lemma rewind_safe p (inp : P -> R) : I p -> safe True (let* (p, _) := o_reset par p 0 in Ret (Any par p inp, false)) (fun '(x, _) => ok_any all B x).
Proof. intros HI. eapply safe_bind; [apply (tm_reset _ _ _ _ _ _ HT p 0 HI); lia|]. intros (p2 & r) (I2 & _). exists content, B, I, hi. split; [exact HO|]. split; [lia|exact I2]. Qed.
Lemma same_any p (inp : P -> R) : I p -> ok_any all B (Any par p inp).
Proof. intros HI. exists content, B, I, hi. split; [exact HO|]. split; [lia|exact HI]. Qed.
Notation lft := (Z.max B (nx B)).
Lemma z_any {D} (cd : codec D) DI bz (x : bstream (zstate D P) Z) (inp : bstream (zstate D P) Z -> R) : sane_codec cd X DI -> (forall d u o B, DI d u o -> 0 <= u <= B -> o <= nx B) ->
  tI None (nx B) (z_J DI par I I (pl par B) 0 B) (fun s => I (z_par s)) x -> bs_st x = Ok -> ok_any all (nx B) (Any (bs_ops (z_src cd par bz)) x inp).
Proof.
  intros Hcd Hnx Hx Ex. assert (TameSrc (z_src cd par bz) None (nx B) True (z_J DI par I I (pl par B) 0 B) (fun s => I (z_par s))) as TS.
  { eapply tame_cap; [exact (z_layer par content B _ I HT o_bound X bufsize gas HX Hbuf cd DI Hcd bz)|]. intros b s c m (_ & _ & u & HD & Hu & _). exact (Hnx _ _ _ _ HD Hu). }
  exists None, (nx B), (bI None (nx B) (z_J DI par I I (pl par B) 0 B) (fun s => I (z_par s))), bs_hi. split; [|split; [lia|]].
  - split; [apply (bs_tame_bI _ _ _ _ _ TS); tauto|]. split; [intros p H; pose proof (sk_pos _ _ _ _ (bs_seek _ _ _ _ _ TS) p H); lia|]. split; [intros _; split; [intros q []|apply (bs_seek _ _ _ _ _ TS)]|]. split; [eapply firm_sub; [apply (bs_firm _ _ _ _ _ _ Logic.I TS)|]; intros p H; apply H|apply nx0; apply HO].
  - split; [exact Hx|]. rewrite Ex; discriminate.
Qed.
Lemma z_cap {D} (cd : codec D) DI bz : sane_codec cd X DI -> (forall d u o B, DI d u o -> 0 <= u <= B -> o <= nx B) ->
  TameSrc (z_src cd par bz) None (nx B) True (z_J DI par I I (pl par B) 0 B) (fun s => I (z_par s)).
Proof.
  intros Hcd Hnx. eapply tame_cap; [exact (z_layer par content B _ I HT o_bound X bufsize gas HX Hbuf cd DI Hcd bz)|]. intros b s c m (_ & _ & u & HD & Hu & _). exact (Hnx _ _ _ _ HD Hu).
Qed.
Lemma l_cap : TameSrc (l_src cl par) None (nx B) True (l_J DIl I I (pl par B) B) (fun s => I (l_par s)).
Proof.
  eapply tame_cap; [exact (l_layer par content B _ I HT o_bound X bufsize gas HX Hbuf cl DIl Hl)|]. intros b s c m (H0 & _ & _ & _ & _ & HP & _ & u & HD & Hu & Hw). apply (nx_l _ _ _ _ HD).
  pose proof (zlen_nonneg (l_win s)). unfold pl in Hw. pose proof (o_bound _ HP). lia.
Qed.
Lemma l_any (x : bstream (lstate Dl P) Z) (inp : bstream (lstate Dl P) Z -> R) :
  tI None (nx B) (l_J DIl I I (pl par B) B) (fun s => I (l_par s)) x -> bs_st x = Ok -> ok_any all (nx B) (Any (l_ops cl par) x inp).
Proof.
  intros Hx Ex. pose proof l_cap as TS.
  exists None, (nx B), (bI None (nx B) (l_J DIl I I (pl par B) B) (fun s => I (l_par s))), bs_hi. split; [|split; [lia|]].
  - split; [|split; [intros p H; pose proof (sk_pos _ _ _ _ (l_seek _ _ _ _ _ TS) p H); lia|split; [intros _; split; [intros q []|apply (l_seek _ _ _ _ _ TS)]|split; [apply (l_firm _ _ _ _ _ TS)|apply nx0; apply HO]]]].
    apply (l_tame_bI _ _ _ _ _ TS); [intros y H; apply H|]. apply (l_ops_tame cl DIl par True I I (pl par B) B (nx B) TS INT32_MAX Plim); [unfold INT32_MAX; lia|tauto].
  - split; [exact Hx|]. rewrite Ex; discriminate.
Qed.
Lemma try_bz2_one p (inp : P -> R) : I p -> safe True (try_bz2 cb bufsize gas (Any par p inp)) (fun '(x, _) => ok_any all lft x).
Proof.
  intros HI. unfold try_bz2. eapply safe_bind; [apply peek_safe; [exact HI|unfold INT32_MAX; lia]|]. intros ((p1 & n) & c) (I1 & Hc).
  eapply safe_bind; [apply bz2_check_runs|]. intros is _. destruct is; [|cbn [safe]; eapply ok_any_le; [apply same_any; exact I1|lia]].
  eapply safe_bind; [apply (bz_new_safe par content B _ I HT o_bound X bufsize gas Hbuf Hgas cb DIb Hb (nx B) (nx0 B (proj2 (proj2 (proj2 (proj2 HO))))) (fun bz => z_cap cb DIb bz Hb nx_b) p1 I1)|].
  intros x (Hx & Hx2). destruct (bs_st x) eqn:Ex.
  1: destruct Hx2 as [?|(Hx2 & _)]; [congruence|]; cbn [safe]; eapply ok_any_le; [apply (z_any cb DIb true x _ Hb nx_b Hx2 Ex)|lia].
  all: eapply safe_impl; [apply rewind_safe; exact Hx|tauto|]; intros (y & bb) Hy; eapply ok_any_le; [exact Hy|lia].
Qed.
Lemma try_gzip_one p (inp : P -> R) : I p -> safe True (try_gzip cg bufsize gas (Any par p inp)) (fun '(x, _) => ok_any all lft x).
Proof.
  intros HI. unfold try_gzip. eapply safe_bind; [apply peek_safe; [exact HI|unfold INT32_MAX; lia]|]. intros ((p1 & n) & c) (I1 & Hc).
  eapply safe_bind with (Q := fun _ => True); [destruct (2 <=? n); [destruct c as [|c0 [|c1 c]]|]; exact Logic.I|]. intros is _. destruct is; [|cbn [safe]; eapply ok_any_le; [apply same_any; exact I1|lia]].
  eapply safe_bind; [apply (gz_new_safe par content B _ I HT o_bound X bufsize gas Hbuf Hgas cg DIg Hg (nx B) (nx0 B (proj2 (proj2 (proj2 (proj2 HO))))) (fun bz => z_cap cg DIg bz Hg nx_g) p1 I1)|].
  intros x (Hx & Hx2). destruct (bs_st x) eqn:Ex.
  1: destruct Hx2 as [?|(Hx2 & _)]; [congruence|]; cbn [safe]; eapply ok_any_le; [apply (z_any cg DIg false x _ Hg nx_g Hx2 Ex)|lia].
  all: eapply safe_impl; [apply rewind_safe; exact Hx|tauto|]; intros (y & bb) Hy; eapply ok_any_le; [exact Hy|lia].
Qed.
Lemma try_lzma_one p (inp : P -> R) : I p -> safe True (try_lzma cl bufsize gas alloc_ok (Any par p inp)) (fun '(x, _) => ok_any all lft x).
Proof.
  intros HI. unfold try_lzma. eapply safe_bind; [apply peek_safe; [exact HI|unfold INT32_MAX; lia]|]. intros ((p1 & n) & c) (I1 & Hc).
  eapply safe_bind; [apply lzma_check_runs|]. intros is _. destruct is; [|cbn [safe]; eapply ok_any_le; [apply same_any; exact I1|lia]].
  eapply safe_bind; [apply (l_new_safe par content B _ I HT o_bound X bufsize gas alloc_ok Hbuf Hgas cl DIl Hl (nx B) (nx0 B (proj2 (proj2 (proj2 (proj2 HO))))) l_cap p1 I1)|].
  intros x (Hx & Hx2). destruct (bs_st x) eqn:Ex.
  1: destruct Hx2 as [?|(Hx2 & _)]; [congruence|]; cbn [safe]; eapply ok_any_le; [apply (l_any x _ Hx2 Ex)|lia].
  all: eapply safe_impl; [apply rewind_safe; exact Hx|tauto|]; intros (y & bb) Hy; eapply ok_any_le; [exact Hy|lia].
Qed.
End One.
(** the size after [n] layers *)
Fixpoint layers (n : nat) (B : Z) : Z := match n with O => B | S n => layers n (Z.max B (nx B)) end.
Lemma layers_ge n : forall B, B <= layers n B.
Proof. induction n as [|n IH]; intros B; cbn [layers]; [lia|]. specialize (IH (Z.max B (nx B))). lia. Qed.
Lemma layers_plus m n B : layers (m + n) B = layers n (layers m B).
Proof. revert B. induction m as [|m IH]; intros B; cbn [layers Nat.add]; [reflexivity|]. apply IH. Qed.
Lemma one_step B (x : anystream R) (f : anystream R -> out (anystream R * bool)) :
  (forall P (par : ops P Z) content b I hi p (inp : P -> R), openable all par content b I hi -> b <= Z.of_nat gas -> I p -> safe True (f (Any par p inp)) (fun '(x, _) => ok_any all (Z.max b (nx b)) x)) ->
  ok_any all B x -> B <= Z.of_nat gas -> safe True (f x) (fun '(x, _) => ok_any all (layers 1 B) x).
Proof.
  intros Hf Hx HBg. destruct x as [P par p inp]. destruct Hx as (content & b & I & hi & H1 & H2 & H3). eapply safe_impl; [apply (Hf P par content b I hi p inp H1); [lia|exact H3]|tauto|].
  intros (y & bb) Hy. eapply ok_any_le; [exact Hy|]. cbn [layers]. pose proof (nx_mono b B H2). lia.
Qed.
Lemma unwrap_safe k : forall B (x : anystream R), ok_any all B x -> layers (3 * S k) B <= Z.of_nat gas -> safe True (unwrap cg cb cl bufsize gas alloc_ok k x) (ok_any all (layers (3 * S k) B)).
Proof.
  induction k as [|k IH]; intros B x Hx HBg; cbn [unwrap].
  all: assert (layers 3 B <= Z.of_nat gas) as Hg3 by (first [exact HBg | replace (3 * S (S k))%nat with (3 + 3 * S k)%nat in HBg by lia; rewrite layers_plus in HBg; pose proof (layers_ge (3 * S k) (layers 3 B)); lia]).
  all: change 3%nat with (1 + (1 + 1))%nat in Hg3; rewrite !layers_plus in Hg3; pose proof (layers_ge 1 B); pose proof (layers_ge 1 (layers 1 B)); pose proof (layers_ge 1 (layers 1 (layers 1 B))).
  all: eapply safe_bind; [apply (one_step B x _ (fun P par content b I hi p inp HO Hgb HI => try_bz2_one par content b I hi HO Hgb p inp HI) Hx); lia|]; intros (x1 & f1) Y1.
  all: eapply safe_bind; [apply (one_step _ x1 _ (fun P par content b I hi p inp HO Hgb HI => try_gzip_one par content b I hi HO Hgb p inp HI) Y1); lia|]; intros (x2 & f2) Y2.
  all: eapply safe_bind; [apply (one_step _ x2 _ (fun P par content b I hi p inp HO Hgb HI => try_lzma_one par content b I hi HO Hgb p inp HI) Y2); lia|]; intros (x3 & f3) Y3.
  all: rewrite <- !layers_plus in Y3; change (1 + 1 + 1)%nat with 3%nat in Y3.
  - destruct (f1 || f2 || f3); exact Y3.
  - replace (3 * S (S k))%nat with (3 + 3 * S k)%nat in HBg |- * by lia. rewrite layers_plus in HBg |- *. destruct (f1 || f2 || f3).
    + apply IH; assumption.
    + cbn [safe]. eapply ok_any_le; [exact Y3|apply layers_ge].
Qed.

(** *** the formats *)
Section Subs.
Context {Dz : Type}.
Variables (cz : codec Dz) (DIz : Dz -> Z -> Z -> Prop).
Hypothesis Hz : sane_codec cz X DIz.
Variables (big : bool) (mktime : tm -> Z) (maxl : Z) (fuel k : nat) (Bf : Z).
Hypothesis HBf : 0 <= Bf.
Hypothesis Hgas : Bf <= Z.of_nat gas.
Hypothesis Hfuel : Bf + 2 < Z.of_nat fuel /\ X * (Bf + 1) < Z.of_nat fuel.
Hypothesis Hk : Bf + 2 < Z.of_nat k /\ X * (Bf + 1) < Z.of_nat k.
(** what a provider promises when its factory was given the stream *)
Definition begins {St P} (pv : provider St) (inp : St -> P) (I : P -> Prop) (ss : St) : Prop :=
  safe True (pv_next pv ss) (fun '(st, r) => match r with
    | None => I (inp st)
    | Some i => forall h, Forall (within_max INT32_MAX i) h -> safe True (pv_entry pv st h) (fun '(st2, _) => ends True pv (within_max INT32_MAX) k st2)
    end).
Definition sub_ok (sb : sub_type) : Prop := (forall c, KmpSpec.bytes c -> runs (su_check sb c)) /\
  forall P (par : ops P Z) content B I hi p, openable all par content B I hi -> B <= Bf -> I p -> safe True (su_make sb P par p) (begins (su_pv sb P par) (su_input sb P) I).
Lemma begins_in {St P} (pv : provider St) (inp : St -> P) (I : P -> Prop) ss : ends_in True pv (within INT32_MAX) (fun st => I (inp st)) (S k) ss -> begins pv inp I ss.
Proof.
  cbn [ends_in]. intros H. unfold begins. eapply safe_impl; [exact H|tauto|]. intros (st & [i|]); [|auto]. intros Hc h Hh.
  eapply safe_impl; [apply Hc; eapply Forall_impl; [|exact Hh]; intros c Hcc; apply Hcc|tauto|]. intros (st2 & o) He. eapply ends_weaken; [|eapply ends_in_ends; exact He]. intros i0 c Hcc; apply Hcc.
Qed.
Lemma runs_ret {A} (x : out A) a : x = Ret a -> runs x.
Proof. intros ->. exact Logic.I. Qed.
Lemma mul_le b : 0 <= b <= Bf -> X * (b + 1) <= X * (Bf + 1).
Proof. intros H. apply Z.mul_le_mono_nonneg_l; lia. Qed.
Lemma ar_sub : sub_ok (sub_ar fuel).
Proof.
  split; [intros c _; destruct (ar_check_ok c) as (b & E & _); eapply runs_ret; exact E|]. intros P par content B I hi p HO HB HI. cbn [sub_ar su_make su_pv su_input].
  eapply safe_impl; [apply (ar_safe_in par content B True _ I (proj1 HO) (o_bound par content B I hi HO) p fuel (S k) HI); lia|tauto|]. intros a Ha. apply begins_in. eapply ends_at_in; exact Ha.
Qed.
Lemma tar_sub : sub_ok (sub_tar fuel).
Proof.
  split; [intros c _; destruct (tar_check_ok c) as (b & E & _); eapply runs_ret; exact E|]. intros P par content B I hi p HO HB HI. cbn [sub_tar su_make su_pv su_input safe].
  apply begins_in. eapply ends_at_in. apply (tar_safe_in par content B INT32_MAX True _ I (proj1 HO) (o_bound par content B I hi HO)); [unfold INT32_MAX; lia|right; split; [exact Logic.I|reflexivity]|exact HI|lia|lia].
Qed.
Lemma zip_sub : sub_ok (sub_zip bufsize gas cz mktime fuel).
Proof.
  split; [intros c _; destruct (zip_check_ok c) as (b & E & _); eapply runs_ret; exact E|]. intros P par content B I hi p HO HB HI. cbn [sub_zip su_make su_pv su_input safe].
  pose proof (mul_le B ltac:(split; [apply HO|exact HB])). apply begins_in. eapply ends_at_in.
  apply (zip_safe_in cz X DIz Hz HX par content B INT32_MAX True _ I (proj1 HO) (o_bound par content B I hi HO)); [unfold INT32_MAX; split; [lia|auto]|left; exact Logic.I|exact Hbuf|lia|lia|exact HI|lia].
Qed.
Lemma rpm_sub : X * (Bf + 1) <= INT64_MAX -> sub_ok (sub_rpm cg cb cl bufsize gas alloc_ok big fuel).
Proof.
  intros HXB.
  split; [intros c _; destruct (rpm_check_ok c) as (b & E & _); eapply runs_ret; exact E|]. intros P par content B I hi p HO HB HI. cbn [sub_rpm su_make su_pv su_input].
  pose proof (mul_le B ltac:(split; [apply HO|exact HB])).
  eapply safe_impl; [apply (rpm_safe_in par big cg cb cl X DIg DIb DIl Hg Hb Hl HX content B _ I (proj1 HO) (o_bound par content B I hi HO) ltac:(lia) bufsize gas fuel alloc_ok Hbuf ltac:(lia) ltac:(lia) p (S k) HI); lia|tauto|].
  intros a Ha. apply begins_in. exact Ha.
Qed.
Lemma sdf_sub : sub_ok (sub_sdf fuel).
Proof.
  split; [intros c Hc; destruct (sdf_check_ok c Hc) as (b & E & _); eapply runs_ret; exact E|]. intros P par content B I hi p HO HB HI. cbn [sub_sdf su_make su_pv su_input].
  destruct (sdf_safe_in par content B _ I (proj1 HO) (o_bound par content B I hi HO) (proj1 (proj2 (proj2 (proj2 HO)))) fuel (S k) p ltac:(lia) ltac:(lia) HI) as (a & E & H). rewrite E. cbn [safe]. apply begins_in. eapply ends_at_in; exact H.
Qed.
Lemma mail_sub : all -> 1 <= maxl <= 2 ^ 28 -> Bf <= INT32_MAX -> sub_ok (sub_mail maxl fuel).
Proof.
  intros Hall Hmaxl HBm.
  split; [intros c Hc; destruct (mail_check_ok c Hc) as (b & E & _); eapply runs_ret; exact E|]. intros P par content B I hi p HO HB HI. cbn [sub_mail su_make su_pv su_input].
  destruct HO as (HT & _ & HS & HF & HB0). destruct (HS Hall) as (He & HS').
  eapply safe_impl; [apply (mail_safe_in par content B _ I hi HT HB0 He HS' ltac:(split; [exact Hall|unfold INT32_MAX, INT64_MAX in *; lia]) ltac:(lia) maxl fuel Hmaxl ltac:(lia) p HI)|tauto|].
  intros a (H1 & H2). destruct (H2 (S k) ltac:(lia)) as (H3 & _). unfold begins. cbn [ends] in H3. cbn [mail_provider pv_next] in *.
  eapply safe_impl; [exact (safe_and _ _ _ _ H1 H3)|tauto|]. intros (a' & [i|]) (A1 & A2); [exact A2|]. destruct (A1 eq_refl) as (E & A). unfold mail_input. rewrite E. exact A.
Qed.
Lemma reader_subs_ok : all -> 1 <= maxl <= 2 ^ 28 -> Bf <= INT32_MAX -> X * (Bf + 1) <= INT64_MAX -> Forall sub_ok (reader_subs cg cb cl bufsize gas alloc_ok cz big mktime maxl fuel).
Proof. intros Hall Hmaxl HBm HXB. unfold reader_subs. repeat apply Forall_cons; [apply (mail_sub Hall Hmaxl HBm)|apply (rpm_sub HXB)|apply ar_sub|apply zip_sub|apply tar_sub|apply sdf_sub|apply Forall_nil]. Qed.

Notation then_ends := (opened_ends k).
Lemma try_subs_safe {P} (par : ops P Z) content B I hi (inp : P -> R) : openable all par content B I hi -> B <= Bf -> forall subs, Forall sub_ok subs -> forall p c, I p -> KmpSpec.bytes c ->
  safe True (try_subs subs par p inp c) then_ends.
Proof.
  intros HO HB. induction 1 as [|sb subs Hsb _ IH]; intros p c HI Hc; cbn [try_subs]; [exact Logic.I|].
  destruct Hsb as (Hchk & Hsb). eapply safe_bind; [apply (Hchk c Hc)|]. intros is _. destruct is; [|apply IH; assumption].
  eapply safe_bind; [apply (Hsb P par content B I hi p HO HB HI)|]. intros ss Hss. eapply safe_bind; [exact Hss|]. intros (st & [i|]) Hst; [exact Hst|].
  eapply safe_bind; [apply (tm_reset _ _ _ _ _ _ (proj1 HO) _ 0 Hst); lia|]. intros (p2 & r) (I2 & _).
  eapply safe_bind; [apply (peek_safe par content B I hi HO p2 1 I2); unfold INT32_MAX; lia|]. intros ((p3 & n) & c3) (I3 & Hc3). apply IH; assumption.
Qed.
Lemma open_safe subs B (x : anystream R) : Forall sub_ok subs -> ok_any all B x -> layers 99 B <= Bf -> safe True (open_archive cg cb cl bufsize gas alloc_ok subs x) then_ends.
Proof.
  intros Hs Hx HB. unfold open_archive. eapply safe_bind; [apply (unwrap_safe 32 B x Hx); change (3 * 33)%nat with 99%nat; lia|]. change (3 * 33)%nat with 99%nat.
  intros [P par p inp] (content & B' & I & hi & HO & HB' & HI).
  eapply safe_bind; [apply (peek_safe par content B' I hi HO p 1024 HI); unfold INT32_MAX; lia|]. intros ((p1 & n) & c) (I1 & Hc). apply (try_subs_safe par content B' I hi inp HO); [lia|exact Hs|exact I1|exact Hc].
Qed.
End Subs.
End Open.
