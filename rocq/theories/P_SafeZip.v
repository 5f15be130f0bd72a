(** zip archives of arbitrary bytes: iteration ends without a crash. *)
From Verif Require Import Base StreamSpec P_Stream M_Buffered BufferedSpec M_Inflate InflateSpec M_Sub ArchiveSpec M_Text TextSpec M_Zip P_Text2 P_Tame P_TameBuf P_EntrySafe P_TameZ.

Lemma ends_inv2 {St} cr (pv : provider St) (C : info -> call -> Prop) (Inv : St -> Z -> Prop) :
  (forall st b, Inv st b -> 0 <= b /\ safe cr (pv_next pv st) (fun '(st1, r) => match r with None => True | Some i =>
     forall h, Forall (C i) h -> safe cr (pv_entry pv st1 h) (fun '(st2, _) => exists b', Inv st2 b' /\ b' < b) end)) ->
  forall k st b, Inv st b -> b < Z.of_nat k -> ends cr pv C k st.
Proof.
  intros H. induction k as [|k IH]; intros st b HI Hk; destruct (H st b HI) as (Hm & Hs); [lia|]. cbn [ends].
  eapply safe_impl; [exact Hs|tauto|]. intros (st1 & [i|]); [|auto]. intros Hc h Hh. eapply safe_impl; [apply Hc; exact Hh|tauto|].
  intros (st2 & o) (b' & I2 & M2). apply IH with (b := b'); [exact I2|lia].
Qed.
(** a run of any calls on a tame stream *)
Lemma tame_run {P} (par : ops P Z) content lim cr neg I : Tame par content lim cr neg I -> lim <= INT32_MAX -> forall h, Forall (any_call lim) h -> forall p, I p ->
  safe cr (run par p h) (fun '(p', _) => I p').
Proof.
  intros HT Hl. induction 1 as [|c h Hc _ IH]; intros p HI; cbn [run]; [exact HI|].
  eapply safe_bind with (Q := fun '(p', _) => I p').
  - destruct c as [mn mx|n|q]; cbn [exec any_call] in *.
    + eapply safe_bind; [apply (tm_read _ _ _ _ _ _ HT p mn mx HI); unfold INT32_MIN in *; lia|]. intros ((p' & n) & d) (R & _). exact R.
    + eapply safe_bind; [apply (tm_skip _ _ _ _ _ _ HT p n HI); left; unfold INT32_MAX in *; lia|]. intros (p' & k) (R & _). exact R.
    + eapply safe_bind; [apply (tm_reset _ _ _ _ _ _ HT p q HI); lia|]. intros (p' & r) (R & _). exact R.
  - intros (p' & ob) R. destruct (is_error _); [exact R|]. eapply safe_bind; [apply IH; exact R|]. intros (p2 & obs) R2. exact R2.
Qed.
Lemma sub_read_noerr {P} (par : ops P Z) s mn mx s' n d : sub_read par s mn mx = Ret (s', n, d) -> 1 <= n -> su_st s <> Error -> su_st s' <> Error.
Proof.
  assert (forall mn mx, sub_read_body par s mn mx = Ret (s', n, d) -> 1 <= n -> su_st s <> Error -> su_st s' <> Error) as Hb.
  { clear mn mx. intros mn mx E Hn Hs. unfold sub_read_body in E. destruct (o_read par (su_par s) mn mx) as [((p & k) & dd)| | |]; cbn [bind] in E; try discriminate.
    destruct (negb _); [discriminate|]. destruct (k <? -1) eqn:E1; [apply Z.ltb_lt in E1; injection E as <- <- <-; lia|].
    destruct (k <? mn); [destruct (su_size s =? -1); [destruct (0 <? k); injection E as <- <- <-; cbn; congruence|]|].
    - assert (n = -2) by congruence. lia.
    - injection E as <- <- <-. cbn. destruct (_ =? _); [congruence|exact Hs]. }
  unfold sub_read. destruct (su_size s =? -1); [apply Hb|]. cbv zeta. destruct (_ =? 0); [|apply Hb].
  intros E Hn _. assert (n = -1) by congruence. lia.
Qed.
Lemma le_range d o n : Forall (fun c => 0 <= c < 256) d -> 0 <= o -> 0 <= n -> o + n <= zlen d -> 0 <= le_value (slice d o n) < 256 ^ n.
Proof.
  intros Hd Ho Hn Hl. pose proof (le_bound (slice d o n)) as H. rewrite zlen_slice in H by lia. apply H. apply Forall_slice. exact Hd.
Qed.

Section Zip.
Context {D P : Type}.
Variables (cd : codec D) (X : Z) (DI : D -> Z -> Z -> Prop).
Hypothesis Hcd : sane_codec cd X DI.
Hypothesis HX : 0 <= X.
Variables (par : ops P Z) (content : option (list Z)) (B lim : Z) (cr neg : Prop) (I : P -> Prop).
Hypothesis HT : Tame par content lim cr neg I.
(** [B] bounds the positions *)
Hypothesis HB : forall p, I p -> o_pos par p <= B.
Hypothesis Hlim : 65535 <= lim <= INT32_MAX /\ (lim <= BUF_LIM \/ cr).
Hypothesis Hzero : cr \/ forall p p' n d, I p -> o_read par p 0 0 = Ret (p', n, d) -> n <> 0.
Variables (mktime : tm -> Z) (bufsize : Z) (gas fuel : nat).
Hypothesis Hbuf : 0 <= bufsize <= BUF_LIM.
Hypothesis Hgas : B <= Z.of_nat gas.
Hypothesis Hfuel : B < Z.of_nat fuel /\ X * (B + 1) < Z.of_nat fuel.

Lemma Hlim' : lim <= INT32_MAX /\ (lim <= BUF_LIM \/ cr).
Proof. split; [lia|exact (proj2 Hlim)]. Qed.
Lemma I_pos p : I p -> 0 <= o_pos par p <= B.
Proof. intros H. destruct (tm_pos _ _ _ _ _ _ HT p H) as (H1 & _). pose proof (HB p H). lia. Qed.
(** the compressed member, a substream *)
Definition k1 (off csize : Z) (s : sub P) : Prop := sub_I par I off csize s.
Definition p1 (off csize : Z) (s : sub P) : Prop := sub_I par I off csize s /\ su_st s <> Error.
Definition l1 (s : sub P) : Z := B - o_pos par (su_par s).
Definition i1 (off csize : Z) : gz1 (D := D) (P := P) -> Prop :=
  tI None (X * (B + 1)) (z_J DI (zsub_ops par) (k1 off csize) (p1 off csize) l1 0 (B)) (fun s => k1 off csize (z_par s)).
(** the rest of the file *)
Definition k2 (base : Z) (p : P) : Prop := I p /\ base <= o_pos par p.
Definition l2 (p : P) : Z := B - o_pos par p.
Definition i2 (base : Z) : gz2 (D := D) (P := P) -> Prop :=
  tI None (X * (B + 1)) (z_J DI par (k2 base) (k2 base) l2 base (B)) (fun s => k2 base (z_par s)).

Lemma p1_ok off csize p : p1 off csize p -> k1 off csize p /\ 0 <= l1 p /\ 0 <= 0 <= o_pos (zsub_ops par) p.
Proof.
  intros (H & Hs). split; [exact H|]. destruct H as (H1 & H2 & H3 & H4 & H5 & H6). pose proof (I_pos _ H1). destruct (H6 Hs). unfold l1. cbn [zsub_ops sub_ops o_pos]. lia.
Qed.
Lemma p1_read off csize p : 0 <= csize < 4294967296 -> p1 off csize p -> safe cr (o_read (zsub_ops par) p 1 0) (fun '(p', n, d) =>
  k1 off csize p' /\ (1 <= n -> p1 off csize p' /\ zlen d = n /\ o_pos (zsub_ops par) p' = o_pos (zsub_ops par) p + n /\ l1 p' + n <= l1 p)).
Proof.
  intros Hc (H & Hs). cbn [zsub_ops sub_ops o_read o_pos].
  pose proof (sub_read_tame par content lim cr neg I HT ltac:(lia) off csize Hc p 1 0 H Hs ltac:(lia) ltac:(unfold INT32_MIN, INT32_MAX; lia)) as R.
  pose proof (fun s' n d => sub_read_noerr par p 1 0 s' n d) as N.
  destruct (sub_read par p 1 0) as [((p' & n) & d)| | |]; cbn [safe] in *; try assumption.
  destruct R as (R1 & R2 & R3 & R4 & R5 & R6). split; [exact R1|]. intros Hn. specialize (N p' n d eq_refl Hn Hs). split; [split; [exact R1|exact N]|].
  split; [lia|]. split; [lia|]. unfold l1. destruct H as (_ & _ & _ & _ & _ & H6). destruct R1 as (_ & _ & _ & _ & _ & G6). destruct (H6 Hs), (G6 N). lia.
Qed.
Lemma p1_reset off csize p q : 0 <= off -> 0 <= csize < 4294967296 -> p1 off csize p -> 0 <= q <= o_pos (zsub_ops par) p -> safe cr (o_reset (zsub_ops par) p q) (fun '(p', _) => k1 off csize p').
Proof.
  intros Ho Hc (H & Hs) Hq. cbn [zsub_ops sub_ops o_reset o_pos] in *.
  eapply safe_impl; [apply (sub_reset_tame par content lim cr neg I HT off csize Ho Hc p q H Hs); right; exact Hq|tauto|]. intros (p' & r) R; exact R.
Qed.
Lemma gz1_src off csize : 0 <= off -> 0 <= csize < 4294967296 -> TameSrc (z_src cd (zsub_ops par) false) None (X * (B + 1)) cr (z_J DI (zsub_ops par) (k1 off csize) (p1 off csize) l1 0 (B)) (fun s => k1 off csize (z_par s)).
Proof. intros Ho Hc. apply z_tame; [exact Hcd|exact HX|apply p1_ok|intros p; apply p1_read; exact Hc|intros p q; apply p1_reset; assumption]. Qed.
Lemma gz1_tame off csize : 0 <= off -> 0 <= csize < 4294967296 -> Tame (gz1_ops cd par) None lim cr False (i1 off csize).
Proof.
  intros Ho Hc. apply bs_tame; [|exact Hlim'|lia|intros []]. apply z_tame; [exact Hcd|exact HX|apply p1_ok|intros p; apply p1_read; exact Hc|intros p q; apply p1_reset; assumption].
Qed.
Lemma gz1_new off csize c : 0 <= off -> 0 <= csize < 4294967296 -> p1 off csize c -> exists g, gz_new cd (zsub_ops par) bufsize false c gas = Ret g /\ i1 off csize g.
Proof.
  intros Ho Hc Hp. unfold gz_new. cbn [bind]. pose proof Hp as ((H1 & _) & _). pose proof (I_pos _ H1).
  destruct (z_ready_tame cd X DI Hcd HX (zsub_ops par) cr (k1 off csize) (p1 off csize) l1 0 (p1_ok off csize) (fun p => p1_read off csize p Hc) (fun p q => p1_reset off csize p q Ho Hc)
     (B) false lim bufsize c gas) as (_ & R); [exact Hlim'|lia|exact Hbuf|exact Hp|unfold l1; lia|unfold l1; lia|exact R].
Qed.
Lemma p2_ok base p : 0 <= base -> k2 base p -> k2 base p /\ 0 <= l2 p /\ 0 <= base <= o_pos par p.
Proof. intros Hb H. split; [exact H|]. destruct H as (H1 & H2). pose proof (I_pos _ H1). unfold l2. lia. Qed.
Lemma p2_read base p : k2 base p -> safe cr (o_read par p 1 0) (fun '(p', n, d) =>
  k2 base p' /\ (1 <= n -> k2 base p' /\ zlen d = n /\ o_pos par p' = o_pos par p + n /\ l2 p' + n <= l2 p)).
Proof.
  intros (H1 & H2). eapply safe_impl; [apply (tm_read _ _ _ _ _ _ HT p 1 0 H1); unfold INT32_MIN, INT32_MAX; lia|tauto|].
  intros ((p' & n) & d) (R1 & R2 & R3 & R4 & R5 & R6 & R7 & _). assert (k2 base p') as K by (split; [exact R1|lia]). split; [exact K|]. intros Hn. split; [exact K|]. unfold l2. specialize (R7 ltac:(lia)). lia.
Qed.
Lemma p2_reset base p q : 0 <= base -> k2 base p -> base <= q <= o_pos par p -> safe cr (o_reset par p q) (fun '(p', _) => k2 base p').
Proof.
  intros Hb (H1 & H2) Hq. eapply safe_impl; [apply (tm_reset _ _ _ _ _ _ HT p q H1); lia|tauto|].
  intros (p' & r) (R1 & R2). split; [exact R1|lia].
Qed.
Lemma gz2_src base : 0 <= base -> TameSrc (z_src cd par false) None (X * (B + 1)) cr (z_J DI par (k2 base) (k2 base) l2 base (B)) (fun s => k2 base (z_par s)).
Proof. intros Hb. apply z_tame; [exact Hcd|exact HX|intros p; apply p2_ok; exact Hb|apply p2_read|intros p q; apply p2_reset; exact Hb]. Qed.
Lemma gz2_tame base : 0 <= base -> Tame (gz2_ops cd par) None lim cr False (i2 base).
Proof. intros Hb. apply bs_tame; [apply gz2_src; exact Hb|exact Hlim'|lia|intros []]. Qed.
Lemma gz2_new base p : 0 <= base -> k2 base p -> exists g, gz_new cd par bufsize false p gas = Ret g /\ i2 base g.
Proof.
  intros Hb Hp. unfold gz_new. cbn [bind]. pose proof Hp as (H1 & H2). pose proof (I_pos _ H1).
  destruct (z_ready_tame cd X DI Hcd HX par cr (k2 base) (k2 base) l2 base (fun p => p2_ok base p Hb) (p2_read base) (fun p q => p2_reset base p q Hb)
     (B) false lim bufsize p gas) as (_ & R); [exact Hlim'|lia|exact Hbuf|exact Hp|unfold l2; lia|unfold l2; lia|exact R].
Qed.

(** draining *)
Lemma drain_stored off size n : 0 <= off -> 0 <= size < 4294967296 -> 1 <= n < 4294967296 -> forall k s, sub_I par I off size s -> B < o_pos par (su_par s) + Z.of_nat k ->
  safe cr (zip_drain (zsub_ops par) k s n) (sub_I par I off size).
Proof.
  intros Ho Hz Hn. induction k as [|k IH]; intros s HS Hk; cbn [zip_drain].
  { destruct HS as (H1 & _). pose proof (I_pos _ H1). lia. }
  cbn [zsub_ops sub_ops o_status o_skip]. destruct (su_st s) eqn:Es; try exact HS.
  eapply safe_bind; [apply (sub_skip_tame par content lim cr neg I HT off size Hz s n HS); [congruence|lia]|].
  intros (s' & m) (R1 & R2). destruct (su_st s') eqn:Es'.
  - apply IH; [exact R1|]. specialize (R2 eq_refl ltac:(lia)). destruct HS as (_ & _ & _ & _ & _ & H6). destruct (H6 ltac:(congruence)). destruct R1 as (_ & _ & _ & _ & _ & G6). destruct (G6 ltac:(congruence)). lia.
  - destruct k; cbn [zip_drain zsub_ops sub_ops o_status]; rewrite Es'; exact R1.
  - destruct k; cbn [zip_drain zsub_ops sub_ops o_status]; rewrite Es'; exact R1.
Qed.
Lemma drain_unknown base n : 0 <= base -> 1 <= n -> forall k x, i2 base x -> X * (B + 1) < bs_pos x + Z.of_nat k ->
  safe cr (zip_drain (gz2_ops cd par) k x n) (i2 base).
Proof.
  intros Hb Hn. induction k as [|k IH]; intros x HI Hk; cbn [zip_drain].
  { destruct (tI_pos _ _ _ _ _ _ (gz2_src base Hb) _ HI) as (_ & _ & H). lia. }
  cbn [gz2_ops bs_ops o_status o_skip]. destruct (bs_st x) eqn:Es; try exact HI.
  rewrite bs_skip_nonneg by lia.
  eapply safe_bind; [apply (bs_skip_tame _ _ _ _ _ _ (gz2_src base Hb) lim Hlim' _ x n 0 HI); lia|].
  intros (x' & m) (R1 & R2 & R3 & R4 & R5). destruct (bs_st x') eqn:Es'.
  - apply IH; [exact R1|]. specialize (R5 eq_refl). specialize (R4 ltac:(congruence)). lia.
  - destruct k; cbn [zip_drain gz2_ops bs_ops o_status]; rewrite Es'; exact R1.
  - destruct k; cbn [zip_drain gz2_ops bs_ops o_status]; rewrite Es'; exact R1.
Qed.
Lemma descriptor_safe p : I p -> safe cr (zip_descriptor par p) (fun '(p', _) => I p' /\ o_pos par p <= o_pos par p').
Proof.
  intros HI. unfold zip_descriptor. eapply safe_bind; [apply (tm_read _ _ _ _ _ _ HT p 4 4 HI); unfold INT32_MIN, INT32_MAX; lia|].
  intros ((q & n) & c) (R1 & R2 & R3 & R4 & R5 & R6 & _). destruct (Z.eqb_spec n 4) as [->|]; [|cbn [safe]; split; [exact R1|lia]].
  destruct (Z.leb_spec 4 (zlen c)); cbn [negb]; [|lia].
  destruct (_ =? 134695760); (eapply safe_bind; [apply (tm_read _ _ _ _ _ _ HT q _ _ R1); unfold INT32_MIN, INT32_MAX; lia|]; intros ((q' & n') & c') (T1 & T2 & T3 & T4 & T5 & T6 & _); cbn [safe]; split; [exact T1|lia]).
Qed.
Lemma name_safe p len ty : I p -> 0 <= len <= 65535 -> safe cr (zip_readFileName par p len ty) (fun '(p', _, _) => I p' /\ o_pos par p <= o_pos par p').
Proof.
  intros HI Hl. unfold zip_readFileName.
  assert (cr \/ len <> 0 \/ forall p' n d, o_read par p 0 0 = Ret (p', n, d) -> n <> 0) as Hz. { destruct Hzero as [H|H]; [left; exact H|right; right; intros p' n d; apply H; exact HI]. }
  pose proof (tm_read _ _ _ _ _ _ HT p len len HI ltac:(unfold INT32_MIN, INT32_MAX; lia) ltac:(lia) ltac:(unfold INT32_MIN, INT32_MAX; lia)) as R.
  destruct (o_read par p len len) as [((q & n) & b)| | |] eqn:Er; cbn [safe bind] in *; try assumption.
  destruct R as (R1 & R2 & R3 & R4 & R5 & R6 & _). destruct (Z.eqb_spec n len) as [->|]; cbn [negb]; [|cbn [safe]; split; [exact R1|lia]].
  destruct (Z.leb_spec len (zlen b)); cbn [negb]; [|lia].
  destruct (zget (slice b 0 len) (len - 1)) as [c|] eqn:Eg; [destruct (c =? 47); cbn [safe]; (split; [exact R1|lia])|].
  destruct Hz as [Hc|[Hc|Hc]]; [exact Hc| |].
  - exfalso. assert (zlen (slice b 0 len) = len) as Zl by (apply zlen_slice; lia). destruct (zget_some (slice b 0 len) (len - 1) ltac:(lia)) as (c & Hc2). congruence.
  - destruct (Z.eq_dec len 0) as [E0|E0]; [rewrite E0 in Er; exfalso; exact (Hc _ _ _ Er eq_refl)|].
    exfalso. assert (zlen (slice b 0 len) = len) as Zl by (apply zlen_slice; lia). destruct (zget_some (slice b 0 len) (len - 1) ltac:(lia)) as (c & Hc2). congruence.
Qed.
Lemma header_safe p inf : I p -> safe cr (zip_readHeader par mktime p inf) (fun '(p', st, csize, method, inf') => I p' /\ (st = Ok -> o_pos par p + 30 <= o_pos par p' /\
  ((0 <= i_size inf' < 4294967296 /\ 0 <= csize < 4294967296) \/ (i_size inf' = -1 /\ method = 8)))).
Proof.
  intros HI. unfold zip_readHeader. eapply safe_bind; [apply (tm_read _ _ _ _ _ _ HT p 30 30 HI); unfold INT32_MIN, INT32_MAX; lia|].
  intros ((q & n) & hb) (R1 & R2 & R3 & R4 & R5 & R6 & R7 & R8 & R9). destruct (Z.eqb_spec n 30) as [->|]; cbn [negb]; [|cbn [safe]; split; [exact R1|congruence]].
  specialize (R7 ltac:(lia)).
  destruct (Z.leb_spec 30 (zlen hb)); cbn [negb]; [|lia]. assert (zlen hb = 30) as Hb by lia.
  assert (forall o n, 0 <= o -> 0 <= n -> o + n <= 30 -> 0 <= le_value (slice hb o n) < 256 ^ n) as Hr by (intros; apply le_range; [exact R4|lia|lia|lia]).
  pose proof (Hr 26 2 ltac:(lia) ltac:(lia) ltac:(lia)) as F1. pose proof (Hr 28 2 ltac:(lia) ltac:(lia) ltac:(lia)) as F2. pose proof (Hr 22 4 ltac:(lia) ltac:(lia) ltac:(lia)) as F3.
  change (256 ^ 2) with 65536 in *. change (256 ^ 4) with 4294967296 in *. clear Hr.
  destruct hb as [|h0 [|h1 [|h2 [|h3 hb']]]]; [change (zlen (@nil Z)) with 0 in Hb; lia|change (zlen [h0]) with 1 in Hb; lia|change (zlen [h0;h1]) with 2 in Hb; lia|change (zlen [h0;h1;h2]) with 3 in Hb; lia|].
  set (hb := h0 :: h1 :: h2 :: h3 :: hb') in *.
  destruct (_ || _); [cbn [safe]; split; [exact R1|congruence]|]. destruct (negb (h2 =? 3) || _); [cbn [safe]; split; [exact R1|congruence]|]. cbv zeta.
  destruct (Z.ltb_spec (wrap32 (le_value (slice hb 18 4))) 0) as [L|L]; [cbn [safe]; split; [exact R1|congruence]|].
  pose proof (wrap32_range (le_value (slice hb 18 4))) as W.
  destruct (Z.testbit (le_value (slice hb 6 2)) 3) eqn:Eb; cbn [andb].
  - destruct (Z.eqb_spec (le_value (slice hb 8 2)) 8) as [E8|E8]; cbn [negb]; [|cbn [safe]; split; [exact R1|congruence]].
    eapply safe_bind; [apply name_safe; [exact R1|lia]|]. intros ((q2 & nm) & ty) (T1 & T2).
    eapply safe_bind; [apply (tm_skip _ _ _ _ _ _ HT q2 _ T1); left; lia|]. intros (q3 & sk) (U1 & U2 & _).
    destruct (negb _); cbn [safe]; (split; [exact U1|]); [congruence|]. intros _. split; [lia|]. right. split; [reflexivity|exact E8].
  - eapply safe_bind; [apply name_safe; [exact R1|lia]|]. intros ((q2 & nm) & ty) (T1 & T2).
    eapply safe_bind; [apply (tm_skip _ _ _ _ _ _ HT q2 _ T1); left; lia|]. intros (q3 & sk) (U1 & U2 & _).
    destruct (negb _); cbn [safe]; (split; [exact U1|]); [congruence|]. intros _. split; [lia|]. left. cbn [i_size]. unfold INT32_MAX in *; lia.
Qed.

Lemma gz_new_start {Q} (cdd : codec D) (pr : ops Q Z) q g bsz gs : gz_new cdd pr bsz false q gs = Ret g -> bs_pos g = 0 /\ bs_st g = Ok.
Proof.
  intros Eg. unfold gz_new, z_ready, setMinBufSize, bs_new in Eg. cbn [bind bs_buf bs_fin bs_src bs_size bs_pos bs_st] in Eg. destruct (makeSpace buf0 bsz) as [(b' & sp)| | |]; cbn [bind] in Eg; try discriminate. injection Eg as <-. split; reflexivity.
Qed.
Definition zip_inv (a : zip D P) (b : Z) : Prop := match zi_cur a with
  | ZNone p => I p /\ b = B - o_pos par p
  | ZStored s => exists off size, sub_I par I off size s /\ 0 <= off /\ 0 <= size < 4294967296 /\ b = B - off
  | ZKnown e => exists off csize size, sub_I (gz1_ops cd par) (i1 off csize) 0 size e /\ 0 <= off /\ 0 <= csize < 4294967296 /\ 0 <= size < 4294967296 /\ b = B - off
  | ZUnknown x => exists base, 0 <= base /\ i2 base x /\ b = B - base
  end.
Lemma i2_pos base x : i2 base x -> I (z_par (bs_src x)) /\ base <= o_pos par (z_par (bs_src x)).
Proof. intros (H & _). exact H. Qed.
Lemma i1_pos off csize g : i1 off csize g -> sub_I par I off csize (z_par (bs_src g)).
Proof. intros (H & _). exact H. Qed.
Lemma inv_nonneg a b : zip_inv a b -> 0 <= b.
Proof.
  unfold zip_inv. destruct (zi_cur a) as [p|s|e|x].
  - intros (H & ->). pose proof (I_pos _ H). lia.
  - intros (off & size & (H1 & H2 & H3 & H4 & _) & _ & _ & ->). pose proof (I_pos _ H1). lia.
  - intros (off & csize & size & (H1 & _) & _ & _ & _ & ->). destruct (i1_pos _ _ _ H1) as (G1 & _ & _ & G4 & _). pose proof (I_pos _ G1). lia.
  - intros (base & _ & H & ->). destruct (i2_pos _ _ H) as (G1 & G2). pose proof (I_pos _ G1). lia.
Qed.
Lemma leave_safe a b : zip_inv a b -> safe cr (zip_leave cd par fuel a) (fun '(p, _) => I p /\ B - b <= o_pos par p).
Proof.
  unfold zip_inv, zip_leave. destruct (zi_cur a) as [p|s|e|x].
  - intros (H & ->). cbn [safe]. split; [exact H|lia].
  - intros (off & size & HS & Ho & Hz & ->). pose proof HS as (H1 & H2 & H3 & H4 & _). pose proof (I_pos _ H1). rewrite H3.
    eapply safe_bind; [apply (drain_stored off size); [exact Ho|exact Hz|destruct (Z.ltb_spec size 1); lia|exact HS|lia]|].
    intros s' (G1 & G2 & G3 & G4 & _). destruct (_ <? 0); [|cbn [safe]; split; [exact G1|lia]].
    eapply safe_impl; [apply descriptor_safe; exact G1|tauto|]. intros (p & ok) (T1 & T2). split; [exact T1|lia].
  - intros (off & csize & size & (HS & _) & Ho & Hc & Hz & ->). pose proof (i1_pos _ _ _ HS) as HK. cbv zeta. set (c := z_par (bs_src (su_par e))) in *. pose proof HK as (H1 & H2 & H3 & H4 & _). rewrite H3.
    eapply safe_bind; [apply (sub_skip_any par content lim cr neg I HT) with (off := off) (size := csize); [lia|lia|exact HK|lia]|].
    intros (c' & k) (T1 & T2).
    eapply safe_bind; [apply (tm_read _ _ _ _ _ _ HT _ 16 16 T1); unfold INT32_MIN, INT32_MAX; lia|].
    intros ((q & n) & d) (R1 & R2 & R3 & R4 & R5 & R6 & _). destruct (Z.eqb_spec n 16) as [->|]; [|cbn [safe]; split; [exact R1|lia]].
    destruct (Z.leb_spec 16 (zlen d)); cbn [negb]; [|lia].
    destruct (negb _); [|cbn [safe]; split; [exact R1|lia]].
    pose proof (I_pos _ T1). eapply safe_bind; [apply (tm_reset _ _ _ _ _ _ HT q _ R1); lia|]. intros (q' & r) (U1 & U2). cbn [safe]. split; [exact U1|lia].
  - intros (base & Hb & HS & ->). pose proof (tI_pos _ _ _ _ _ _ (gz2_src base Hb) _ HS) as (P1 & _).
    eapply safe_bind; [apply (drain_unknown base); [exact Hb|destruct (Z.ltb_spec (bs_size x) 1); lia|exact HS|lia]|].
    intros x' HX'. destruct (i2_pos _ _ HX') as (G1 & G2). destruct (_ <? 0); [|cbn [safe]; split; [exact G1|lia]].
    eapply safe_impl; [apply descriptor_safe; exact G1|tauto|]. intros (p & ok) (T1 & T2). split; [exact T1|lia].
Qed.
(** the input stream *)
Definition zip_in (a : zip D P) : Prop := I (match zi_cur a with ZNone p => p | ZStored s => su_par s | ZKnown e => su_par (z_par (bs_src (su_par e))) | ZUnknown x => z_par (bs_src x) end).
Lemma zip_inv_in a b : zip_inv a b -> zip_in a.
Proof.
  unfold zip_inv, zip_in. destruct (zi_cur a) as [p|s|e|x]; [tauto| | |].
  - intros (off & size & (H & _) & _). exact H.
  - intros (off & csize & size & (H & _) & _). apply i1_pos in H as (H & _). exact H.
  - intros (base & _ & H & _). apply (i2_pos _ _ H).
Qed.
(** the current entry *)
Definition zip_E (i : info) (a : zip D P) : Prop := cr -> Firm par I -> entry_good (zip_provider cd par mktime bufsize gas fuel) cr lim (Z.max B (X * (B + 1))) i a.
Lemma zip_ends_from k a b : zip_inv a b -> b < Z.of_nat k -> ends_at cr (zip_provider cd par mktime bufsize gas fuel) (within lim) zip_E zip_in k a.
Proof.
  intros Ha Hk. apply ends_inv2_at with (Inv := zip_inv) (b := b); [|exact Ha|exact Hk].
  clear k a b Ha Hk. intros a b Ha. pose proof (inv_nonneg a b Ha) as Hb. split; [lia|]. cbn [zip_provider pv_next pv_entry]. unfold zip_next.
  destruct (zi_st a); try (cbn [safe]; exact (zip_inv_in _ _ Ha)).
  eapply safe_bind; [apply leave_safe; exact Ha|]. intros (p & ok) (HI & Hp). destruct ok; cbn [negb]; [|exact HI].
  destruct (is_eof _); [exact HI|].
  eapply safe_bind; [apply header_safe; exact HI|]. intros ((((p2 & st) & csize) & method) & inf) (R1 & R2).
  destruct st; try exact R1. destruct (R2 eq_refl) as (R3 & R4). clear R2. pose proof (I_pos _ HI) as Hp0.
  destruct (_ <=? 0); [exact R1|].
  assert (B - o_pos par p2 < b) as Hlt by lia.
  destruct (Z.eqb_spec method 8) as [E8|E8].
  - destruct (Z.leb_spec 0 (i_size inf)) as [L|L].
    + destruct R4 as [(Hs & Hc)|(Hs & _)]; [|lia].
      eapply safe_bind; [apply (sub_new_tame par cr I (o_pos par p2) csize Hc p2 R1 eq_refl)|]. intros c (HC & HCo & _).
      destruct (gz1_new (o_pos par p2) csize c ltac:(lia) Hc) as (g & Eg & Hg); [split; [exact HC|congruence]|]. rewrite Eg. cbn [bind].
      assert (bs_pos g = 0) as P0. { unfold gz_new, z_ready, setMinBufSize, bs_new in Eg. cbn [bind bs_buf bs_fin bs_src bs_size bs_pos bs_st] in Eg. destruct (makeSpace buf0 bufsize) as [(b' & sp)| | |]; cbn [bind] in Eg; try discriminate. injection Eg as <-. reflexivity. }
      eapply safe_bind; [apply (sub_new_tame (gz1_ops cd par) cr (i1 (o_pos par p2) csize) 0 (i_size inf) Hs g Hg); symmetry; exact P0|]. intros e (HE & HEo & HEz). cbn [safe]. split.
      { intros Hcr _. pose proof (gz1_src (o_pos par p2) csize ltac:(lia) Hc) as TS.
        apply (sub_good (gz1_ops cd par) None lim cr False (i1 (o_pos par p2) csize) (gz1_tame (o_pos par p2) csize ltac:(lia) Hc) (bs_firm _ _ _ _ _ _ Hcr TS) ltac:(lia) (Z.max B (X * (B + 1)))) with (off := 0) (size := i_size inf) (s := e) (wrap := fun e' => mkZip (ZKnown e') Ok inf);
          [intros x Hx; destruct (tI_pos _ _ _ _ _ _ TS _ Hx) as (_ & _ & Q); cbn [gz1_ops bs_ops o_pos]; lia|lia|exact Hs| |exact HE|exact HEo|exact HEz|reflexivity].
        intros h. reflexivity. }
      intros h Hh. unfold zip_entry. cbn [zi_cur].
      eapply safe_bind; [apply (sub_run_tame (gz1_ops cd par) None lim cr False (i1 (o_pos par p2) csize) (gz1_tame (o_pos par p2) csize ltac:(lia) Hc)) with (off := 0) (size := i_size inf) (i := inf);
        [lia|lia|exact Hs|reflexivity|exact Hh|exact HE|congruence]|]. intros (e' & obs) HE'. cbn [safe].
      exists (B - o_pos par p2). split; [|exact Hlt]. unfold zip_inv. cbn [zi_cur]. exists (o_pos par p2), csize, (i_size inf). split; [exact HE'|lia].
    + destruct (gz2_new (o_pos par p2) p2 ltac:(lia)) as (g & Eg & Hg); [split; [exact R1|lia]|]. rewrite Eg. cbn [bind safe]. split.
      { intros Hcr _. pose proof (gz2_src (o_pos par p2) ltac:(lia)) as TS. pose proof (gz_new_start _ _ _ _ _ _ Eg) as (P0 & S0).
        exists (gz2 (D := D) (P := P)), (gz2_ops cd par), g, (i2 (o_pos par p2)), (fun x => mkZip (ZUnknown x) Ok inf), (Z.max B (X * (B + 1))). split; [intros h; reflexivity|]. split; [exact Hg|]. split; [exact P0|]. split; [exact S0|].
        split; [|split; [left; lia|lia]]. apply (tame_entry_ok _ _ _ False); [apply gz2_tame; lia|exact (bs_firm _ _ _ _ _ _ Hcr TS)|lia| |intros x mn mx x' n d _; apply bs_read_noerr].
        intros x Hx. destruct (tI_pos _ _ _ _ _ _ TS _ Hx) as (_ & _ & Q). cbn [gz2_ops bs_ops o_pos]. lia. }
      intros h Hh. unfold zip_entry. cbn [zi_cur].
      eapply safe_bind; [apply (tame_run _ _ _ _ _ _ (gz2_tame (o_pos par p2) ltac:(lia))); [lia| |exact Hg]; eapply Forall_impl; [|exact Hh]; intros c (Hc & _); exact Hc|]. intros (x & obs) HX'. cbn [safe].
      exists (B - o_pos par p2). split; [|exact Hlt]. unfold zip_inv. cbn [zi_cur]. exists (o_pos par p2). split; [lia|]. split; [exact HX'|reflexivity].
  - destruct R4 as [(Hs & Hc)|(_ & Hs)]; [|congruence].
    eapply safe_bind; [apply (sub_new_tame par cr I (o_pos par p2) (i_size inf) Hs p2 R1 eq_refl)|]. intros s (HS & HSo & HSz). cbn [safe]. split.
    { intros Hcr HF. apply (sub_good par content lim cr neg I HT HF ltac:(lia) (Z.max B (X * (B + 1)))) with (off := o_pos par p2) (size := i_size inf) (s := s) (wrap := fun s' => mkZip (ZStored s') Ok inf);
        [intros x Hx; pose proof (HB x Hx); lia|lia|exact Hs| |exact HS|exact HSo|exact HSz|reflexivity].
      intros h. reflexivity. }
    intros h Hh. unfold zip_entry. cbn [zi_cur].
    eapply safe_bind; [apply (sub_run_tame par content lim cr neg I HT) with (off := o_pos par p2) (size := i_size inf) (i := inf);
      [lia|lia|exact Hs|reflexivity|exact Hh|exact HS|congruence]|]. intros (s' & obs) HS'. cbn [safe].
    exists (B - o_pos par p2). split; [|exact Hlt]. unfold zip_inv. cbn [zi_cur]. exists (o_pos par p2), (i_size inf). split; [exact HS'|lia].
Qed.
Theorem zip_safe_in p k : I p -> B < Z.of_nat k -> ends_at cr (zip_provider cd par mktime bufsize gas fuel) (within lim) zip_E zip_in k (zip_new p).
Proof.
  intros HI Hk. pose proof (I_pos _ HI). apply zip_ends_from with (b := B - o_pos par p); [|lia]. split; [exact HI|reflexivity].
Qed.
End Zip.
Theorem zip_safe {D P} (cd : codec D) X DI : sane_codec cd X DI -> 0 <= X -> forall (par : ops P Z) full lim (cr neg : Prop) I, Tame par (Some full) lim cr neg I -> 65535 <= lim <= INT32_MAX /\ (lim <= BUF_LIM \/ cr) ->
  (cr \/ forall p p' n d, I p -> o_read par p 0 0 = Ret (p', n, d) -> n <> 0) -> forall mktime bufsize gas fuel, 0 <= bufsize <= BUF_LIM -> zlen full <= Z.of_nat gas ->
  zlen full < Z.of_nat fuel /\ X * (zlen full + 1) < Z.of_nat fuel -> forall p k, I p -> zlen full < Z.of_nat k -> ends cr (zip_provider cd par mktime bufsize gas fuel) (within lim) k (zip_new p).
Proof.
  intros Hcd HX par full lim cr neg I HT Hl Hz mktime bufsize gas fuel Hb Hg Hf p k HI Hk.
  eapply ends_at_ends, (zip_safe_in cd X DI Hcd HX par (Some full) (zlen full) lim cr neg I HT (in_bound _ _ _ _ _ _ HT)); eassumption.
Qed.
