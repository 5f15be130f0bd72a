(** Safety of LZMA streams over input about which nothing is known. *)
From Verif Require Import Base StreamSpec P_Stream M_Buffered BufferedSpec M_Lzma LzmaSpec M_Sub ArchiveSpec P_Buffered P_Tame P_TameBuf P_TameZ.

Section L.
Context {D P : Type}.
Variables (cd : lzcodec D) (X : Z) (DI : D -> Z -> Z -> Prop).
Hypothesis Hcd : sane_lzcodec cd X DI.
Hypothesis HX : 0 <= X.
Variables (par : ops P Z) (cr : Prop) (KP PI : P -> Prop) (left_ : P -> Z).
Hypothesis HPI : forall p, PI p -> KP p /\ 0 <= left_ p.
Hypothesis Hread : forall p, PI p -> safe cr (o_read par p 1 0) (fun '(p', n, d) =>
  KP p' /\ (1 <= n -> PI p' /\ zlen d = n /\ left_ p' + n <= left_ p)).
Variable total : Z.

Definition l_J (bad : bool) (s : lstate D P) (c : Z) (m : nat) : Prop :=
  KP (l_par s) /\ m = l_mu s /\ 0 <= c /\ l_bytes s = c /\ (l_size s = -1 \/ c <= l_size s) /\
  PI (l_par s) /\ left_ (l_par s) <= Z.of_nat (l_gas s) /\
  exists u, DI (l_dec s) u c /\ 0 <= u /\ u + zlen (l_win s) + left_ (l_par s) <= total.
Lemma l_tame : TameSrc (l_src cd par) None (X * (total + 1)) cr l_J (fun s => KP (l_par s)).
Proof.
  split.
  - intros b s c m (H & _); exact H.
  - intros s c m (_ & -> & _). reflexivity.
  - intros bad s c m space (HK & -> & Hc & Hby & Hsz & HP & Hg & u & HD & Hu & Ht) Hsp. cbn [l_src fill mu]. unfold l_fill.
    destruct (Z.eqb_spec (l_size s) (l_bytes s)) as [Eq|Ne].
    { cbn [safe]. change (zlen (@nil Z)) with 0. split; [lia|]. split; [exact HK|]. split; lia. }
    eapply safe_bind with (Q := fun '(s1, nread) => KP (l_par s1) /\ (1 <= nread -> l_mu s1 = l_mu s /\ l_dec s1 = l_dec s /\ l_bytes s1 = c /\ l_size s1 = l_size s /\ PI (l_par s1) /\
      left_ (l_par s1) <= Z.of_nat (l_gas s1) /\ u + zlen (l_win s1) + left_ (l_par s1) <= total)).
    { destruct (l_win s) as [|w0 w] eqn:Ew.
      - eapply safe_bind; [apply Hread; exact HP|]. intros ((p & n) & b) (R1 & R2). cbn [safe l_par l_dec l_bytes l_size l_gas l_win]. split; [exact R1|]. intros Hn.
        destruct (R2 Hn) as (Q1 & Q2 & Q3). destruct (HPI _ Q1) as (_ & Hl). destruct (Z.ltb_spec n 1); [lia|]. change (zlen (@nil Z)) with 0 in Ht.
        split; [|split; [reflexivity|]; split; [exact Hby|]; split; [reflexivity|]; split; [exact Q1|]; lia].
        unfold l_mu. cbn [l_size l_bytes l_gas l_win]. rewrite Ew. cbn [length]. assert (length b = Z.to_nat n) as -> by (unfold zlen in Q2; lia). lia.
      - cbn [safe]. split; [exact HK|]. intros _. rewrite Ew. split; [reflexivity|]. split; [reflexivity|]. split; [exact Hby|]. split; [reflexivity|]. split; [exact HP|]. split; [exact Hg|exact Ht]. }
    intros (s1 & nread) (K1 & H1). destruct (Z.ltb_spec nread 1) as [L|L].
    { cbn [safe]. change (zlen (@nil Z)) with 0. split; [lia|]. split; [exact K1|]. split; lia. }
    destruct (H1 L) as (M1 & D1 & B1 & S1 & P1 & G1 & T1). clear H1. cbv zeta. rewrite S1, B1, D1.
    set (fin := negb (l_size s =? -1) && (l_size s - c <? space)).
    set (sp := if fin then l_size s - c else space).
    assert (1 <= sp <= space /\ (l_size s = -1 \/ sp <= l_size s - c)) as (Hs1 & Hs2).
    { unfold sp, fin. destruct (Z.eqb_spec (l_size s) (-1)); cbn [negb andb]; [lia|]. destruct (Z.ltb_spec (l_size s - c) space); lia. }
    clearbody sp fin. destruct (l_step cd (l_dec s) (l_win s1) sp fin) as (((d & k) & y) & r) eqn:Es.
    destruct (sl_step _ _ _ Hcd _ _ _ _ _ _ _ _ _ _ HD (proj1 Hs1) Es) as (E1 & E2 & E34).
    destruct (HPI _ P1) as (_ & Hl). pose proof (zlen_nonneg y) as Hy0.
    assert (zlen (skipn (Z.to_nat k) (l_win s1)) = zlen (l_win s1) - k) as Zw by (apply zlen_skipn'; lia).
    destruct r as [mark|].
    2:{ cbn [safe l_par]. change (zlen (@nil Z)) with 0. split; [lia|]. split; [exact K1|]. split; lia. }
    destruct E34 as (E3 & E4). pose proof (sl_bound _ _ _ Hcd _ _ _ E4) as Sb.
    assert (c + zlen y <= X * (total + 1)) as Hcap by (transitivity (X * (u + k + 1)); [lia|apply Z.mul_le_mono_nonneg_l; lia]).
    assert (forall size', (size' = l_size s \/ size' = c + zlen y) -> (k = 0 -> zlen y = 0 -> size' = c + zlen y) ->
      let s' := mkL (l_par s1) d (skipn (Z.to_nat k) (l_win s1)) (c + zlen y) size' (l_gas s1) in
      zlen y <= space /\ KP (l_par s') /\ (0 < zlen y -> zlen y = zlen y /\ Forall (fun c => 0 <= c < 256) y /\ data_at None c y /\ in_content None (c + zlen y) /\ c + zlen y <= X * (total + 1) /\
         exists m', (m' <= l_mu s)%nat /\ l_J (bad || false) s' (c + zlen y) m') /\ (zlen y = 0 -> exists m', (m' < l_mu s)%nat /\ l_J (bad || false) s' c m')) as Hfin.
    { intros size' Hsize Hz s'. 
      assert (l_J (bad || false) s' (c + zlen y) (l_mu s')) as HJ.
      { unfold l_J, s'. cbn [l_par l_dec l_win l_bytes l_size l_gas]. split; [exact K1|]. split; [reflexivity|]. split; [lia|]. split; [reflexivity|]. split; [lia|]. split; [exact P1|]. split; [exact G1|].
        exists (u + k). split; [exact E4|]. split; [lia|]. rewrite Zw. lia. }
      assert ((l_mu s' <= l_mu s)%nat /\ (zlen y = 0 -> (l_mu s' < l_mu s)%nat)) as (HM1 & HM2).
      { rewrite <- M1. unfold l_mu, s'. cbn [l_size l_bytes l_gas l_win]. rewrite S1, B1. destruct (Z.eqb_spec (l_size s) c); [lia|]. rewrite skipn_length. assert (zlen (l_win s1) = Z.of_nat (length (l_win s1))) as Zl by reflexivity.
        destruct (Z.eqb_spec size' (c + zlen y)); split; lia. }
      split; [lia|]. split; [exact K1|]. split.
      - intros _. split; [reflexivity|]. split; [exact E3|]. split; [exact I|]. split; [exact I|]. split; [exact Hcap|]. exists (l_mu s'). split; [exact HM1|exact HJ].
      - intros Hy. exists (l_mu s'). split; [apply HM2; exact Hy|]. rewrite Hy, Z.add_0_r in HJ. exact HJ. }
    destruct (Z.eqb_spec k 0) as [Ek|Ek], (Z.eqb_spec (zlen y) 0) as [Ey|Ey]; cbn [andb].
    + destruct (negb (l_size s =? -1) || negb mark); [cbn [safe l_par]; change (zlen (@nil Z)) with 0; split; [lia|]; split; [exact K1|]; split; lia|].
      cbn [safe]. apply (Hfin (c + zlen y)); [right; reflexivity|reflexivity].
    + cbn [safe]. apply Hfin; [destruct mark; tauto|lia].
    + cbn [safe]. apply Hfin; [destruct mark; tauto|lia].
    + cbn [safe]. apply Hfin; [destruct mark; tauto|lia].
Qed.

(** the read function differs from that of BufferedStream in the announced size only *)
Definition resize (x : bstream (lstate D P) Z) (z : Z) := mkBS (bs_buf x) (bs_fin x) (bs_src x) z (bs_pos x) (bs_st x).
Lemma wtb_resize x z mn mx : writeToBuffer (l_src cd par) (resize x z) mn mx = (let* x1 := writeToBuffer (l_src cd par) x mn mx in Ret (resize x1 z)).
Proof. unfold writeToBuffer, resize. cbn [bs_buf bs_fin bs_src bs_size bs_pos bs_st]. destruct (wtb_loop _ _ _ _ _ _ _ _ _) as [(((b & s) & st) & nw)| | |]; reflexivity. Qed.
Lemma l_read_resize x mn mx : l_read cd par x mn mx = l_read cd par x mn mx /\ exists z, (exists st, bs_st x = st /\ (st = Ok -> l_read cd par x mn mx = bs_read (l_src cd par) (resize x z) mn mx) /\ (st <> Ok -> l_read cd par x mn mx = bs_read (l_src cd par) x mn mx)).
Proof.
  split; [reflexivity|]. unfold l_read, bs_read. destruct (bs_st x) eqn:Est.
  2,3: exists 0; eexists; split; [reflexivity|]; split; [congruence|reflexivity].
  cbv zeta. set (mx' := if mx <? mn then 0 else mx).
  destruct (negb (bs_fin x) && (b_avail (bs_buf x) <? mn)) eqn:Ec.
  - destruct (writeToBuffer (l_src cd par) x mn mx') as [x1| | |] eqn:Ew.
    + exists (l_size (bs_src x1)). eexists; split; [reflexivity|]. split; [|congruence]. intros _. unfold resize at 1. cbn [bs_st]. rewrite Est. unfold resize at 1 2. cbn [bs_fin bs_buf]. rewrite Ec, wtb_resize, Ew. reflexivity.
    + exists 0. eexists; split; [reflexivity|]. split; [|congruence]. intros _. unfold resize at 1. cbn [bs_st]. rewrite Est. unfold resize at 1 2. cbn [bs_fin bs_buf]. rewrite Ec, wtb_resize, Ew. reflexivity.
    + exists 0. eexists; split; [reflexivity|]. split; [|congruence]. intros _. unfold resize at 1. cbn [bs_st]. rewrite Est. unfold resize at 1 2. cbn [bs_fin bs_buf]. rewrite Ec, wtb_resize, Ew. reflexivity.
    + exists 0. eexists; split; [reflexivity|]. split; [|congruence]. intros _. unfold resize at 1. cbn [bs_st]. rewrite Est. unfold resize at 1 2. cbn [bs_fin bs_buf]. rewrite Ec, wtb_resize, Ew. reflexivity.
  - exists (bs_size x). eexists; split; [reflexivity|]. split; [|congruence]. intros _. unfold resize at 1. cbn [bs_st]. rewrite Est. unfold resize at 1 2. cbn [bs_fin bs_buf]. rewrite Ec. destruct x. cbn in *. subst. reflexivity.
Qed.
(** [cap]: a bound for the length of the decompressed data *)
Variable cap : Z.
Hypothesis HTl : TameSrc (l_src cd par) None cap cr l_J (fun s => KP (l_par s)).
Definition lI : bstream (lstate D P) Z -> Prop := tI None (cap) l_J (fun s => KP (l_par s)).
Variable lim : Z.
Hypothesis Hlim : lim <= INT32_MAX /\ (lim <= BUF_LIM \/ cr).
Lemma l_read_tame x mn mx : lI x -> INT32_MIN <= mn <= INT32_MAX -> mn <= lim -> INT32_MIN <= mx <= INT32_MAX ->
  safe cr (l_read cd par x mn mx) (fun '(x', n, d) => lI x' /\ -2 <= n <= INT32_MAX /\ zlen d = Z.max 0 n /\ Forall (fun c => 0 <= c < 256) d /\
        bs_pos x <= bs_pos x' /\ (0 <= n -> bs_pos x' = bs_pos x + n) /\
        (1 <= mn <= mx -> n <= mx) /\ (1 <= mn -> mn <= mx \/ mx <= 0 -> n < mn -> bs_st x' <> Ok) /\
        (bs_st x' <> Error -> bs_pos x' = bs_pos x + Z.max 0 n) /\ (mn = 1 -> b_size (bs_buf x) <= 1 -> n <= 1) /\
        (1 <= mn -> n <= 0 -> bs_st x' <> Ok) /\ (1 <= n -> bs_st x' <> Error)).
Proof.
  intros HI H1 H2 H3. destruct (l_read_resize x mn mx) as (_ & z & st & Est & R1 & R2).
  assert (lI (resize x z)) as HI' by exact HI.
  assert (forall y, lI y -> bs_pos y = bs_pos x -> bs_buf y = bs_buf x -> l_read cd par x mn mx = bs_read (l_src cd par) y mn mx -> safe cr (l_read cd par x mn mx) (fun '(x', n, d) => lI x' /\ -2 <= n <= INT32_MAX /\ zlen d = Z.max 0 n /\ Forall (fun c => 0 <= c < 256) d /\
        bs_pos x <= bs_pos x' /\ (0 <= n -> bs_pos x' = bs_pos x + n) /\
        (1 <= mn <= mx -> n <= mx) /\ (1 <= mn -> mn <= mx \/ mx <= 0 -> n < mn -> bs_st x' <> Ok) /\
        (bs_st x' <> Error -> bs_pos x' = bs_pos x + Z.max 0 n) /\ (mn = 1 -> b_size (bs_buf x) <= 1 -> n <= 1) /\
        (1 <= mn -> n <= 0 -> bs_st x' <> Ok) /\ (1 <= n -> bs_st x' <> Error))) as Hgo.
  { intros y Hy Ep Eb ->. eapply safe_impl; [apply (bs_read_tame _ _ _ _ _ _ HTl lim Hlim y mn mx Hy H1 H2 H3)|tauto|]. rewrite Ep, Eb.
    intros ((x' & n) & d) (T1 & T2 & T3 & T4 & T5 & T6 & T7 & T8 & T9 & T10 & T11 & T12 & T13). do 11 (split; [assumption|]). exact T13. }
  destruct st; [apply (Hgo (resize x z)); auto|apply (Hgo x); auto; apply R2; congruence|apply (Hgo x); auto; apply R2; congruence].
Qed.
Lemma l_skip_tame : forall fuel x n sk, lI x -> 0 <= n -> 0 <= sk -> (Z.to_nat n <= fuel)%nat -> 1 <= lim ->
  safe cr (l_skip_loop cd par fuel x n sk) (fun '(x', k) => lI x' /\ bs_pos x <= bs_pos x' /\ sk <= k <= sk + n /\
    (bs_st x' <> Error -> bs_pos x' = bs_pos x + (k - sk)) /\ (bs_st x' = Ok -> k = sk + n)).
Proof.
  induction fuel as [|f IH]; intros x n sk HI Hn Hsk Hf Hl; cbn [l_skip_loop].
  { destruct (Z.eqb_spec n 0); [|lia]. cbn [safe]. split; [exact HI|]. lia. }
  destruct (Z.eqb_spec n 0); [cbn [safe]; split; [exact HI|]; lia|].
  assert (0 <= b_size (bs_buf x) <= INT32_MAX) as Hbs by (destruct HI as (_ & acc & ((R1 & R2 & R3 & R4 & _) & _) & _); unfold BUF_LIM, INT32_MAX in *; lia).
  set (step := wrap32 _).
  assert (0 <= step <= n /\ step <= INT32_MAX /\ (step = 0 -> b_size (bs_buf x) = 0)) as (Hs1 & Hs2 & Hs3).
  { unfold step. destruct (Z.ltb_spec (b_size (bs_buf x)) n); rewrite wrap32_id by (unfold INT32_MIN; lia); lia. }
  clearbody step. eapply safe_bind; [apply l_read_tame; [exact HI|unfold INT32_MIN, INT32_MAX; lia|exact Hl|unfold INT32_MIN; lia]|].
  intros ((x1 & m) & d) (T1 & T2 & T3 & T4 & T6 & T7 & T8 & T9 & T10 & T11 & T12 & T13).
  destruct (Z.leb_spec m 0) as [L|L].
  { cbn [safe]. split; [exact T1|]. split; [lia|]. split; [lia|]. split; [intros H; specialize (T10 H); lia|]. intros H. exfalso. apply T12; [lia|exact L|exact H]. }
  assert (m <= n) as Hmn.
  { destruct (Z.eq_dec step 0) as [E0|E0]; [|lia]. specialize (T11 eq_refl ltac:(lia)). lia. }
  eapply safe_impl; [apply IH; [exact T1|lia|lia|lia|exact Hl]|tauto|].
  intros (x' & k) (U1 & U2 & U3 & U4 & U5). split; [exact U1|]. split; [lia|]. split; [lia|]. split; [intros H; rewrite (U4 H); rewrite T7 by lia; lia|]. intros H. specialize (U5 H). lia.
Qed.
Lemma l_skip_neg_tame : forall fuel x n sk, lI x -> n < 0 -> 0 <= sk -> cap - bs_pos x < Z.of_nat fuel -> 1 <= lim ->
  safe cr (l_skip_loop cd par fuel x n sk) (fun '(x', k) => lI x' /\ bs_pos x <= bs_pos x' /\ sk <= k /\
    (bs_st x' <> Error -> bs_pos x' = bs_pos x + (k - sk)) /\ bs_st x' <> Ok).
Proof.
  induction fuel as [|f IH]; intros x n sk HI Hn Hsk Hf Hl; cbn [l_skip_loop].
  { destruct (tI_pos _ _ _ _ _ _ HTl x HI) as (_ & _ & Hp). lia. }
  destruct (Z.eqb_spec n 0); [lia|].
  set (step := wrap32 _). assert (INT32_MIN <= step <= INT32_MAX) as Hst by apply wrap32_range.
  clearbody step. eapply safe_bind; [apply l_read_tame; [exact HI|unfold INT32_MIN, INT32_MAX; lia|exact Hl|exact Hst]|].
  intros ((x1 & m) & d) (T1 & T2 & T3 & T4 & T6 & T7 & T8 & T9 & T10 & T11 & T12 & T13).
  destruct (Z.leb_spec m 0) as [L|L].
  { cbn [safe]. split; [exact T1|]. split; [lia|]. split; [lia|]. split; [intros H; specialize (T10 H); lia|]. intros H. apply T12; [lia|exact L|exact H]. }
  eapply safe_impl; [apply IH; [exact T1|lia|lia|rewrite T7 by lia; lia|exact Hl]|tauto|].
  intros (x' & k) (U1 & U2 & U3 & U4 & U5). split; [exact U1|]. split; [lia|]. split; [lia|]. split; [intros H; rewrite (U4 H); rewrite T7 by lia; lia|exact U5].
Qed.
Lemma l_ops_tame (neg : Prop) : 1 <= lim -> (neg -> cap <= INT64_MAX) -> Tame (l_ops cd par) None lim cr neg lI.
Proof.
  intros Hl Hneg. split.
  - intros x HI. destruct (tI_pos _ _ _ _ _ _ HTl x HI) as (H1 & H2 & _). split; assumption.
  - intros x mn mx HI H1 H2 H3. eapply safe_impl; [apply l_read_tame; assumption|tauto|]. intros ((x' & n) & d) (T1 & T2 & T3 & T4 & T6 & T7 & T8 & T9 & _).
    do 4 (split; [assumption|]). split; [exact I|]. do 3 (split; [assumption|]). exact T9.
  - intros x n HI Hn. cbn [l_ops o_skip o_pos o_status]. unfold l_skip, skip_rounds. destruct (Z.ltb_spec n 0).
    { eapply safe_impl; [apply l_skip_neg_tame; [exact HI|lia|lia| |exact Hl]|tauto|].
      - destruct Hn as [Hn|Hn]; [lia|]. specialize (Hneg Hn). destruct (tI_pos _ _ _ _ _ _ HTl x HI) as (Hp & _). unfold INT64_MAX in *. rewrite Z2Nat.id by lia. lia.
      - intros (x' & k) (T1 & T2 & T3 & T4 & T5). split; [exact T1|]. split; [exact T2|]. split; [intros H'; rewrite (T4 H'); lia|lia]. }
    eapply safe_impl; [apply l_skip_tame; [exact HI|lia|lia|lia|exact Hl]|tauto|].
    intros (x' & k) (T1 & T2 & T3 & T4 & T5). split; [exact T1|]. split; [exact T2|]. split; [intros H'; rewrite (T4 H'); lia|lia].
  - intros x q HI Hq. eapply safe_impl; [exact (bs_reset_tame None (cap) cr l_J (fun s => KP (l_par s)) x q HI Hq)|tauto|]. intros (x' & r) (T1 & T2 & T3). split; assumption.
Qed.
End L.
