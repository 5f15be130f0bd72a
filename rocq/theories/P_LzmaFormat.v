(** Facts about the LZMA format (LzmaFormatSpec.v): determinism, input needed for a symbol, symbols per byte. *)
From Verif Require Import Base LzmaFormatSpec.

Lemma decode_bind {A B} (p : prog A) (f : A -> prog B) : forall k,
  decode (pbind p f) k = match decode p k with Some (a, k) => decode (f a) k | None => None end.
Proof.
  induction p as [a|c n IH|n IH]; intros k; cbn [pbind decode]; [reflexivity| |]; destruct (norm k) as [k1|]; try reflexivity.
  - destruct (coded c k1) as [k2 b]. apply IH.
  - destruct (halved k1) as [k2 b]. apply IH.
Qed.

(** ** more input behind *)
Definition more (k : coder) (t : list Z) : coder := mkCoder (k_probs k) (k_range k) (k_code k) (k_in k ++ t).
Lemma norm_more k k' t : norm k = Some k' -> norm (more k t) = Some (more k' t).
Proof.
  unfold norm, more; cbn. destruct (k_range k <? _); [|intros E; injection E as <-; reflexivity].
  destruct (k_in k) as [|b r]; [discriminate|]. intros E; injection E as <-. reflexivity.
Qed.
Lemma coded_more c k t : coded c (more k t) = (more (fst (coded c k)) t, snd (coded c k)).
Proof. unfold coded, more; cbn. destruct (_ <? _); reflexivity. Qed.
Lemma halved_more k t : halved (more k t) = (more (fst (halved k)) t, snd (halved k)).
Proof. unfold halved, more; cbn. destruct (_ && _); reflexivity. Qed.
Lemma decode_more {A} (p : prog A) t : forall k a k', decode p k = Some (a, k') -> decode p (more k t) = Some (a, more k' t).
Proof.
  induction p as [a|c n IH|n IH]; intros k a' k'; cbn [decode]; [intros E; injection E as <- <-; reflexivity| |];
    destruct (norm k) as [k1|] eqn:E; try discriminate; rewrite (norm_more _ _ t E).
  - rewrite coded_more. destruct (coded c k1) as [k2 b]. cbn. apply IH.
  - rewrite halved_more. destruct (halved k1) as [k2 b]. cbn. apply IH.
Qed.
(** the input is consumed from the front *)
Lemma norm_in k k' : norm k = Some k' -> exists u, k_in k = u ++ k_in k'.
Proof.
  unfold norm. destruct (k_range k <? _); [|intros E; injection E as <-; exists []; reflexivity].
  destruct (k_in k) as [|b r]; [discriminate|]. intros E; injection E as <-. exists [b]. reflexivity.
Qed.
Lemma coded_in c k : k_in (fst (coded c k)) = k_in k.
Proof. unfold coded. destruct (_ <? _); reflexivity. Qed.
Lemma halved_in k : k_in (fst (halved k)) = k_in k.
Proof. unfold halved. destruct (_ && _); reflexivity. Qed.
Lemma decode_in {A} (p : prog A) : forall k a k', decode p k = Some (a, k') -> exists u, k_in k = u ++ k_in k'.
Proof.
  induction p as [a|c n IH|n IH]; intros k a' k'; cbn [decode]; [intros E; injection E as <- <-; exists []; reflexivity| |];
    destruct (norm k) as [k1|] eqn:E; try discriminate; destruct (norm_in _ _ E) as (u & Eu).
  - pose proof (coded_in c k1) as Ec. destruct (coded c k1) as [k2 b]. cbn in Ec. intros E2. destruct (IH _ _ _ _ E2) as (w & Ew). exists (u ++ w). rewrite Eu, <- Ec, Ew. apply app_assoc.
  - pose proof (halved_in k1) as Ec. destruct (halved k1) as [k2 b]. cbn in Ec. intros E2. destruct (IH _ _ _ _ E2) as (w & Ew). exists (u ++ w). rewrite Eu, <- Ec, Ew. apply app_assoc.
Qed.
(** input that is not needed may be missing *)
Lemma norm_less k t k' : norm (more k t) = Some k' -> zlen t <= zlen (k_in k') -> exists k1, norm k = Some k1 /\ k' = more k1 t.
Proof.
  unfold norm, more; cbn. destruct (k_range k <? _); [|intros E _; injection E as <-; eexists; split; reflexivity].
  destruct (k_in k) as [|b r]; cbn [app].
  - destruct t as [|b r]; [discriminate|]. intros E; injection E as <-. cbn. rewrite zlen_cons. lia.
  - intros E _; injection E as <-. eexists; split; reflexivity.
Qed.
Lemma decode_less {A} (p : prog A) t : forall k a k', decode p (more k t) = Some (a, k') -> zlen t <= zlen (k_in k') ->
  exists k1, decode p k = Some (a, k1) /\ k' = more k1 t.
Proof.
  induction p as [a|c n IH|n IH]; intros k a' k'; cbn [decode]; [intros E _; injection E as <- <-; eexists; split; reflexivity| |];
    destruct (norm (more k t)) as [k1|] eqn:E; try discriminate; intros E2 Hz.
  - assert (zlen (k_in k') <= zlen (k_in k1)) as H1.
    { pose proof (coded_in c k1) as Ec. destruct (coded c k1) as [k2 b]. cbn in Ec. destruct (decode_in _ _ _ _ E2) as (u & Eu). rewrite <- Ec, Eu, zlen_app. pose proof (zlen_nonneg u). lia. }
    destruct (norm_less _ _ _ E ltac:(lia)) as (k3 & -> & ->). rewrite coded_more in E2. destruct (coded c k3) as [k2 b]. cbn in E2. exact (IH _ _ _ _ E2 Hz).
  - assert (zlen (k_in k') <= zlen (k_in k1)) as H1.
    { pose proof (halved_in k1) as Ec. destruct (halved k1) as [k2 b]. cbn in Ec. destruct (decode_in _ _ _ _ E2) as (u & Eu). rewrite <- Ec, Eu, zlen_app. pose proof (zlen_nonneg u). lia. }
    destruct (norm_less _ _ _ E ltac:(lia)) as (k3 & -> & ->). rewrite halved_more in E2. destruct (halved k3) as [k2 b]. cbn in E2. exact (IH _ _ _ _ E2 Hz).
Qed.

(** ** ranges *)
Definition kgood (k : coder) : Prop := (forall c, 31 <= k_probs k c <= 2017) /\ 65536 <= k_range k < 4294967296 /\ 0 <= k_code k < 4294967296.
Definition normal (k : coder) : Prop := 16777216 <= k_range k.
Lemma norm_good k k' : kgood k -> norm k = Some k' -> kgood k' /\ normal k' /\ k_probs k' = k_probs k.
Proof.
  intros (G1 & G2 & G3). unfold norm. change (2 ^ 24) with 16777216. change (2 ^ 32) with 4294967296. destruct (Z.ltb_spec (k_range k) 16777216); [|intros E; injection E as <-; split; [split; [exact G1|lia]|split; [unfold normal; lia|reflexivity]]].
  destruct (k_in k) as [|b r]; [discriminate|]. intros E; injection E as <-. split; [|split; [unfold normal; cbn; lia|reflexivity]]. split; [exact G1|]. cbn. split; [lia|].
  pose proof (Z.mod_pos_bound b 256 ltac:(lia)).
  assert (k_code k * 256 mod 4294967296 <= 4294967296 - 256).
  { replace 4294967296 with (16777216 * 256) by lia. rewrite Z.mul_mod_distr_r by lia. pose proof (Z.mod_pos_bound (k_code k) 16777216 ltac:(lia)). lia. }
  pose proof (Z.mod_pos_bound (k_code k * 256) 4294967296 ltac:(lia)). lia.
Qed.
Lemma set_prob_good f c v : (forall c, 31 <= f c <= 2017) -> 31 <= v <= 2017 -> forall d, 31 <= set_prob f c v d <= 2017.
Proof. intros H Hv d. unfold set_prob. destruct (ctx_dec d c); [exact Hv|apply H]. Qed.
(** [lo]: the range does not shrink by more than 31/2048, up to rounding *)
Lemma coded_good c k : kgood k -> normal k ->
  kgood (fst (coded c k)) /\ k_range k * (31 * 8191) <= k_range (fst (coded c k)) * 16777216 /\ k_range (fst (coded c k)) * 2048 <= k_range k * 2018.
Proof.
  intros (G1 & G2 & G3) N. unfold normal in N. unfold coded. pose proof (G1 c) as Gc. set (v := k_probs k c) in *.
  assert (k_range k - 2047 <= 2048 * (k_range k / 2048) <= k_range k) as Hq by (pose proof (Z.div_mod (k_range k) 2048 ltac:(lia)); pose proof (Z.mod_pos_bound (k_range k) 2048 ltac:(lia)); lia).
  set (q := k_range k / 2048) in *. assert (q * 31 <= q * v <= q * 2017) as Hb by nia.
  assert (31 <= v + (2048 - v) / 32 <= 2017) as P0 by (pose proof (Z.div_mod (2048 - v) 32 ltac:(lia)); pose proof (Z.mod_pos_bound (2048 - v) 32 ltac:(lia)); lia).
  assert (31 <= v - v / 32 <= 2017) as P1 by (pose proof (Z.div_mod v 32 ltac:(lia)); pose proof (Z.mod_pos_bound v 32 ltac:(lia)); lia).
  remember (q * v) as w eqn:Ew. clear Ew.
  destruct (Z.ltb_spec (k_code k) w); cbn [fst k_range k_code k_probs]; unfold kgood; cbn [fst k_range k_code k_probs];
    (split; [|split; lia]); (split; [|split; lia]); apply set_prob_good; assumption.
Qed.
Lemma halved_good k : kgood k -> normal k ->
  kgood (fst (halved k)) /\ k_range k * 16777215 <= k_range (fst (halved k)) * 33554432 /\ k_range (fst (halved k)) <= k_range k.
Proof.
  intros (G1 & G2 & G3) N. unfold normal in N. unfold halved. pose proof (Z.div_mod (k_range k) 2 ltac:(lia)). pose proof (Z.mod_pos_bound (k_range k) 2 ltac:(lia)). set (h := k_range k / 2) in *. change (2 ^ 31) with 2147483648.
  destruct (Z.leb_spec h (k_code k)); cbn [andb].
  - destruct (Z.ltb_spec (k_code k - h) 2147483648); cbn [fst k_range k_code k_probs kgood]; (split; [split; [exact G1|cbn; lia]|lia]).
  - cbn [fst k_range k_code k_probs kgood]. split; [split; [exact G1|cbn; lia]|lia].
Qed.

(** ** the input that is needed *)
(** [p] asks for at most [n] bits with and [d] bits without a probability; 7 of these may be exchanged for one of those *)
Fixpoint costs {A} (p : prog A) (n d : nat) : Prop :=
  match p with
  | Done _ => True
  | Coded _ f => (exists n', n = S n' /\ forall b, costs (f b) n' d) \/ (exists d', d = (7 + d')%nat /\ forall b, costs (f b) n d')
  | Halved f => match d with O => False | S d => forall b, costs (f b) n d end
  end.
Lemma costs_le {A} (p : prog A) : forall n d n' d', costs p n d -> (n <= n')%nat -> (d <= d')%nat -> costs p n' d'.
Proof.
  induction p as [a|c f IH|f IH]; intros n d n' d' H Hn Hd; cbn in *; [exact Logic.I| |].
  - destruct H as [(m & -> & H)|(m & -> & H)].
    + left. exists (n' - 1)%nat. split; [lia|]. intros b. apply (IH b m d); [apply H|lia|lia].
    + right. exists (d' - 7)%nat. split; [lia|]. intros b. apply (IH b n m); [apply H|lia|lia].
  - destruct d as [|d]; [contradiction|]. destruct d' as [|d']; [lia|]. intros b. apply (IH b n d); [apply H|lia|lia].
Qed.
Lemma costs_bind {A B} (p : prog A) (g : A -> prog B) : forall n d n' d', costs p n d -> (forall a, costs (g a) n' d') -> costs (pbind p g) (n + n') (d + d').
Proof.
  induction p as [a|c f IH|f IH]; intros n d n' d' H Hg; cbn in *.
  - apply (costs_le _ n' d'); [apply Hg|lia|lia].
  - destruct H as [(m & -> & H)|(m & -> & H)].
    + left. exists (m + n')%nat. split; [lia|]. intros b. apply IH; [apply H|exact Hg].
    + right. exists (m + d')%nat. split; [lia|]. intros b. apply IH; [apply H|exact Hg].
  - destruct d as [|d]; [contradiction|]. cbn. intros b. apply IH; [apply H|exact Hg].
Qed.
(** every result of [p] satisfies [Q] *)
Fixpoint returns {A} (p : prog A) (Q : A -> Prop) : Prop :=
  match p with Done a => Q a | Coded _ f => forall b, returns (f b) Q | Halved f => forall b, returns (f b) Q end.
Lemma returns_decode {A} (p : prog A) Q : forall k a k', returns p Q -> decode p k = Some (a, k') -> Q a.
Proof.
  induction p as [x|c f IH|f IH]; intros k a k' H; cbn in *; [intros E; injection E as <- _; exact H| |]; destruct (norm k) as [k1|]; try discriminate.
  - destruct (coded c k1). apply IH, H.
  - destruct (halved k1). apply IH, H.
Qed.
Lemma returns_impl {A} (p : prog A) (Q R : A -> Prop) : returns p Q -> (forall a, Q a -> R a) -> returns p R.
Proof. intros H HI. induction p as [x|c f IH|f IH]; cbn in *; [apply HI, H| |]; intros b; apply IH, H. Qed.
Lemma returns_any {A} (p : prog A) : returns p (fun _ => True).
Proof. induction p as [x|c f IH|f IH]; cbn; [exact Logic.I| |]; exact IH. Qed.
Lemma returns_bind {A B} (p : prog A) (g : A -> prog B) (Q : A -> Prop) R : returns p Q -> (forall a, Q a -> returns (g a) R) -> returns (pbind p g) R.
Proof. intros H Hg. induction p as [x|c f IH|f IH]; cbn in *; [apply Hg, H| |]; intros b; apply IH, H. Qed.
Lemma costs_bind' {A B} (p : prog A) (g : A -> prog B) (Q : A -> Prop) : forall n d n' d', costs p n d -> returns p Q -> (forall a, Q a -> costs (g a) n' d') -> costs (pbind p g) (n + n') (d + d').
Proof.
  induction p as [a|c f IH|f IH]; intros n d n' d' H HQ Hg; cbn in *.
  - apply (costs_le _ n' d'); [apply Hg, HQ|lia|lia].
  - destruct H as [(m & -> & H)|(m & -> & H)].
    + left. exists (m + n')%nat. split; [lia|]. intros b. apply IH; [apply H|apply HQ|exact Hg].
    + right. exists (m + d')%nat. split; [lia|]. intros b. apply IH; [apply H|apply HQ|exact Hg].
  - destruct d as [|d]; [contradiction|]. cbn. intros b. apply IH; [apply H|apply HQ|exact Hg].
Qed.
Definition wt (n d : nat) : Z := (31 * 8191) ^ Z.of_nat n * 16777215 ^ Z.of_nat d.
Definition wT (n d : nat) : Z := 16777216 ^ Z.of_nat n * 33554432 ^ Z.of_nat d.
Lemma wt_pos n d : 0 < wt n d.
Proof. unfold wt. apply Z.mul_pos_pos; apply Z.pow_pos_nonneg; lia. Qed.
Lemma wT_pos n d : 0 < wT n d.
Proof. unfold wT. apply Z.mul_pos_pos; apply Z.pow_pos_nonneg; lia. Qed.
Lemma wt_le n d : wt n d <= wT n d.
Proof. unfold wt, wT. apply Z.mul_le_mono_nonneg; try (apply Z.pow_nonneg; lia); apply Z.pow_le_mono_l; lia. Qed.
Lemma wt_Sn n d : wt (S n) d = 31 * 8191 * wt n d.
Proof. unfold wt. rewrite Nat2Z.inj_succ, Z.pow_succ_r by lia. ring. Qed.
Lemma wT_Sn n d : wT (S n) d = 16777216 * wT n d.
Proof. unfold wT. rewrite Nat2Z.inj_succ, Z.pow_succ_r by lia. ring. Qed.
Lemma wt_Sd n d : wt n (S d) = 16777215 * wt n d.
Proof. unfold wt. rewrite Nat2Z.inj_succ, Z.pow_succ_r by lia. ring. Qed.
Lemma wT_Sd n d : wT n (S d) = 33554432 * wT n d.
Proof. unfold wT. rewrite Nat2Z.inj_succ, Z.pow_succ_r by lia. ring. Qed.
Lemma wt_7 n d : wt n (7 + d) = 16777215 ^ 7 * wt n d.
Proof. unfold wt. rewrite Nat2Z.inj_add, Z.pow_add_r by lia. change (Z.of_nat 7) with 7. ring. Qed.
Lemma wT_7 n d : wT n (7 + d) = 33554432 ^ 7 * wT n d.
Proof. unfold wT. rewrite Nat2Z.inj_add, Z.pow_add_r by lia. change (Z.of_nat 7) with 7. ring. Qed.
(** range and remaining input *)
Definition weight (k : coder) : Z := k_range k * 256 ^ zlen (k_in k).
Lemma norm_weight k k' : norm k = Some k' -> weight k' = weight k.
Proof.
  unfold norm, weight. destruct (k_range k <? _); [|intros E; injection E as <-; reflexivity].
  destruct (k_in k) as [|b r]; [discriminate|]. intros E; injection E as <-. cbn. rewrite zlen_cons, Z.pow_add_r by (pose proof (zlen_nonneg r); lia). ring.
Qed.
Lemma norm_none k : norm k = None -> weight k < 16777216.
Proof.
  unfold norm, weight. change (2 ^ 24) with 16777216. destruct (Z.ltb_spec (k_range k) 16777216); [|discriminate].
  destruct (k_in k) as [|b r]; [|discriminate]. intros _. change (zlen (@nil Z)) with 0. change (256 ^ 0) with 1. lia.
Qed.
Lemma pow256_pos (l : list Z) : 0 < 256 ^ zlen l.
Proof. apply Z.pow_pos_nonneg; [lia|apply zlen_nonneg]. Qed.
Lemma weight_step (a A W W1 X t T : Z) : 0 < a -> 0 < A -> 0 < t -> W * a <= W1 * A -> W1 * t < X * T -> W * (a * t) < X * (A * T).
Proof. intros. assert (W * a * t <= W1 * A * t) by (apply Z.mul_le_mono_nonneg_r; lia). assert (A * (W1 * t) < A * (X * T)) by (apply Z.mul_lt_mono_pos_l; lia). nia. Qed.
Lemma weight_step' (a A W W1 X t T : Z) : 0 < a -> 0 < A -> 0 < t -> W * a <= W1 * A -> W1 * t <= X * T -> W * (a * t) <= X * (A * T).
Proof. intros. assert (W * a * t <= W1 * A * t) by (apply Z.mul_le_mono_nonneg_r; lia). assert (A * (W1 * t) <= A * (X * T)) by (apply Z.mul_le_mono_nonneg_l; lia). nia. Qed.
Lemma coded_weight c k : kgood k -> normal k -> weight k * (31 * 8191) <= weight (fst (coded c k)) * 16777216.
Proof. intros G N. destruct (coded_good c k G N) as (_ & H & _). unfold weight. rewrite coded_in. pose proof (pow256_pos (k_in k)). nia. Qed.
Lemma halved_weight k : kgood k -> normal k -> weight k * 16777215 <= weight (fst (halved k)) * 33554432.
Proof. intros G N. destruct (halved_good k G N) as (_ & H & _). unfold weight. rewrite halved_in. pose proof (pow256_pos (k_in k)). nia. Qed.
Lemma decode_good {A} (p : prog A) : forall k n d, kgood k -> costs p n d ->
  match decode p k with
  | Some (a, k') => kgood k' /\ weight k * wt n d <= weight k' * wT n d
  | None => weight k * wt n d < 16777216 * wT n d
  end.
Proof.
  induction p as [a|c f IH|f IH]; intros k n d G Hc; cbn [decode costs] in *.
  - split; [exact G|]. assert (0 < weight k) by (unfold weight; destruct G as (_ & G & _); pose proof (pow256_pos (k_in k)); nia). pose proof (wt_le n d). nia.
  - destruct (norm k) as [k1|] eqn:E.
    + destruct (norm_good _ _ G E) as (G1 & N1 & _). pose proof (coded_good c k1 G1 N1) as (G2 & _). pose proof (coded_weight c k1 G1 N1) as W. rewrite (norm_weight _ _ E) in W.
      destruct (coded c k1) as [k2 b]. cbn [fst] in *. destruct Hc as [(m & -> & Hc)|(m & -> & Hc)].
      * specialize (IH b k2 m d G2 (Hc b)). rewrite wt_Sn, wT_Sn. destruct (decode (f b) k2) as [(a, k')|].
        -- destruct IH as (IH1 & IH2). split; [exact IH1|]. apply (weight_step' _ _ _ (weight k2)); try lia; try exact IH2. apply wt_pos.
        -- apply (weight_step _ _ _ (weight k2)); try lia; try exact IH. apply wt_pos.
      * specialize (IH b k2 n m G2 (Hc b)). rewrite (wt_7 n m), (wT_7 n m).
        assert (weight k * (16777215 ^ 7) <= weight k2 * (33554432 ^ 7)) as W7.
        { change (33554432 ^ 7) with (16777216 * 2 ^ 151). assert (16777215 ^ 7 <= 253921 * 2 ^ 151) as Q by (vm_compute; discriminate). change (31 * 8191) with 253921 in W.
          assert (0 < 2 ^ 151) by (apply Z.pow_pos_nonneg; lia). remember (2 ^ 151) as c151. remember (16777215 ^ 7) as c7.
          assert (0 < weight k) by (unfold weight; destruct G as (_ & G & _); pose proof (pow256_pos (k_in k)); nia). clear - W Q H H0. nia. }
        destruct (decode (f b) k2) as [(a, k')|].
        -- destruct IH as (IH1 & IH2). split; [exact IH1|]. apply (weight_step' _ _ _ (weight k2)); try exact IH2; try exact W7; try lia. apply wt_pos.
        -- apply (weight_step _ _ _ (weight k2)); try exact IH; try exact W7; try lia. apply wt_pos.
    + pose proof (norm_none _ E). pose proof (wt_le n d). pose proof (wt_pos n d). assert (0 < weight k) by (unfold weight; destruct G as (_ & G & _); pose proof (pow256_pos (k_in k)); nia). nia.
  - destruct d as [|d]; [contradiction|]. destruct (norm k) as [k1|] eqn:E.
    + destruct (norm_good _ _ G E) as (G1 & N1 & _). pose proof (halved_good k1 G1 N1) as (G2 & _). pose proof (halved_weight k1 G1 N1) as W. rewrite (norm_weight _ _ E) in W.
      destruct (halved k1) as [k2 b]. cbn [fst] in *. specialize (IH b k2 n d G2 (Hc b)). rewrite wt_Sd, wT_Sd. destruct (decode (f b) k2) as [(a, k')|].
      * destruct IH as (IH1 & IH2). split; [exact IH1|]. apply (weight_step' _ _ _ (weight k2)); try lia; try exact IH2. apply wt_pos.
      * apply (weight_step _ _ _ (weight k2)); try lia; try exact IH. apply wt_pos.
    + pose proof (norm_none _ E). pose proof (wt_le n (S d)). pose proof (wt_pos n (S d)). assert (0 < weight k) by (unfold weight; destruct G as (_ & G & _); pose proof (pow256_pos (k_in k)); nia). nia.
Qed.

Lemma costs_one c : costs (one c) 1 0.
Proof. left. exists 0%nat. split; [reflexivity|]. intros b; exact Logic.I. Qed.
Lemma costs_S {A} c (f : bool -> prog A) n d : (forall b, costs (f b) n d) -> costs (Coded c f) (S n) d.
Proof. intros H. left. exists n. split; [reflexivity|exact H]. Qed.
Lemma costs_tree mk : forall n m, costs (tree mk n m) n 0.
Proof. induction n as [|n IH]; intros m; [exact Logic.I|]. cbn [tree pbind one]. apply costs_S. intros b. apply IH. Qed.
Lemma costs_number mk n : costs (number mk n) n 0.
Proof. unfold number. apply (costs_le _ (n + 0) (0 + 0)); [|lia|lia]. apply costs_bind; [apply costs_tree|intros a; exact Logic.I]. Qed.
Lemma costs_reverse mk : forall n m w, costs (reverse mk n m w) n 0.
Proof.
  induction n as [|n IH]; intros m w; [exact Logic.I|]. cbn [reverse pbind one]. apply costs_S. intros b. apply (costs_le _ (n + 0) (0 + 0)); [|lia|lia]. apply costs_bind; [apply IH|intros r; exact Logic.I].
Qed.
Lemma costs_direct : forall n m, costs (direct n m) 0 n.
Proof. induction n as [|n IH]; intros m; [exact Logic.I|]. cbn. intros b. apply IH. Qed.
Lemma costs_plain l n m : costs (plain l n m) n 0.
Proof. unfold plain. apply (costs_le _ (n + 0) (0 + 0)); [|lia|lia]. apply costs_bind; [apply costs_tree|intros a; exact Logic.I]. Qed.
Lemma costs_matched l e : forall n m, costs (matched l e n m) n 0.
Proof. induction n as [|n IH]; intros m; [exact Logic.I|]. cbn [matched pbind one]. apply costs_S. intros b. destruct (Bool.eqb b _); [apply IH|apply costs_plain]. Qed.
Lemma costs_length r pos : costs (length_ r pos) 10 0.
Proof.
  unfold length_. apply (costs_bind _ _ 1 0 9 0); [apply costs_one|]. intros [|]; [|apply (costs_le _ 3 0); [apply costs_number|lia|lia]].
  apply (costs_bind _ _ 1 0 8 0); [apply costs_one|]. intros [|].
  - apply (costs_bind _ _ 8 0 0 0); [apply costs_number|intros a; exact Logic.I].
  - apply (costs_le _ (3 + 0) (0 + 0)); [|lia|lia]. apply costs_bind; [apply costs_number|intros a; exact Logic.I].
Qed.
Lemma returns_tree mk : forall n m, returns (tree mk n m) (fun r => m * 2 ^ Z.of_nat n <= r < (m + 1) * 2 ^ Z.of_nat n).
Proof.
  induction n as [|n IH]; intros m; [cbn; lia|]. cbn [tree pbind one returns]. intros b. refine (returns_impl _ _ _ (IH _) _). cbv beta. intros r Hr.
  rewrite Nat2Z.inj_succ, Z.pow_succ_r by lia. assert (0 < 2 ^ Z.of_nat n) by (apply Z.pow_pos_nonneg; lia). destruct b; cbn [z_of] in Hr; nia.
Qed.
Lemma returns_number mk n : returns (number mk n) (fun r => 0 <= r < 2 ^ Z.of_nat n).
Proof. unfold number. refine (returns_bind _ _ _ _ (returns_tree mk n 1) _). intros a Ha. cbn. lia. Qed.
Lemma returns_reverse mk : forall n m w, 0 <= w -> returns (reverse mk n m w) (fun r => 0 <= r <= w * (2 ^ Z.of_nat n - 1)).
Proof.
  induction n as [|n IH]; intros m w Hw; [cbn; lia|]. cbn [reverse pbind one returns]. intros b. refine (returns_bind _ _ _ _ (IH _ _ _) _); [lia|]. intros r Hr. cbn [returns].
  rewrite Nat2Z.inj_succ, Z.pow_succ_r by lia. destruct b; cbn [z_of]; nia.
Qed.
Lemma returns_reversed mk n : returns (reversed mk n) (fun r => 0 <= r < 2 ^ Z.of_nat n).
Proof. refine (returns_impl _ _ _ (returns_reverse mk n 1 1 _) _); [lia|]. cbv beta. lia. Qed.
Lemma returns_direct : forall n m, returns (direct n m) (fun r => m * 2 ^ Z.of_nat n <= r < (m + 1) * 2 ^ Z.of_nat n).
Proof.
  induction n as [|n IH]; intros m; [cbn; lia|]. cbn [direct returns]. intros b. refine (returns_impl _ _ _ (IH _) _). cbv beta. intros r Hr.
  rewrite Nat2Z.inj_succ, Z.pow_succ_r by lia. assert (0 < 2 ^ Z.of_nat n) by (apply Z.pow_pos_nonneg; lia). destruct b; cbn [z_of] in Hr; nia.
Qed.
Lemma returns_plain l n m : (0 <= n <= 8)%nat -> 2 ^ (8 - Z.of_nat n) <= m < 2 ^ (9 - Z.of_nat n) -> returns (plain l n m) (fun r => 0 <= r < 256).
Proof.
  intros Hn Hm. unfold plain. refine (returns_bind _ _ _ _ (returns_tree (CLiteral l) n m) _). intros a Ha. cbn [returns].
  assert (2 ^ (8 - Z.of_nat n) * 2 ^ Z.of_nat n = 256) as E1 by (rewrite <- Z.pow_add_r by lia; replace (8 - Z.of_nat n + Z.of_nat n) with 8 by lia; reflexivity).
  assert (2 ^ (9 - Z.of_nat n) * 2 ^ Z.of_nat n = 512) as E2 by (rewrite <- Z.pow_add_r by lia; replace (9 - Z.of_nat n + Z.of_nat n) with 9 by lia; reflexivity).
  assert (0 < 2 ^ Z.of_nat n) by (apply Z.pow_pos_nonneg; lia). nia.
Qed.
Lemma double_node n m (b : bool) : (n < 8)%nat -> 2 ^ (8 - Z.of_nat (S n)) <= m < 2 ^ (9 - Z.of_nat (S n)) -> 2 ^ (8 - Z.of_nat n) <= 2 * m + z_of b < 2 ^ (9 - Z.of_nat n).
Proof.
  intros Hn Hm. replace (8 - Z.of_nat n) with (Z.succ (8 - Z.of_nat (S n))) by lia. replace (9 - Z.of_nat n) with (Z.succ (9 - Z.of_nat (S n))) by lia.
  rewrite !Z.pow_succ_r by lia. destruct b; cbn [z_of]; lia.
Qed.
Lemma returns_matched l e : forall n m, (n <= 8)%nat -> 2 ^ (8 - Z.of_nat n) <= m < 2 ^ (9 - Z.of_nat n) -> returns (matched l e n m) (fun r => 0 <= r < 256).
Proof.
  induction n as [|n IH]; intros m Hn Hm; [cbn in *; lia|]. cbn [matched pbind one returns]. intros b. pose proof (double_node n m b ltac:(lia) Hm).
  destruct (Bool.eqb b _); [apply IH|apply returns_plain]; try lia; assumption.
Qed.
Lemma returns_length r pos : returns (length_ r pos) (fun l => 0 <= l < 272).
Proof.
  unfold length_. cbn [pbind one returns]. intros [|]; [cbn [pbind one returns]; intros [|]|].
  - refine (returns_bind _ _ _ _ (returns_number _ 8) _). intros a Ha. change (2 ^ Z.of_nat 8) with 256 in Ha. cbn [returns]. lia.
  - refine (returns_bind _ _ _ _ (returns_number _ 3) _). intros a Ha. change (2 ^ Z.of_nat 3) with 8 in Ha. cbn [returns]. lia.
  - refine (returns_impl _ _ _ (returns_number _ 3) _). intros a Ha. change (2 ^ Z.of_nat 3) with 8 in Ha. lia.
Qed.
Lemma slot_bits slot : 4 <= slot < 64 -> 1 <= slot / 2 - 1 <= 30 /\ (14 <= slot -> 6 <= slot / 2 - 1) /\ (slot < 14 -> slot / 2 - 1 <= 5) /\ 2 <= 2 + slot mod 2 <= 3.
Proof. intros H. pose proof (Z.div_mod slot 2 ltac:(lia)). pose proof (Z.mod_pos_bound slot 2 ltac:(lia)). lia. Qed.
Lemma costs_reversed mk n : costs (reversed mk n) n 0.
Proof. apply costs_reverse. Qed.
Lemma costs_reversed5 mk : costs (reversed mk 5) 4 7.
Proof.
  unfold reversed. cbn [reverse pbind one]. right. exists 0%nat. split; [reflexivity|]. intros b. do 4 (apply costs_S; intros ?). exact Logic.I.
Qed.
Lemma costs_distance l : costs (distance l) 10 26.
Proof.
  unfold distance. apply (costs_bind' _ _ _ 6 0 4 26 (costs_number _ 6) (returns_number _ 6)). intros slot Hs. change (2 ^ Z.of_nat 6) with 64 in Hs.
  destruct (Z.ltb_spec slot 4); [exact Logic.I|]. destruct (slot_bits slot ltac:(lia)) as (B1 & B2 & B3 & B4). cbv zeta. destruct (Z.ltb_spec slot 14).
  - specialize (B3 ltac:(lia)). apply (costs_bind _ _ 4 26 0 0); [|intros r; exact Logic.I]. destruct (Z.eq_dec (slot / 2 - 1) 5) as [->|].
    + apply (costs_le _ 4 7); [apply costs_reversed5|lia|lia].
    + apply (costs_le _ (Z.to_nat (slot / 2 - 1)) 0); [apply costs_reversed|lia|lia].
  - specialize (B2 ltac:(lia)). apply (costs_bind _ _ 0 26 4 0); [apply (costs_le _ 0 (Z.to_nat (slot / 2 - 1 - 4))); [apply costs_direct|lia|lia]|].
    intros m. apply (costs_bind _ _ 4 0 0 0); [apply costs_reversed|intros r; exact Logic.I].
Qed.
Lemma costs_sym state pos lit ex : costs (sym state pos lit ex) 22 26.
Proof.
  unfold sym. cbn [pbind one]. apply costs_S. intros [|].
  - cbn [pbind one]. apply costs_S. intros [|].
    + cbn [pbind one]. apply costs_S. intros g. apply (costs_bind _ _ 2 0 17 26).
      * destruct g; cbn [pbind one]; apply costs_S; intros [|]; try exact Logic.I. cbn [pbind one]. apply costs_S. intros b; exact Logic.I.
      * intros [w|]; [|exact Logic.I]. apply (costs_le _ (10 + 0) (0 + 0)); [|lia|lia]. apply costs_bind; [apply costs_length|intros l; exact Logic.I].
    + apply (costs_bind _ _ 10 0 10 26); [apply costs_length|]. intros l. apply (costs_bind _ _ 10 26 0 0); [apply costs_distance|intros d; exact Logic.I].
  - apply (costs_le _ (8 + 0) (0 + 0)); [|lia|lia]. apply costs_bind; [|intros b; exact Logic.I]. destruct ex; [apply costs_matched|apply costs_plain].
Qed.
(** 20 bytes are enough for a symbol: LZMA_REQUIRED_INPUT_MAX *)
Definition decoded (p : lzprops) (z : lz) : option (symbol * coder) :=
  match decode (next_sym p z) (z_coder z) with
  | None => None
  | Some (s, k) => match norm k with None => None | Some k => Some (s, k) end
  end.
Lemma enough_input p z : kgood (z_coder z) -> normal (z_coder z) -> 20 <= zlen (k_in (z_coder z)) -> decoded p z <> None.
Proof.
  intros G N H. set (k := z_coder z) in *. assert (16777216 * 256 ^ 20 <= weight k) as W.
  { unfold weight. unfold normal in N. assert (256 ^ 20 <= 256 ^ zlen (k_in k)) by (apply Z.pow_le_mono_r; lia). assert (0 < 256 ^ 20) by (apply Z.pow_pos_nonneg; lia). nia. }
  assert (16777216 * wT 22 26 < 16777216 * 256 ^ 20 * wt 22 26) as C by (vm_compute; reflexivity). pose proof (wt_pos 22 26) as P1. pose proof (wT_pos 22 26) as P2.
  assert (16777216 * 256 ^ 20 * wt 22 26 <= weight k * wt 22 26) as C2 by (apply Z.mul_le_mono_nonneg_r; lia).
  unfold decoded. fold k. unfold next_sym. pose proof (decode_good _ k 22 26 G (costs_sym (z_state z) (zlen (z_out z) mod 2 ^ x_pb p)
    (zlen (z_out z) mod 2 ^ x_lp p * 2 ^ x_lc p + (match z_out z with [] => 0 | _ => back 1 (z_out z) end) / 2 ^ (8 - x_lc p))
    (if z_state z <? 7 then None else Some (back (z_rep0 z) (z_out z))))) as D. cbv zeta.
  destruct (decode _ k) as [(s, k')|] in *; [|exfalso; lia]. destruct D as (G' & D). destruct (norm k') as [k2|] eqn:E; [discriminate|]. exfalso. pose proof (norm_none _ E).
  assert (weight k' * wT 22 26 < 16777216 * wT 22 26) by (apply Z.mul_lt_mono_pos_r; lia). lia.
Qed.

(** ** symbols per byte *)
Lemma norm_len k k' : norm k = Some k' -> zlen (k_in k') <= zlen (k_in k) /\ (zlen (k_in k') = zlen (k_in k) -> k' = k).
Proof.
  unfold norm. destruct (k_range k <? _); [|intros E; injection E as <-; split; [lia|reflexivity]].
  destruct (k_in k) as [|b r] eqn:Ei; [discriminate|]. intros E; injection E as <-. cbn [k_in]. rewrite zlen_cons. lia.
Qed.
Lemma decode_shrinks {A} (p : prog A) : forall k a k' n d, kgood k -> costs p n d -> decode p k = Some (a, k') ->
  zlen (k_in k') <= zlen (k_in k) /\ (zlen (k_in k') = zlen (k_in k) -> k_range k' <= k_range k).
Proof.
  induction p as [a|c f IH|f IH]; intros k a' k' n d G Hc; cbn [decode costs] in *; [intros E; injection E as <- <-; lia| |]; destruct (norm k) as [k1|] eqn:E; try discriminate;
    destruct (norm_good _ _ G E) as (G1 & N1 & _); destruct (norm_len _ _ E) as (L1 & L2).
  - pose proof (coded_in c k1) as Ec. destruct (coded_good c k1 G1 N1) as (G2 & _ & Hr). destruct (coded c k1) as [k2 b]. cbn [fst] in *. intros E2.
    assert (exists n d, costs (f b) n d) as (n' & d' & Hc') by (destruct Hc as [(m & _ & H)|(m & _ & H)]; do 2 eexists; apply H).
    destruct (IH b _ _ _ _ _ G2 Hc' E2) as (I1 & I2). rewrite Ec in *. split; [lia|]. intros Q. specialize (L2 ltac:(lia)). subst k1. specialize (I2 ltac:(lia)). destruct G as (_ & G & _). lia.
  - pose proof (halved_in k1) as Ec. destruct (halved_good k1 G1 N1) as (G2 & _ & Hr). destruct (halved k1) as [k2 b]. cbn [fst] in *. intros E2.
    destruct d as [|d]; [contradiction|].
    destruct (IH b _ _ _ _ _ G2 (Hc b) E2) as (I1 & I2). rewrite Ec in *. split; [lia|]. intros Q. specialize (L2 ltac:(lia)). subst k1. specialize (I2 ltac:(lia)). lia.
Qed.
(** a symbol starts with a coded bit *)
Lemma sym_shrinks st pos lit ex k s k' : kgood k -> decode (sym st pos lit ex) k = Some (s, k') ->
  zlen (k_in k') <= zlen (k_in k) /\ (zlen (k_in k') = zlen (k_in k) -> k_range k' * 2048 <= k_range k * 2018).
Proof.
  intros G. pose proof (costs_sym st pos lit ex) as Hc. unfold sym in *. cbn [pbind one decode] in *. destruct (norm k) as [k1|] eqn:E; try discriminate.
  destruct (norm_good _ _ G E) as (G1 & N1 & _); destruct (norm_len _ _ E) as (L1 & L2).
  pose proof (coded_in (CMatch st pos) k1) as Ec. destruct (coded_good (CMatch st pos) k1 G1 N1) as (G2 & _ & Hr). destruct (coded (CMatch st pos) k1) as [k2 b]. cbn [fst] in *. intros E2.
  match type of E2 with decode ?P _ = _ => assert (exists n d, costs P n d) as (n' & d' & Hc') end.
  { destruct Hc as [(m & _ & H)|(m & _ & H)]; do 2 eexists; apply (H b). }
  destruct (decode_shrinks _ _ _ _ _ _ G2 Hc' E2) as (I1 & I2). rewrite Ec in *. split; [lia|]. intros Q. specialize (L2 ltac:(lia)). subst k1. specialize (I2 ltac:(lia)). lia.
Qed.

(** ** streams *)
Definition is_byte (b : Z) : Prop := 0 <= b < 256.
Definition rep_ok (p : lzprops) (o : list Z) (d : Z) : Prop := 1 <= d <= x_dict p /\ d <= Z.max 1 (zlen o).
Record zinv (p : lzprops) (z : lz) : Prop := {
  zi_good : kgood (z_coder z);
  zi_normal : normal (z_coder z);
  zi_state : 0 <= z_state z < 12;
  zi_rep0 : rep_ok p (z_out z) (z_rep0 z);
  zi_rep1 : rep_ok p (z_out z) (z_rep1 z);
  zi_rep2 : rep_ok p (z_out z) (z_rep2 z);
  zi_rep3 : rep_ok p (z_out z) (z_rep3 z);
  zi_first : z_out z = [] -> z_state z < 7;
  zi_bytes : Forall is_byte (z_out z) }.
Lemma back_byte d o : Forall is_byte o -> is_byte (back d o).
Proof.
  intros H. unfold back. destruct (Nat.lt_ge_cases (length o - Z.to_nat d) (length o)) as [L|L].
  - rewrite Forall_forall in H. apply H, nth_In. exact L.
  - rewrite nth_overflow by exact L. unfold is_byte; lia.
Qed.
Lemma copy_app : forall n d o, exists w, copy n d o = o ++ w /\ zlen w = Z.of_nat n /\ (Forall is_byte o -> Forall is_byte w).
Proof.
  induction n as [|n IH]; intros d o.
  - exists []. rewrite app_nil_r. split; [reflexivity|split; [reflexivity|constructor]].
  - cbn [copy]. destruct (IH d (o ++ [back d o])) as (w & E & L & B). exists (back d o :: w). rewrite E, <- app_assoc. split; [reflexivity|]. rewrite zlen_cons. split; [lia|].
    intros H. constructor; [apply back_byte, H|]. apply B. apply Forall_app. split; [exact H|]. constructor; [apply back_byte, H|constructor].
Qed.
Lemma decoded_some p z s k : kgood (z_coder z) -> decoded p z = Some (s, k) ->
  kgood k /\ normal k /\ exists u, k_in (z_coder z) = u ++ k_in k.
Proof.
  intros G. unfold decoded. pose proof (decode_good _ _ 22 26 G (costs_sym (z_state z) (zlen (z_out z) mod 2 ^ x_pb p)
    (zlen (z_out z) mod 2 ^ x_lp p * 2 ^ x_lc p + (match z_out z with [] => 0 | _ => back 1 (z_out z) end) / 2 ^ (8 - x_lc p))
    (if z_state z <? 7 then None else Some (back (z_rep0 z) (z_out z))))) as D. fold (next_sym p z) in D.
  destruct (decode (next_sym p z) (z_coder z)) as [(s', k')|] eqn:E; [|discriminate]. destruct (norm k') as [k2|] eqn:E2; [|discriminate]. intros Q. injection Q as <- <-.
  destruct D as (G' & _). destruct (norm_good _ _ G' E2) as (G2 & N2 & _). split; [exact G2|]. split; [exact N2|]. destruct (decode_in _ _ _ _ E) as (u & Eu). destruct (norm_in _ _ E2) as (w & Ew).
  exists (u ++ w). rewrite Eu, Ew. apply app_assoc.
Qed.
(** the part of [step] behind the decoding *)
Definition apply_sym (p : lzprops) (z : lz) (s : symbol) (k : coder) : outcome :=
  let lit_state := z_state z <? 7 in
  let '(r0, r1, r2, r3) := (z_rep0 z, z_rep1 z, z_rep2 z, z_rep3 z) in
  match s with
  | EndMark => Marked k
  | Lit b => Next (mkLz k (after_literal (z_state z)) r0 r1 r2 r3 (z_out z ++ [b]))
  | New len d =>
      if (d <=? zlen (z_out z)) && (d <=? x_dict p)
      then Next (mkLz k (if lit_state then 7 else 10) d r0 r1 r2 (copy (Z.to_nat len) d (z_out z)))
      else Invalid
  | _ =>
    match z_out z with
    | [] => Invalid
    | _ =>
      match s with
      | Again w len =>
          let '(d, r1, r2, r3) := if w =? 0 then (r0, r1, r2, r3) else if w =? 1 then (r1, r0, r2, r3)
                                  else if w =? 2 then (r2, r0, r1, r3) else (r3, r0, r1, r2) in
          Next (mkLz k (if lit_state then 8 else 11) d r1 r2 r3 (copy (Z.to_nat len) d (z_out z)))
      | _ => Next (mkLz k (if lit_state then 9 else 11) r0 r1 r2 r3 (z_out z ++ [back r0 (z_out z)]))
      end
    end
  end.
Lemma step_eq p z : step p z = match decoded p z with Some (s, k) => apply_sym p z s k | None => Starved end.
Proof. unfold step, decoded. destruct (decode (next_sym p z) (z_coder z)) as [(s, k)|]; [|reflexivity]. destruct (norm k); reflexivity. Qed.
Definition sym_ok (s : symbol) : Prop :=
  match s with Lit b => is_byte b | New l d => 2 <= l <= 273 /\ 1 <= d <= 4294967295 | Again w l => 0 <= w <= 3 /\ 2 <= l <= 273 | _ => True end.
Lemma returns_distance l : returns (distance l) (fun d => 0 <= d <= 4294967295).
Proof.
  unfold distance. refine (returns_bind _ _ _ _ (returns_number _ 6) _). intros slot Hs. change (2 ^ Z.of_nat 6) with 64 in Hs.
  destruct (Z.ltb_spec slot 4); [cbn [returns]; lia|]. destruct (slot_bits slot ltac:(lia)) as (B1 & B2 & B3 & B4). cbv zeta. destruct (Z.ltb_spec slot 14).
  - refine (returns_bind _ _ _ _ (returns_reversed _ _) _). intros low Hl. cbn [returns]. rewrite Z2Nat.id in Hl by lia. specialize (B3 ltac:(lia)).
    assert (2 ^ (slot / 2 - 1) <= 2 ^ 5) by (apply Z.pow_le_mono_r; lia). change (2 ^ 5) with 32 in *. assert (0 < 2 ^ (slot / 2 - 1)) by (apply Z.pow_pos_nonneg; lia). nia.
  - refine (returns_bind _ _ _ _ (returns_direct _ _) _). intros mid Hm. refine (returns_bind _ _ _ _ (returns_reversed _ 4) _). intros low Hl. cbn [returns]. change (2 ^ Z.of_nat 4) with 16 in Hl.
    rewrite Z2Nat.id in Hm by lia. specialize (B2 ltac:(lia)). assert (2 ^ (slot / 2 - 1 - 4) <= 2 ^ 26) by (apply Z.pow_le_mono_r; lia). change (2 ^ 26) with 67108864 in *. assert (0 < 2 ^ (slot / 2 - 1 - 4)) by (apply Z.pow_pos_nonneg; lia). nia.
Qed.
Lemma returns_sym st pos lit ex : returns (sym st pos lit ex) sym_ok.
Proof.
  unfold sym. cbn [pbind one returns]. intros [|].
  - cbn [pbind one returns]. intros [|].
    + cbn [pbind one returns]. intros g. apply (returns_bind _ _ (fun w => match w with Some w => 0 <= w <= 3 | None => True end)).
      * destruct g; cbn [pbind one returns]; intros [|]; cbn [pbind one returns]; try exact Logic.I; try lia. intros [|]; lia.
      * intros [w|] Hw; [|exact Logic.I]. refine (returns_bind _ _ _ _ (returns_length _ _) _). intros l Hl. cbn [returns sym_ok]. lia.
    + refine (returns_bind _ _ _ _ (returns_length _ _) _). intros l Hl. refine (returns_bind _ _ _ _ (returns_distance l) _). intros d Hd. cbn [returns]. destruct (Z.eqb_spec d 4294967295); cbn [sym_ok]; [exact Logic.I|lia].
  - apply (returns_bind _ _ is_byte); [|intros b Hb; exact Hb]. destruct ex; [apply returns_matched|apply returns_plain]; try lia; cbn; lia.
Qed.
Lemma decoded_sym p z s k : decoded p z = Some (s, k) -> sym_ok s.
Proof.
  unfold decoded. destruct (decode (next_sym p z) (z_coder z)) as [(s', k')|] eqn:E; [|discriminate]. destruct (norm k') as [k2|]; [|discriminate]. intros Q. injection Q as <- <-.
  refine (returns_decode _ sym_ok _ _ _ _ E). apply returns_sym.
Qed.
Lemma rep_ok_app p o w d : rep_ok p o d -> rep_ok p (o ++ w) d.
Proof. intros (H1 & H2). split; [exact H1|]. rewrite zlen_app. pose proof (zlen_nonneg w). lia. Qed.
Lemma after_literal_ok s : 0 <= s < 12 -> 0 <= after_literal s < 7.
Proof. intros H. unfold after_literal. destruct (Z.ltb_spec s 4); [lia|]. destruct (Z.ltb_spec s 10); lia. Qed.
Lemma apply_inv p z s k z' : zinv p z -> sym_ok s -> kgood k -> normal k -> apply_sym p z s k = Next z' ->
  zinv p z' /\ z_coder z' = k /\ exists w, z_out z' = z_out z ++ w /\ 1 <= zlen w <= 273.
Proof.
  intros [I1 I2 I3 I4 I5 I6 I7 I8 I9] Hs G N. assert (forall w d, rep_ok p (z_out z) d -> rep_ok p (z_out z ++ w) d) as HR by (intros w d; apply rep_ok_app). unfold apply_sym. destruct s as [b|len d| |w len|]; cbn [sym_ok] in Hs.
  - intros E; injection E as <-. split; [|split; [reflexivity|exists [b]; split; [reflexivity|unfold zlen; cbn; lia]]]. pose proof (after_literal_ok _ I3).
    constructor; cbn; try assumption; try lia; try (apply HR; assumption). apply Forall_app; split; [exact I9|constructor; [exact Hs|constructor]].
  - destruct (Z.leb_spec d (zlen (z_out z))); [|discriminate]. destruct (Z.leb_spec d (x_dict p)); [|discriminate]. cbn [andb]. intros E; injection E as <-.
    destruct (copy_app (Z.to_nat len) d (z_out z)) as (w & E & L & B). assert (z_out z <> []) as Hne by (intros Q; rewrite Q in *; change (zlen (@nil Z)) with 0 in *; lia).
    cbn [z_coder z_out]. rewrite E. split; [|split; [reflexivity|exists w; split; [reflexivity|lia]]].
    constructor; cbn; try assumption; try (apply HR; assumption); [destruct (z_state z <? 7); lia| |intros Q; apply app_eq_nil in Q; destruct Q; contradiction|].
    + apply HR. split; lia.
    + apply Forall_app; split; [exact I9|apply B, I9].
  - destruct (z_out z) as [|x o] eqn:Eo; [discriminate|]. rewrite <- Eo in *. intros E; injection E as <-.
    split; [|split; [reflexivity|eexists; split; [reflexivity|unfold zlen; cbn; lia]]]. assert (z_out z <> []) as Hne by (rewrite Eo; discriminate).
    constructor; cbn; try assumption; try (apply HR; assumption); [destruct (z_state z <? 7); lia|intros Q; apply app_eq_nil in Q; destruct Q; contradiction|].
    apply Forall_app; split; [exact I9|constructor; [apply back_byte, I9|constructor]].
  - destruct (z_out z) as [|x o] eqn:Eo; [discriminate|]. rewrite <- Eo in *. assert (z_out z <> []) as Hne by (rewrite Eo; discriminate).
    assert (forall d, exists w', copy (Z.to_nat len) d (z_out z) = z_out z ++ w' /\ zlen w' = len /\ Forall is_byte w') as HC by (intros d; destruct (copy_app (Z.to_nat len) d (z_out z)) as (w' & E & L & B); exists w'; split; [exact E|split; [lia|apply B, I9]]).
    destruct (w =? 0); [|destruct (w =? 1); [|destruct (w =? 2)]]; intros E; injection E as <-; cbn [z_coder z_out];
      match goal with |- context [copy (Z.to_nat len) ?d _] => destruct (HC d) as (w' & E & L & B) end; rewrite E; (split; [|split; [reflexivity|exists w'; split; [reflexivity|lia]]]);
      (constructor; cbn; try assumption; try (apply HR; assumption); [destruct (z_state z <? 7); lia|intros Q; apply app_eq_nil in Q; destruct Q; contradiction|apply Forall_app; split; [exact I9|exact B]]).
  - discriminate.
Qed.
Lemma step_next p z z' : zinv p z -> step p z = Next z' ->
  zinv p z' /\ (exists w, z_out z' = z_out z ++ w /\ 1 <= zlen w <= 273) /\ (exists u, k_in (z_coder z) = u ++ k_in (z_coder z')) /\
  (zlen (k_in (z_coder z')) = zlen (k_in (z_coder z)) -> k_range (z_coder z') * 2048 <= k_range (z_coder z) * 2018).
Proof.
  intros I. rewrite step_eq. destruct (decoded p z) as [(s, k)|] eqn:E; [|discriminate]. intros En.
  destruct (decoded_some _ _ _ _ (zi_good _ _ I) E) as (G & N & U). destruct (apply_inv _ _ _ _ _ I (decoded_sym _ _ _ _ E) G N En) as (I' & -> & W).
  split; [exact I'|]. split; [exact W|]. split; [exact U|].
  unfold decoded in E. destruct (decode (next_sym p z) (z_coder z)) as [(s', k')|] eqn:E1; [|discriminate]. destruct (norm k') as [k2|] eqn:E2; [|discriminate]. injection E as <- <-.
  destruct (sym_shrinks _ _ _ _ _ _ _ (zi_good _ _ I) E1) as (S1 & S2). destruct (norm_len _ _ E2) as (L1 & L2). intros Q. specialize (L2 ltac:(lia)). subst k2. apply S2. exact Q.
Qed.
Lemma start_inv p r z : lzprops_ok p -> start r = Some z -> zinv p z /\ z_out z = [] /\ exists u, r = u ++ k_in (z_coder z) /\ zlen u = 5.
Proof.
  intros Hp. unfold start. destruct r as [|b0 [|b1 [|b2 [|b3 [|b4 r]]]]]; try discriminate. destruct (b0 mod 256 =? 0); [|discriminate]. intros E; injection E as <-.
  split; [|split; [reflexivity|exists [b0;b1;b2;b3;b4]; split; reflexivity]].
  pose proof (Z.mod_pos_bound b1 256 ltac:(lia)). pose proof (Z.mod_pos_bound b2 256 ltac:(lia)). pose proof (Z.mod_pos_bound b3 256 ltac:(lia)). pose proof (Z.mod_pos_bound b4 256 ltac:(lia)).
  destruct Hp as (_ & _ & _ & Hd). assert (forall d, d = 1 -> rep_ok p [] d) as HR by (intros d ->; split; change (zlen (@nil Z)) with 0; lia).
  constructor; cbn [z_coder z_state z_rep0 z_rep1 z_rep2 z_rep3 z_out]; try (apply HR; reflexivity); try lia; [|unfold normal; cbn; lia|constructor].
  split; [intros c; cbn; lia|]. cbn [k_range k_code]. change (2 ^ 32 - 1) with 4294967295. lia.
Qed.
Lemma steps_trans p a b c : steps p a b -> steps p b c -> steps p a c.
Proof. intros H1 H2. induction H2 as [b|b y x H IH E]; [exact H1|]. exact (StepsS _ _ _ _ (IH H1) E). Qed.
(** from the front *)
Lemma steps_first p z x : steps p z x -> z = x \/ exists y, step p z = Next y /\ steps p y x.
Proof.
  intros H. induction H as [z|z y x H IH E]; [left; reflexivity|]. right. destruct IH as [->|(w & E1 & H1)]; [exists x; split; [exact E|constructor]|].
  exists w. split; [exact E1|]. exact (StepsS _ _ _ _ H1 E).
Qed.
Lemma steps_linear p z a b : steps p z a -> steps p z b -> steps p a b \/ steps p b a.
Proof.
  intros H1 H2. induction H1 as [z|z y x H IH E]; [left; exact H2|]. specialize (IH H2). destruct IH as [IH|IH].
  - destruct (steps_first _ _ _ IH) as [->|(w & E1 & H3)]; [right; apply (StepsS _ _ b); [constructor|exact E]|]. left. congruence.
  - right. exact (StepsS _ _ _ _ IH E).
Qed.
Lemma steps_inv p z x : zinv p z -> steps p z x -> zinv p x /\ (exists w, z_out x = z_out z ++ w) /\ exists u, k_in (z_coder z) = u ++ k_in (z_coder x).
Proof.
  intros I H. induction H as [z|z y x H IH E]; [split; [exact I|split; exists []; [rewrite app_nil_r|]; reflexivity]|]. destruct (IH I) as (I1 & (w & W) & u & U).
  destruct (step_next _ _ _ I1 E) as (I2 & (w' & W' & _) & (u' & U') & _). split; [exact I2|]. split; [exists (w ++ w'); rewrite W', W, app_assoc; reflexivity|exists (u ++ u'); rewrite U, U', app_assoc; reflexivity].
Qed.
(** symbols without input: fewer than 377 *)
Definition idle (k : coder) (n : nat) : Prop := (n <= 376)%nat /\ k_range k * 2048 ^ Z.of_nat n <= 4294967296 * 2018 ^ Z.of_nat n.
Lemma idle_next k k' n : kgood k' -> normal k' -> idle k n -> k_range k' * 2048 <= k_range k * 2018 -> idle k' (S n).
Proof.
  intros G N (H1 & H2) H. assert (k_range k' * 2048 ^ Z.of_nat (S n) <= 4294967296 * 2018 ^ Z.of_nat (S n)) as Q.
  { rewrite Nat2Z.inj_succ, !Z.pow_succ_r by lia. assert (0 < 2048 ^ Z.of_nat n) by (apply Z.pow_pos_nonneg; lia). assert (0 < 2018 ^ Z.of_nat n) by (apply Z.pow_pos_nonneg; lia). nia. }
  split; [|exact Q]. destruct (Nat.lt_ge_cases n 376) as [L|L]; [lia|]. assert (n = 376)%nat as -> by lia. exfalso. unfold normal in N. change (Z.of_nat 377) with 377 in Q.
  assert (4294967296 * 2018 ^ 377 < 16777216 * 2048 ^ 377) as C by (vm_compute; reflexivity). assert (0 < 2048 ^ 377) by (apply Z.pow_pos_nonneg; lia). nia.
Qed.
Inductive nsteps (p : lzprops) : nat -> lz -> lz -> Prop :=
| NSteps0 z : nsteps p 0 z z
| NStepsS n z y x : nsteps p n z y -> step p y = Next x -> nsteps p (S n) z x.
Lemma nsteps_steps p n z x : nsteps p n z x -> steps p z x.
Proof. intros H. induction H as [z|n z y x H IH E]; [constructor|exact (StepsS _ _ _ _ IH E)]. Qed.
Lemma steps_nsteps p z x : steps p z x -> exists n, nsteps p n z x.
Proof. intros H. induction H as [z|z y x H (n & IH) E]; [exists 0%nat; constructor|exists (S n); exact (NStepsS _ _ _ _ _ IH E)]. Qed.
Lemma nsteps_bound p n z x : zinv p z -> nsteps p n z x ->
  exists m, idle (z_coder x) m /\ Z.of_nat n <= 377 * (zlen (k_in (z_coder z)) - zlen (k_in (z_coder x))) + Z.of_nat m /\ zlen (z_out x) <= zlen (z_out z) + 273 * Z.of_nat n.
Proof.
  intros I H. induction H as [z|n z y x H IH E].
  - exists 0%nat. split; [split; [lia|]|split; lia]. change (Z.of_nat 0) with 0. rewrite !Z.pow_0_r. destruct (zi_good _ _ I) as (_ & G & _). lia.
  - destruct (IH I) as (m & I1 & I2 & I3). destruct (steps_inv _ _ _ I (nsteps_steps _ _ _ _ H)) as (Iy & _). destruct (step_next _ _ _ Iy E) as (Ix & (w & Ew & Lw) & (u & Eu) & Hs).
    assert (zlen (k_in (z_coder y)) = zlen u + zlen (k_in (z_coder x))) as Lu by (rewrite Eu, zlen_app; reflexivity). pose proof (zlen_nonneg u). destruct I1 as (I1 & I1').
    assert (zlen (z_out x) <= zlen (z_out z) + 273 * Z.of_nat (S n)) as Lo by (rewrite Ew, zlen_app; lia).
    destruct (Z.eq_dec (zlen u) 0) as [Q|Q].
    + exists (S m). split; [|split; [lia|exact Lo]]. apply (idle_next (z_coder y)); [apply Ix|apply Ix|split; assumption|]. apply Hs. lia.
    + exists 0%nat. split; [|split; [nia|exact Lo]]. split; [lia|]. change (Z.of_nat 0) with 0. rewrite !Z.pow_0_r. destruct (zi_good _ _ Ix) as (_ & G & _). lia.
Qed.
Lemma lzrun_steps p : forall n z, steps p z (lzrun n p z).
Proof.
  induction n as [|n IH]; intros z; [constructor|]. cbn [lzrun]. destruct (step p z) as [|y| |] eqn:E; try constructor. apply (steps_trans _ _ y); [|apply IH]. apply (StepsS _ _ z); [constructor|exact E].
Qed.
Lemma lzrun_end p : forall n z, (exists y, step p (lzrun n p z) = Next y) -> nsteps p n z (lzrun n p z).
Proof.
  assert (forall n z y x, step p z = Next y -> nsteps p n y x -> nsteps p (S n) z x) as front.
  { intros n z y x E H. induction H as [y|n y w x H IH E2]; [exact (NStepsS _ _ _ _ _ (NSteps0 _ _) E)|]. exact (NStepsS _ _ _ _ _ (IH E) E2). }
  induction n as [|n IH]; intros z (y & Hy); [constructor|]. cbn [lzrun] in *. destruct (step p z) as [|w| |] eqn:E; try congruence. apply (front _ _ _ _ E), IH. exists y. exact Hy.
Qed.
(** [lz_output] is complete: its run ends where no further symbol can be decoded *)
Theorem run_stops p z n : zinv p z -> 400 * (zlen (k_in (z_coder z)) + 1) <= Z.of_nat n -> forall y, step p (lzrun n p z) <> Next y.
Proof.
  intros I H y E. assert (nsteps p n z (lzrun n p z)) as Hn by (apply lzrun_end; exists y; exact E). destruct (nsteps_bound _ _ _ _ I Hn) as (m & (Hm & _) & Hb & _).
  pose proof (zlen_nonneg (k_in (z_coder (lzrun n p z)))). lia.
Qed.
Lemma steps_lzrun p z n x : zinv p z -> 400 * (zlen (k_in (z_coder z)) + 1) <= Z.of_nat n -> steps p z x -> steps p x (lzrun n p z).
Proof.
  intros I H Hx. destruct (steps_linear _ _ _ _ Hx (lzrun_steps p n z)) as [Q|Q]; [exact Q|]. destruct (steps_first _ _ _ Q) as [<-|(y & E & _)]; [constructor|]. exfalso. exact (run_stops _ _ _ I H _ E).
Qed.
