(** More about the LZMA format: complete data, and decoding a symbol without adapting the probabilities. *)
From Verif Require Import Base InflateSpec LzmaFormatSpec P_LzmaFormat.

Definition morez (z : lz) (t : list Z) : lz := mkLz (more (z_coder z) t) (z_state z) (z_rep0 z) (z_rep1 z) (z_rep2 z) (z_rep3 z) (z_out z).
Lemma decoded_more p z t s k : decoded p z = Some (s, k) -> decoded p (morez z t) = Some (s, more k t).
Proof.
  unfold decoded. change (next_sym p (morez z t)) with (next_sym p z). cbn [z_coder morez]. destruct (decode (next_sym p z) (z_coder z)) as [(s', k')|] eqn:E; [|discriminate].
  rewrite (decode_more _ t _ _ _ E). destruct (norm k') as [k2|] eqn:E2; [|discriminate]. rewrite (norm_more _ _ t E2). intros Q; injection Q as <- <-. reflexivity.
Qed.
Lemma decoded_less p z t s k : decoded p (morez z t) = Some (s, k) -> zlen t <= zlen (k_in k) -> exists k1, decoded p z = Some (s, k1) /\ k = more k1 t.
Proof.
  unfold decoded. change (next_sym p (morez z t)) with (next_sym p z). cbn [z_coder morez]. destruct (decode (next_sym p z) (more (z_coder z) t)) as [(s', k')|] eqn:E; [|discriminate].
  destruct (norm k') as [k2|] eqn:E2; [|discriminate]. intros Q H; injection Q as <- <-. destruct (norm_len _ _ E2) as (L & _).
  destruct (decode_less _ _ _ _ _ E ltac:(lia)) as (k1 & -> & ->). destruct (norm_less _ _ _ E2 H) as (k3 & -> & ->). eexists; split; reflexivity.
Qed.
Definition more_out (o : outcome) (t : list Z) : outcome :=
  match o with Next z => Next (morez z t) | Marked k => Marked (more k t) | _ => o end.
Lemma apply_more p z s k t : apply_sym p (morez z t) s (more k t) = more_out (apply_sym p z s k) t.
Proof.
  unfold apply_sym, morez; cbn [z_state z_rep0 z_rep1 z_rep2 z_rep3 z_out]. destruct s as [b|len d| |w len|]; try reflexivity.
  - destruct (_ && _); reflexivity.
  - destruct (z_out z); reflexivity.
  - destruct (z_out z); [reflexivity|]. destruct (w =? 0); [|destruct (w =? 1); [|destruct (w =? 2)]]; reflexivity.
Qed.
Lemma step_more p z t : step p z <> Starved -> step p (morez z t) = more_out (step p z) t.
Proof.
  rewrite !step_eq. destruct (decoded p z) as [(s, k)|] eqn:E; [|congruence]. intros _. rewrite (decoded_more _ _ t _ _ E). apply apply_more.
Qed.
Lemma steps_more p z x t : steps p z x -> steps p (morez z t) (morez x t).
Proof.
  intros H. induction H as [z|z y x H IH E]; [constructor|]. apply (StepsS _ _ (morez y t)); [exact IH|]. rewrite step_more by congruence. rewrite E. reflexivity.
Qed.
Lemma start_more r t z : start r = Some z -> start (r ++ t) = Some (morez z t).
Proof. unfold start. destruct r as [|b0 [|b1 [|b2 [|b3 [|b4 r]]]]]; try discriminate. cbn [app]. destruct (b0 mod 256 =? 0); [|discriminate]. intros E; injection E as <-. reflexivity. Qed.
Lemma start_len p r z : lzprops_ok p -> start r = Some z -> zlen r = 5 + zlen (k_in (z_coder z)).
Proof. intros Hp E. destruct (start_inv p r z Hp E) as (_ & _ & u & -> & L). rewrite zlen_app. lia. Qed.
Lemma output_steps p r z x : lzprops_ok p -> start r = Some z -> steps p z x -> exists y, steps p x y /\ lz_output p r = z_out y.
Proof.
  intros Hp E H. unfold lz_output. rewrite E. destruct (start_inv p r z Hp E) as (I & _). pose proof (start_len p r z Hp E) as L. eexists; split; [|reflexivity].
  apply steps_lzrun; [exact I| |exact H]. unfold zlen in *. lia.
Qed.
Definition lz_valid_data (p : lzprops) (c x : list Z) : Prop := lz_unmarked_data p c x \/ lz_marked_data p c x.
(** what was decoded from complete data is decoded from it and anything behind it *)
Lemma valid_output p c x t : lzprops_ok p -> lz_valid_data p c x -> prefix x (lz_output p (c ++ t)).
Proof.
  intros Hp H. assert (exists z y, start c = Some z /\ steps p z y /\ z_out y = x) as (z & y & E & Hs & <-).
  { destruct H as [(z & y & E & H & O & _)|(z & y & k & E & H & O & _)]; exists z, y; repeat (split; [assumption|]); assumption. }
  destruct (output_steps p (c ++ t) (morez z t) (morez y t) Hp (start_more _ t _ E) (steps_more _ _ _ t Hs)) as (w & Hw & ->).
  destruct (start_inv p _ _ Hp E) as (I & _).
  assert (zinv p (morez y t)) as Iy.
  { destruct (start_inv p _ _ Hp (start_more c t z E)) as (I2 & _). apply (steps_inv p (morez z t)); [exact I2|apply steps_more, Hs]. }
  destruct (steps_inv _ _ _ Iy Hw) as (_ & (o & ->) & _). exists o. reflexivity.
Qed.
Lemma marked_output p c x t : lzprops_ok p -> lz_marked_data p c x -> lz_output p (c ++ t) = x.
Proof.
  intros Hp (z & y & k & E & H & <- & Hm & _).
  destruct (output_steps p (c ++ t) (morez z t) (morez y t) Hp (start_more _ t _ E) (steps_more _ _ _ t H)) as (w & Hw & ->).
  destruct (steps_first _ _ _ Hw) as [<-|(y' & E' & _)]; [reflexivity|]. rewrite step_more in E' by congruence. rewrite Hm in E'. discriminate.
Qed.

(** ** decoding with fixed probabilities *)
(** the contexts of [p] are not in [T] and no context is used twice *)
Fixpoint fresh {A} (T : ctx -> Prop) (p : prog A) : Prop :=
  match p with
  | Done _ => True
  | Coded c f => ~ T c /\ forall b, fresh (fun d => T d \/ d = c) (f b)
  | Halved f => forall b, fresh T (f b)
  end.
(** all contexts of [p] are in [U] *)
Fixpoint touches {A} (U : ctx -> Prop) (p : prog A) : Prop :=
  match p with
  | Done _ => True
  | Coded c f => U c /\ forall b, touches U (f b)
  | Halved f => forall b, touches U (f b)
  end.
Lemma fresh_less {A} (p : prog A) : forall T T' : ctx -> Prop, fresh T p -> (forall c, T' c -> T c) -> fresh T' p.
Proof.
  induction p as [a|c f IH|f IH]; intros T T' H HT; cbn in *; [exact Logic.I| |intros b; apply (IH b T); [apply H|exact HT]].
  destruct H as (H1 & H2). split; [intros Q; apply H1, HT, Q|]. intros b. apply (IH b (fun d => T d \/ d = c)); [apply H2|]. intros d [Q|Q]; [left; apply HT, Q|right; exact Q].
Qed.
Lemma fresh_bind {A B} (p : prog A) (g : A -> prog B) (Q : A -> Prop) U : forall T, fresh T p -> touches U p -> returns p Q -> (forall a, Q a -> fresh (fun c => T c \/ U c) (g a)) -> fresh T (pbind p g).
Proof.
  induction p as [a|c f IH|f IH]; intros T HT HU HQ Hg; cbn in *.
  - apply (fresh_less _ _ _ (Hg a HQ)). auto.
  - destruct HT as (T1 & T2). destruct HU as (U1 & U2). split; [exact T1|]. intros b. apply IH; [apply T2|apply U2|apply HQ|]. intros a Ha. apply (fresh_less _ _ _ (Hg a Ha)). intros d [[H | ->]|H]; auto.
  - intros b. apply IH; [apply HT|apply HU|apply HQ|exact Hg].
Qed.
Lemma touches_bind {A B} (p : prog A) (g : A -> prog B) (Q : A -> Prop) U : touches U p -> returns p Q -> (forall a, Q a -> touches U (g a)) -> touches U (pbind p g).
Proof.
  intros HU HQ Hg. induction p as [a|c f IH|f IH]; cbn in *; [apply Hg, HQ| |intros b; apply IH; [apply HU|apply HQ]].
  destruct HU as (U1 & U2). split; [exact U1|]. intros b. apply IH; [apply U2|apply HQ].
Qed.
Lemma touches_impl {A} (p : prog A) (U V : ctx -> Prop) : touches U p -> (forall c, U c -> V c) -> touches V p.
Proof.
  intros HU HI. induction p as [a|c f IH|f IH]; cbn in *; [exact Logic.I| |intros b; apply IH, HU].
  destruct HU as (U1 & U2). split; [apply HI, U1|]. intros b. apply IH, U2.
Qed.
(** as [decode], but the probabilities stay as they are *)
Definition fixed (f : ctx -> Z) (k : coder) : coder := mkCoder f (k_range k) (k_code k) (k_in k).
Fixpoint fdecode {A} (p : prog A) (k : coder) : option (A * coder) :=
  match p with
  | Done a => Some (a, k)
  | Coded c n => match norm k with Some k => let (k', b) := coded c k in fdecode (n b) (fixed (k_probs k) k') | None => None end
  | Halved n => match norm k with Some k => let (k, b) := halved k in fdecode (n b) k | None => None end
  end.
Lemma fdecode_bind {A B} (p : prog A) (f : A -> prog B) : forall k,
  fdecode (pbind p f) k = match fdecode p k with Some (a, k) => fdecode (f a) k | None => None end.
Proof.
  induction p as [a|c n IH|n IH]; intros k; cbn [pbind fdecode]; [reflexivity| |]; destruct (norm k) as [k1|]; try reflexivity.
  - destruct (coded c k1) as [k2 b]. apply IH.
  - destruct (halved k1) as [k2 b]. apply IH.
Qed.
Lemma norm_fixed f k : norm (fixed f k) = option_map (fixed f) (norm k).
Proof. unfold norm, fixed; cbn. destruct (_ <? _); [|reflexivity]. destruct (k_in k); reflexivity. Qed.
Lemma fdecode_fresh {A} (p : prog A) f : forall T k, fresh T p -> (forall c, ~ T c -> k_probs k c = f c) ->
  fdecode p (fixed f k) = match decode p k with Some (a, k') => Some (a, fixed f k') | None => None end.
Proof.
  induction p as [a|c n IH|n IH]; intros T k H Hf; cbn [fdecode decode fresh] in *; [reflexivity| |]; rewrite norm_fixed; destruct (norm k) as [k1|] eqn:E; cbn [option_map]; try reflexivity;
    assert (k_probs k1 = k_probs k) as Ep by (revert E; unfold norm; destruct (_ <? _); [|intros E; injection E as <-; reflexivity]; destruct (k_in k); [discriminate|]; intros E; injection E as <-; reflexivity).
  - destruct H as (H1 & H2). unfold coded, fixed; cbn [k_probs k_range k_code k_in]. rewrite <- (Hf c H1), Ep. destruct (k_code k1 <? _).
    + specialize (IH false _ (mkCoder (set_prob (k_probs k) c (k_probs k c + (2048 - k_probs k c) / 32)) (k_range k1 / 2048 * k_probs k c) (k_code k1) (k_in k1)) (H2 false)). cbn [fixed k_probs k_range k_code k_in] in IH. apply IH.
      intros d Hd. unfold set_prob. destruct (ctx_dec d c) as [->|]; [exfalso; apply Hd; right; reflexivity|]. apply Hf. intros Q. apply Hd. left. exact Q.
    + specialize (IH true _ (mkCoder (set_prob (k_probs k) c (k_probs k c - k_probs k c / 32)) (k_range k1 - k_range k1 / 2048 * k_probs k c) (k_code k1 - k_range k1 / 2048 * k_probs k c) (k_in k1)) (H2 true)). cbn [fixed k_probs k_range k_code k_in] in IH. apply IH.
      intros d Hd. unfold set_prob. destruct (ctx_dec d c) as [->|]; [exfalso; apply Hd; right; reflexivity|]. apply Hf. intros Q. apply Hd. left. exact Q.
  - unfold halved, fixed; cbn [k_probs k_range k_code k_in]. destruct (_ && _).
    + apply (IH true _ (mkCoder (k_probs k1) (k_range k1 / 2) (k_code k1 - k_range k1 / 2) (k_in k1)) (H true)). cbn. rewrite Ep. exact Hf.
    + apply (IH false _ (mkCoder (k_probs k1) (k_range k1 / 2) (k_code k1) (k_in k1)) (H false)). cbn. rewrite Ep. exact Hf.
Qed.
