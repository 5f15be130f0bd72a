From Verif Require Import Base M_Kmp KmpSpec.

Definition xat (x : list Z) (i : Z) : Z := match zget x i with Some z => z | None => 0 end.
Lemma rdc_ok x i : 0 <= i < zlen x -> rdc x i = Ret (xat x i).
Proof. intros H. unfold rdc, xat. destruct (zget_some x i H) as [z ->]. reflexivity. Qed.
Lemma wr_ok t i z : 0 <= i < zlen t -> exists t', wr t i z = Ret t' /\ zlen t' = zlen t /\
  forall k, zget t' k = if k =? i then Some (Some z) else zget t k.
Proof.
  intros H. unfold wr. destruct (Z.leb_spec 0 i), (Z.ltb_spec i (zlen t)); try lia. cbn [andb].
  eexists; split; [reflexivity|]. change (zlen [Some z]) with 1 in *.
  split; [apply zlen_splice; change (zlen [Some z]) with 1; lia|].
  intros k. rewrite zget_splice by (change (zlen [Some z]) with 1; lia). change (zlen [Some z]) with 1.
  destruct (Z.eqb_spec k i) as [->|N].
  - destruct (Z.leb_spec i i), (Z.ltb_spec i (i+1)); try lia. cbn [andb]. replace (i - i) with 0 by lia. reflexivity.
  - destruct (Z.leb_spec i k), (Z.ltb_spec k (i+1)); try lia; reflexivity.
Qed.
Lemma rd_of t i z : zget t i = Some (Some z) -> rd t i = Ret z.
Proof. unfold rd; intros ->; reflexivity. Qed.

(** ** suffixes *)
Section Suf.
Variables (x : list Z) (m : Z).
Hypothesis Hm : zlen x = m.
Hypothesis Hm1 : 1 <= m.

Definition suf_spec (i L : Z) : Prop :=
  0 <= L <= i + 1 /\ (forall t, 0 <= t < L -> xat x (i - t) = xat x (m - 1 - t)) /\
  (L = i + 1 \/ xat x (i - L) <> xat x (m - 1 - L)).

Lemma suf_while_ok f : 0 <= f < m -> forall fuel g, -1 <= g <= f -> (Z.to_nat (g + 1) <= fuel)%nat ->
  (forall t, g < t <= f -> xat x t = xat x (t + m - 1 - f)) ->
  exists g', suf_while fuel x m f g = Ret g' /\ -1 <= g' <= g /\
    (forall t, g' < t <= f -> xat x t = xat x (t + m - 1 - f)) /\
    (g' = -1 \/ xat x g' <> xat x (g' + m - 1 - f)).
Proof.
  intros Hf. induction fuel as [|k IH]; intros g Hg Hfu HW; cbn [suf_while].
  - assert (g = -1) as -> by lia. cbn. exists (-1). repeat split; try lia; try assumption.
  - destruct (Z.leb_spec 0 g).
    2:{ exists g. repeat split; try lia; try assumption. }
    rewrite !rdc_ok by lia. cbn [bind]. destruct (Z.eqb_spec (xat x g) (xat x (g + m - 1 - f))) as [E|E].
    + destruct (IH (g - 1)) as (g' & E' & H1 & H2 & H3); try lia.
      { intros t Ht. destruct (Z.eq_dec t g) as [->|]; [exact E|apply HW; lia]. }
      exists g'. repeat split; try lia; try assumption.
    + exists g. repeat split; try lia; try assumption.
Qed.

Lemma suf_loop_ok : forall n f g suff, zlen suff = m -> (Z.of_nat n <= m - 1) ->
  (forall i, Z.of_nat n <= i < m -> exists L, zget suff i = Some (Some L) /\ suf_spec i L) ->
  -1 <= g -> (g < Z.of_nat n - 1 -> Z.of_nat n - 1 < f < m - 1) ->
  (forall t, g < t <= f -> xat x t = xat x (t + m - 1 - f)) ->
  exists suff', suf_loop n x m f g suff = Ret suff' /\ zlen suff' = m /\
    forall i, 0 <= i < m -> exists L, zget suff' i = Some (Some L) /\ suf_spec i L.
Proof.
  induction n as [|k IH]; intros f g suff Hl Hn HS Hg Hgf HW.
  - exists suff. split; [reflexivity|]. split; [exact Hl|]. intros i Hi. apply HS. lia.
  - cbn [suf_loop]. cbv zeta. set (i := Z.of_nat k).
    assert (i = Z.of_nat k) as Ei by reflexivity. rewrite Nat2Z.inj_succ in *. clearbody i.
    (* common continuation *)
    assert (forall L suff1 f1 g1, suf_spec i L -> zlen suff1 = m ->
        (forall k0, zget suff1 k0 = if k0 =? i then Some (Some L) else zget suff k0) ->
        -1 <= g1 -> (g1 < i - 1 -> i - 1 < f1 < m - 1) ->
        (forall t, g1 < t <= f1 -> xat x t = xat x (t + m - 1 - f1)) ->
        exists suff', suf_loop k x m f1 g1 suff1 = Ret suff' /\ zlen suff' = m /\
          forall i, 0 <= i < m -> exists L, zget suff' i = Some (Some L) /\ suf_spec i L) as Hcont.
    { intros L suff1 f1 g1 HL Hl1 Hz H1 H2 H3. apply IH; try lia; try assumption.
      intros q Hq. rewrite Hz. destruct (Z.eqb_spec q i) as [->|]; [eauto|apply HS; lia]. }
    assert (forall g1, -1 <= g1 <= i -> (forall t, g1 < t <= i -> xat x t = xat x (t + m - 1 - i)) ->
      exists suff', (let* g2 := suf_while (Z.to_nat (g1 + 1)) x m i g1 in
          let* suff' := wr suff i (i - g2) in suf_loop k x m i g2 suff') = Ret suff' /\ zlen suff' = m /\
          forall i, 0 <= i < m -> exists L, zget suff' i = Some (Some L) /\ suf_spec i L) as Helse.
    { intros g1 Hg1 HW1. destruct (suf_while_ok i ltac:(lia) (Z.to_nat (g1 + 1)) g1) as (g2 & E2 & Q1 & Q2 & Q3); try lia; try assumption.
      rewrite E2; cbn [bind]. destruct (wr_ok suff i (i - g2)) as (suff1 & Ew & Hl1 & Hz); [lia|]. rewrite Ew; cbn [bind].
      apply (Hcont (i - g2)); try assumption; try lia.
      unfold suf_spec. split; [lia|]. split.
      - intros t Ht. rewrite Q2 by lia. f_equal; lia.
      - destruct Q3 as [Q3|Q3]; [left; lia|right]. replace (i - (i - g2)) with g2 by lia.
        replace (m - 1 - (i - g2)) with (g2 + m - 1 - i) by lia. exact Q3. }
    destruct (Z.ltb_spec g i).
    + assert (i < f < m - 1) as Hfi by (specialize (Hgf ltac:(lia)); lia).
      destruct (HS (i + m - 1 - f)) as (L & EL & HL1 & HL2 & HL3); [lia|].
      rewrite (rd_of _ _ _ EL); cbn [bind].
      destruct (Z.ltb_spec L (i - g)); cbn [bind].
      * destruct (wr_ok suff i L) as (suff1 & Ew & Hl1 & Hz); [lia|]. rewrite Ew; cbn [bind].
        apply (Hcont L); try assumption; try lia.
        unfold suf_spec. split; [lia|]. split.
        -- intros t Ht. rewrite HW by lia. rewrite <- HL2 by lia. f_equal; lia.
        -- right. destruct HL3 as [HL3|HL3]; [lia|]. rewrite HW by lia. intros HH. apply HL3. rewrite <- HH. f_equal; lia.
      * destruct (Z.ltb_spec i g); [lia|]. apply Helse; [lia|].
        intros t Ht. rewrite HW by lia. specialize (HL2 (i - t) ltac:(lia)).
        replace (i + m - 1 - f - (i - t)) with (t + m - 1 - f) in HL2 by lia. rewrite HL2. f_equal; lia.
    + cbn [bind]. replace (if i <? g then i else g) with i by (destruct (Z.ltb_spec i g); lia).
      apply Helse; [lia|]. intros t Ht; lia.
Qed.

Lemma suffixes_ok suff0 : zlen suff0 = m -> exists suff, suffixes x m suff0 = Ret suff /\ zlen suff = m /\
  forall i, 0 <= i < m -> exists L, zget suff i = Some (Some L) /\ suf_spec i L.
Proof.
  intros H0. unfold suffixes. destruct (wr_ok suff0 (m - 1) m) as (s1 & E & Hl & Hz); [lia|]. rewrite E; cbn [bind].
  apply suf_loop_ok; try lia.
  intros i Hi. assert (i = m - 1) as -> by lia. exists m. rewrite Hz, Z.eqb_refl. split; [reflexivity|].
  unfold suf_spec. split; [lia|]. split; [intros; reflexivity|left; lia].
Qed.
End Suf.

(** ** good suffix table *)
Section Gs.
Variables (x : list Z) (m o : Z).
Hypothesis Hm : zlen x = m.
Hypothesis Hm1 : 1 <= m.
Hypothesis Ho : 0 <= o.

(** shifting by [d] after a mismatch at [i] is compatible with the matched suffix *)
Definition compat (i d : Z) : Prop :=
  (forall q, i < q < m -> d <= q -> xat x (q - d) = xat x q) /\ (d <= i -> xat x (i - d) <> xat x i).
Definition gs_spec (i g : Z) : Prop :=
  1 <= g <= m /\ compat i g /\ forall d, 1 <= d < g -> ~ compat i d.

Variable suff : list (option Z).
Hypothesis Hsl : zlen suff = m.
Hypothesis HS : forall i, 0 <= i < m -> exists L, zget suff i = Some (Some L) /\ suf_spec x m i L.

Definition sfx (i : Z) : Z := match zget suff i with Some (Some z) => z | _ => 0 end.
Lemma sfx_ok i : 0 <= i < m -> rd suff i = Ret (sfx i) /\ suf_spec x m i (sfx i).
Proof. intros H. destruct (HS i H) as (L & E & HL). unfold sfx. rewrite E. split; [apply rd_of; exact E|exact HL]. Qed.

Lemma gs_init_ok : forall n i t, zlen t >= o + m -> 0 <= i -> i + Z.of_nat n = m ->
  exists t', gs_init n o i m t = Ret t' /\ zlen t' = zlen t /\
    forall k, zget t' k = if (o + i <=? k) && (k <? o + m) then Some (Some m) else zget t k.
Proof.
  induction n as [|n IH]; intros i t Hl Hi Hn.
  - exists t. split; [reflexivity|]. split; [reflexivity|]. intros k.
    destruct (Z.leb_spec (o+i) k), (Z.ltb_spec k (o+m)); try lia; reflexivity.
  - cbn [gs_init]. destruct (wr_ok t (o + i) m) as (t1 & E & Hl1 & Hz); [lia|]. rewrite E; cbn [bind].
    destruct (IH (i+1) t1) as (t' & E' & Hl' & Hz'); try lia.
    exists t'. split; [exact E'|]. split; [lia|]. intros k. rewrite Hz', Hz.
    destruct (Z.leb_spec (o+(i+1)) k), (Z.leb_spec (o+i) k), (Z.ltb_spec k (o+m)), (Z.eqb_spec k (o+i)); cbn [andb]; try lia; reflexivity.
Qed.

(** border: [s] is a period of the whole query *)
Definition period (s : Z) : Prop := forall q, s <= q < m -> xat x (q - s) = xat x q.
Lemma border_period i : 0 <= i < m -> (sfx i = i + 1 <-> period (m - 1 - i)).
Proof.
  intros Hi. destruct (sfx_ok i Hi) as (_ & S1 & S2 & S3). split.
  - intros E q Hq. rewrite E in *. specialize (S2 (m - 1 - q) ltac:(lia)).
    replace (i - (m - 1 - q)) with (q - (m - 1 - i)) in S2 by lia. replace (m - 1 - (m - 1 - q)) with q in S2 by lia. exact S2.
  - intros P. destruct S3 as [S3|S3]; [exact S3|]. destruct (Z.eq_dec (sfx i) (i+1)); [assumption|].
    exfalso. apply S3. specialize (P (m - 1 - sfx i) ltac:(lia)).
    replace (m - 1 - sfx i - (m - 1 - i)) with (i - sfx i) in P by lia. exact P.
Qed.

Lemma gs_inner_ok i : 0 <= i < m -> forall n j t, zlen t >= o + m -> 0 <= j -> n = Z.to_nat (m - 1 - i - j) ->
  (forall p, j <= p < m -> zget t (o + p) = Some (Some m)) ->
  exists t', gs_inner n o j m i t = Ret (t', Z.max j (m - 1 - i)) /\ zlen t' = zlen t /\
    forall k, zget t' k = if (o + j <=? k) && (k <? o + (m - 1 - i)) then Some (Some (m - 1 - i)) else zget t k.
Proof.
  intros Hi. induction n as [|n IH]; intros j t Hl Hj Hn Hu.
  - exists t. cbn [gs_inner]. split; [f_equal; f_equal; lia|]. split; [reflexivity|]. intros k.
    destruct (Z.leb_spec (o+j) k), (Z.ltb_spec k (o+(m-1-i))); cbn [andb]; try lia; reflexivity.
  - cbn [gs_inner]. destruct (Z.ltb_spec j (m - 1 - i)); [|lia].
    rewrite (rd_of _ _ m) by (apply Hu; lia). cbn [bind]. rewrite Z.eqb_refl.
    destruct (wr_ok t (o + j) (m - 1 - i)) as (t1 & E & Hl1 & Hz); [lia|]. rewrite E; cbn [bind].
    destruct (IH (j+1) t1) as (t' & E' & Hl' & Hz'); try lia.
    { intros p Hp. rewrite Hz. destruct (Z.eqb_spec (o+p) (o+j)); [lia|apply Hu; lia]. }
    exists t'. split; [rewrite E'; f_equal; f_equal; lia|]. split; [lia|]. intros k. rewrite Hz', Hz.
    destruct (Z.leb_spec (o+(j+1)) k), (Z.leb_spec (o+j) k), (Z.ltb_spec k (o+(m-1-i))), (Z.eqb_spec k (o+j)); cbn [andb]; try lia; reflexivity.
Qed.

(** value of cell p after the second loop: the smallest period above p *)
Definition bspec (p g : Z) : Prop := p < g <= m /\ period g /\ forall d, p < d < g -> ~ period d.
Lemma period_m : period m. Proof. intros q Hq; lia. Qed.

Lemma gs_borders_ok t0 : forall n j t, (Z.of_nat n <= m) -> zlen t = zlen t0 -> zlen t0 >= o + m -> 0 <= j ->
  (* j is the largest period met so far *)
  j <= m - Z.of_nat n -> 
  (forall s, 1 <= s < m - Z.of_nat n -> period s -> s <= j) ->
  (j = 0 \/ period j) ->
  (forall p, 0 <= p < j -> exists g, zget t (o + p) = Some (Some g) /\ bspec p g) ->
  (forall p, j <= p < m -> zget t (o + p) = Some (Some m)) ->
  (forall k, k < o \/ o + m <= k -> zget t k = zget t0 k) ->
  exists t', gs_borders n o j m suff t = Ret t' /\ zlen t' = zlen t0 /\
    (forall p, 0 <= p < m -> exists g, zget t' (o + p) = Some (Some g) /\ bspec p g) /\
    (forall k, k < o \/ o + m <= k -> zget t' k = zget t0 k).
Proof.
  induction n as [|n IH]; intros j t Hn Hl Hl0 Hj Hjm Hper Hpj Hlt Hge Hout.
  - exists t. split; [reflexivity|]. split; [exact Hl|]. split; [|exact Hout].
    intros p Hp. destruct (Z.lt_ge_cases p j); [apply Hlt; lia|]. exists m. split; [apply Hge; lia|].
    unfold bspec. split; [lia|]. split; [apply period_m|]. intros d Hd P. cbn in Hper. specialize (Hper d ltac:(lia) P). lia.
  - cbn [gs_borders]. cbv zeta. set (i := Z.of_nat n). assert (i = Z.of_nat n) as Ei by reflexivity. rewrite Nat2Z.inj_succ in *. clearbody i.
    destruct (sfx_ok i ltac:(lia)) as (Er & _). rewrite Er; cbn [bind].
    pose proof (border_period i ltac:(lia)) as HB.
    destruct (Z.eqb_spec (sfx i) (i + 1)) as [E|E].
    + apply HB in E. destruct (gs_inner_ok i ltac:(lia) (Z.to_nat (m - 1 - i - j)) j t) as (t1 & E1 & Hl1 & Hz1); try lia; try assumption; try reflexivity.
      rewrite E1; cbn [bind]. rewrite Z.max_r by lia. apply IH; try lia.

      * right. exact E.
      * intros p Hp. rewrite Hz1. destruct (Z.leb_spec (o+j) (o+p)), (Z.ltb_spec (o+p) (o+(m-1-i))); cbn [andb]; try lia.
        -- eexists; split; [reflexivity|]. unfold bspec. split; [lia|]. split; [exact E|].
           intros d Hd P. specialize (Hper d ltac:(lia) P). lia.
        -- apply Hlt; lia.
      * intros p Hp. rewrite Hz1. destruct (Z.leb_spec (o+j) (o+p)), (Z.ltb_spec (o+p) (o+(m-1-i))); cbn [andb]; try lia; apply Hge; lia.
      * intros k Hk. rewrite Hz1. destruct (Z.leb_spec (o+j) k), (Z.ltb_spec k (o+(m-1-i))); cbn [andb]; try lia; apply Hout; lia.
    + apply IH; try lia; try assumption.
      intros s Hs P. destruct (Z.eq_dec s (m - 1 - i)) as [->|]; [exfalso; apply E, HB, P|apply Hper; [lia|exact P]].
Qed.

(** value of cell p during the third loop *)
Definition sspec (n p g : Z) : Prop :=
  (exists i, 0 <= i < n /\ m - 1 - sfx i = p /\ g = m - 1 - i /\ forall i', i < i' < n -> m - 1 - sfx i' <> p)
  \/ ((forall i, 0 <= i < n -> m - 1 - sfx i <> p) /\ bspec p g).
Lemma gs_strong_ok t0 : forall n i t, i + Z.of_nat n = m - 1 -> 0 <= i -> zlen t = zlen t0 -> zlen t0 >= o + m ->
  (forall p, 0 <= p < m -> exists g, zget t (o + p) = Some (Some g) /\ sspec i p g) ->
  (forall k, k < o \/ o + m <= k -> zget t k = zget t0 k) ->
  exists t', gs_strong n o i m suff t = Ret t' /\ zlen t' = zlen t0 /\
    (forall p, 0 <= p < m -> exists g, zget t' (o + p) = Some (Some g) /\ sspec (m - 1) p g) /\
    (forall k, k < o \/ o + m <= k -> zget t' k = zget t0 k).
Proof.
  induction n as [|n IH]; intros i t Hn Hi Hl Hl0 HP Hout.
  - exists t. split; [reflexivity|]. split; [exact Hl|]. split; [|exact Hout]. replace (m - 1) with i by lia. exact HP.
  - cbn [gs_strong]. destruct (sfx_ok i ltac:(lia)) as (Er & S1 & _). rewrite Er; cbn [bind].
    destruct (wr_ok t (o + (m - 1 - sfx i)) (m - 1 - i)) as (t1 & E & Hl1 & Hz); [lia|]. rewrite E; cbn [bind].
    apply IH; try lia.
    + intros p Hp. rewrite Hz. destruct (Z.eqb_spec (o + p) (o + (m - 1 - sfx i))) as [Ep|Ep].
      * eexists; split; [reflexivity|]. left. exists i. repeat split; try lia.
      * destruct (HP p Hp) as (g & Eg & [(i' & H1 & H2 & H3 & H4)|[H1 H2]]); exists g; (split; [exact Eg|]).
        -- left. exists i'. repeat split; try lia. intros i2 Hi2. destruct (Z.eq_dec i2 i) as [->|]; [lia|apply H4; lia].
        -- right. split; [|exact H2]. intros i2 Hi2. destruct (Z.eq_dec i2 i) as [->|]; [lia|apply H1; lia].
    + intros k Hk. rewrite Hz. destruct (Z.eqb_spec k (o + (m - 1 - sfx i))); [lia|apply Hout; lia].
Qed.

(** strong shifts below or at p come exactly from positions with sfx = m-1-p *)
Lemma compat_sfx p d : 0 <= p < m -> 1 <= d <= p -> (compat p d <-> sfx (m - 1 - d) = m - 1 - p).
Proof.
  intros Hp Hd. destruct (sfx_ok (m - 1 - d) ltac:(lia)) as (_ & S1 & S2 & S3). split.
  - intros [C1 C2]. specialize (C2 ltac:(lia)).
    destruct (Z.lt_trichotomy (sfx (m - 1 - d)) (m - 1 - p)) as [L|[L|L]]; [|exact L|].
    + exfalso. destruct S3 as [S3|S3]; [lia|]. apply S3. specialize (C1 (m - 1 - sfx (m-1-d)) ltac:(lia) ltac:(lia)).
      rewrite <- C1. f_equal; lia.
    + exfalso. apply C2. specialize (S2 (m - 1 - p) ltac:(lia)).
      replace (m - 1 - d - (m - 1 - p)) with (p - d) in S2 by lia. replace (m - 1 - (m - 1 - p)) with p in S2 by lia. exact S2.
  - intros E. split.
    + intros q Hq Hdq. specialize (S2 (m - 1 - q) ltac:(lia)).
      replace (m - 1 - d - (m - 1 - q)) with (q - d) in S2 by lia. replace (m - 1 - (m - 1 - q)) with q in S2 by lia. exact S2.
    + intros _. destruct S3 as [S3|S3]; [lia|]. rewrite E in S3. intros HH. apply S3.
      replace (m - 1 - d - (m - 1 - p)) with (p - d) by lia. replace (m - 1 - (m - 1 - p)) with p by lia. exact HH.
Qed.
Lemma compat_period p d : 0 <= p < d -> d <= m -> (compat p d <-> period d).
Proof.
  intros Hp Hd. split.
  - intros [C1 _] q Hq. apply C1; lia.
  - intros P. split; [intros q Hq Hdq; apply P; lia|lia].
Qed.
Lemma sspec_gs p g : 0 <= p < m -> sspec (m - 1) p g -> gs_spec p g.
Proof.
  intros Hp [(i & H1 & H2 & H3 & H4)|[H1 H2]].
  - destruct (sfx_ok i ltac:(lia)) as (_ & S1 & S2 & S3).
    assert (g - 1 <= p) as Hgp by lia.
    unfold gs_spec. split; [lia|]. split.
    + destruct (Z.eq_dec g (p + 1)) as [E|E].
      * apply compat_period; try lia. subst g. apply border_period; lia.
      * apply compat_sfx; try lia. replace (m - 1 - g) with i by lia. lia.
    + intros d Hd C. apply compat_sfx in C; try lia. apply (H4 (m - 1 - d)); lia.
  - destruct H2 as (B1 & B2 & B3). unfold gs_spec. split; [lia|]. split; [apply compat_period; try lia; exact B2|].
    intros d Hd C. destruct (Z.le_gt_cases d p) as [L|L].
    + apply compat_sfx in C; try lia. apply (H1 (m - 1 - d)); lia.
    + apply compat_period in C; try lia. apply (B3 d); [lia|exact C].
Qed.
End Gs.

Lemma preBmGs_ok x m o t : zlen x = m -> 1 <= m -> 0 <= o -> zlen t >= o + m ->
  exists t', preBmGs x m o t = Ret t' /\ zlen t' = zlen t /\
    (forall p, 0 <= p < m -> exists g, zget t' (o + p) = Some (Some g) /\ gs_spec x m p g) /\
    (forall k, k < o \/ o + m <= k -> zget t' k = zget t k).
Proof.
  intros Hm Hm1 Ho Hl. unfold preBmGs. destruct (Z.ltb_spec m 0); [lia|].
  destruct (suffixes_ok x m Hm Hm1 (repeat None (Z.to_nat m))) as (suff & E & Hsl & HS); [rewrite zlen_repeat; lia|].
  rewrite E; cbn [bind].
  destruct (gs_init_ok m o Ho (Z.to_nat m) 0 t) as (t1 & E1 & Hl1 & Hz1); try lia. rewrite E1; cbn [bind].
  destruct (gs_borders_ok x m o Ho suff HS t1 (Z.to_nat m) 0 t1) as (t2 & E2 & Hl2 & HP2 & Ho2); try lia; try reflexivity; try (left; reflexivity).
  { intros p Hp. rewrite Hz1. destruct (Z.leb_spec (o+0) (o+p)), (Z.ltb_spec (o+p) (o+m)); try lia; reflexivity. }
  rewrite E2; cbn [bind].
  destruct (gs_strong_ok x m o Ho suff HS t1 (Z.to_nat (m - 1)) 0 t2) as (t3 & E3 & Hl3 & HP3 & Ho3); try lia.
  { intros p Hp. destruct (HP2 p Hp) as (g & Eg & Bg). exists g. split; [exact Eg|]. right. split; [intros; lia|exact Bg]. }
  { exact Ho2. }
  exists t3. split; [exact E3|]. split; [lia|]. split.
  - intros p Hp. destruct (HP3 p Hp) as (g & Eg & Sg). exists g. split; [exact Eg|]. eapply sspec_gs; eassumption.
  - intros k Hk. rewrite Ho3 by exact Hk. rewrite Hz1. destruct (Z.leb_spec (o+0) k), (Z.ltb_spec k (o+m)); cbn [andb]; try lia; reflexivity.
Qed.

(** ** bad character table *)
(** cell c holds 1 if c does not occur in x[0..n), otherwise -(last occurrence) *)
Definition bc_spec (x : list Z) (n c b : Z) : Prop :=
  (b = 1 /\ forall k, 0 <= k < n -> xat x k <> c) \/
  (exists k, 0 <= k < n /\ xat x k = c /\ b = - k /\ forall k', k < k' < n -> xat x k' <> c).
Lemma bc_init_ok : forall n i t, i + Z.of_nat n = 256 -> 0 <= i -> zlen t >= 256 ->
  exists t', bc_init n i t = Ret t' /\ zlen t' = zlen t /\
    forall k, zget t' k = if (i <=? k) && (k <? 256) then Some (Some 1) else zget t k.
Proof.
  induction n as [|n IH]; intros i t Hn Hi Hl.
  - exists t. split; [reflexivity|]. split; [reflexivity|]. intros k. destruct (Z.leb_spec i k), (Z.ltb_spec k 256); try lia; reflexivity.
  - cbn [bc_init]. destruct (wr_ok t i 1) as (t1 & E & Hl1 & Hz); [lia|]. rewrite E; cbn [bind].
    destruct (IH (i+1) t1) as (t' & E' & Hl' & Hz'); try lia. exists t'. split; [exact E'|]. split; [lia|].
    intros k. rewrite Hz', Hz. destruct (Z.leb_spec (i+1) k), (Z.leb_spec i k), (Z.ltb_spec k 256), (Z.eqb_spec k i); cbn [andb]; try lia; reflexivity.
Qed.
Lemma bc_fill_ok x N : (forall k, 0 <= k < N -> 0 <= xat x k < 256) -> N <= zlen x -> forall n i t, i + Z.of_nat n = N -> 0 <= i -> zlen t >= 256 ->
  (forall c, 0 <= c < 256 -> exists b, zget t c = Some (Some b) /\ bc_spec x i c b) ->
  exists t', bc_fill n i x t = Ret t' /\ zlen t' = zlen t /\
    (forall c, 0 <= c < 256 -> exists b, zget t' c = Some (Some b) /\ bc_spec x N c b) /\
    forall k, 256 <= k -> zget t' k = zget t k.
Proof.
  intros HB HN. induction n as [|n IH]; intros i t Hn Hi Hl HP.
  - exists t. replace N with i by lia. repeat split; try assumption.
  - cbn [bc_fill]. rewrite rdc_ok by lia. cbn [bind]. pose proof (HB i ltac:(lia)) as Hc.
    destruct (wr_ok t (xat x i) (- i)) as (t1 & E & Hl1 & Hz); [lia|]. rewrite E; cbn [bind].
    destruct (IH (i+1) t1) as (t' & E' & Hl' & HP' & Ho'); try lia.
    { intros c Hcc. rewrite Hz. destruct (Z.eqb_spec c (xat x i)) as [->|Ne].
      - eexists; split; [reflexivity|]. right. exists i. repeat split; try lia.
      - destruct (HP c Hcc) as (b & Eb & [[B1 B2]|(k & B1 & B2 & B3 & B4)]); exists b; (split; [exact Eb|]).
        + left. split; [exact B1|]. intros k Hk. destruct (Z.eq_dec k i) as [->|]; [congruence|apply B2; lia].
        + right. exists k. repeat split; try lia; try assumption. intros k' Hk'. destruct (Z.eq_dec k' i) as [->|]; [congruence|apply B4; lia]. }
    exists t'. split; [exact E'|]. split; [lia|]. split; [exact HP'|].
    intros k Hk. rewrite Ho' by lia. rewrite Hz. destruct (Z.eqb_spec k (xat x i)); [lia|reflexivity].
Qed.
Lemma preBmBc_ok x m t : zlen x = m -> 1 <= m -> (forall k, 0 <= k < m -> 0 <= xat x k < 256) -> zlen t >= 256 ->
  exists t', preBmBc x m t = Ret t' /\ zlen t' = zlen t /\
    (forall c, 0 <= c < 256 -> exists b, zget t' c = Some (Some b) /\ bc_spec x (m - 1) c b) /\
    forall k, 256 <= k -> zget t' k = zget t k.
Proof.
  intros Hm Hm1 HB Hl. unfold preBmBc.
  destruct (bc_init_ok 256 0 t) as (t1 & E1 & Hl1 & Hz1); try lia. rewrite E1; cbn [bind].
  destruct (bc_fill_ok x (m - 1)  ltac:(intros; apply HB; lia) ltac:(lia) (Z.to_nat (m - 1)) 0 t1) as (t' & E & Hl' & HP & Hout); try lia.
  - intros c Hc. exists 1. rewrite Hz1. destruct (Z.leb_spec 0 c), (Z.ltb_spec c 256); try lia. split; [reflexivity|]. left. split; [reflexivity|intros; lia].
  - exists t'. split; [exact E|]. split; [lia|]. split; [exact HP|]. intros k Hk. rewrite Hout by lia. rewrite Hz1.
    destruct (Z.leb_spec 0 k), (Z.ltb_spec k 256); try lia; reflexivity.
Qed.

(** ** the search loop *)
Section Search.
Variables (x : list Z) (t : list (option Z)) (y : list Z) (m : Z).
Hypothesis Hm : zlen x = m.
Hypothesis Hm1 : 1 <= m.
Hypothesis HB : forall k, 0 <= k < zlen y -> 0 <= xat y k < 256.
Hypothesis HG : forall p, 0 <= p < m -> exists g, zget t (256 + p) = Some (Some g) /\ gs_spec x m p g.
Hypothesis HC : forall c, 0 <= c < 256 -> exists b, zget t c = Some (Some b) /\ bc_spec x (m - 1) c b.

Definition occ (j : Z) : Prop := 0 <= j /\ j + m <= zlen y /\ forall k, 0 <= k < m -> xat y (j + k) = xat x k.

(** memory of the previous good suffix shift *)
Definition mem (j u s : Z) : Prop :=
  0 <= u /\ (0 < u -> 1 <= s /\ u + s <= m /\
    (forall k, m - 1 - s - u < k <= m - 1 - s -> xat y (j + k) = xat x k) /\
    (forall k, m - u <= k < m -> xat x (k - s) = xat x k)).

(** queries for which the shift of line 153 is safe *)
Definition good_query : Prop :=
  m <= 7 \/ forall s, 1 <= s -> s + 3 <= m -> exists k, m - 3 <= k < m /\ xat x (k - s) <> xat x k.

Lemma scan_ok j u s : 0 <= j -> j + m <= zlen y -> mem j u s -> forall fuel i,
  -1 <= i < m -> (Z.to_nat (i + 1) <= fuel)%nat ->
  (forall q, i < q < m -> xat y (j + q) = xat x q) ->
  (0 < u -> m - 1 - s < i \/ i <= m - 1 - s - u) ->
  exists i', scan fuel x y j m s u i = Ret i' /\ -1 <= i' <= i /\
    (forall q, i' < q < m -> xat y (j + q) = xat x q) /\
    (0 <= i' -> xat y (j + i') <> xat x i') /\
    (0 < u -> m - 1 - s < i' \/ i' <= m - 1 - s - u).
Proof.
  intros Hj Hjm (Hu & HM). induction fuel as [|k IH]; intros i Hi Hf Hq Hju; cbn [scan].
  - assert (i = -1) as -> by lia. cbn. exists (-1). split; [reflexivity|]. split; [lia|]. split; [exact Hq|]. split; [lia|exact Hju].
  - destruct (Z.leb_spec 0 i).
    2:{ exists i. split; [reflexivity|]. split; [lia|]. split; [exact Hq|]. split; [lia|exact Hju]. }
    rewrite !rdc_ok by lia. cbn [bind]. destruct (Z.eqb_spec (xat x i) (xat y (j + i))) as [E|E].
    2:{ exists i. split; [reflexivity|]. split; [lia|]. split; [exact Hq|]. split; [congruence|exact Hju]. }
    cbv zeta.
    assert (forall q, i - 1 < q < m -> xat y (j + q) = xat x q) as Hq1.
    { intros q Hqq. destruct (Z.eq_dec q i) as [->|]; [congruence|apply Hq; lia]. }
    destruct (Z.eqb_spec u 0) as [Eu|Eu]; cbn [negb andb].
    + destruct (IH (i - 1)) as (i' & E' & H1 & H2 & H3 & H4); try lia; try assumption.
      exists i'. split; [exact E'|]. split; [lia|]. tauto.
    + destruct (HM ltac:(lia)) as (M1 & M2 & M3 & M4). specialize (Hju ltac:(lia)).
      destruct (Z.eqb_spec (i - 1) (m - 1 - s)) as [Ej|Ej].
      * destruct (IH (i - 1 - u)) as (i' & E' & H1 & H2 & H3 & H4); try lia.
        { intros q Hqq. destruct (Z.le_gt_cases q (i - 1)); [apply M3; lia|apply Hq1; lia]. }
        exists i'. split; [exact E'|]. split; [lia|]. tauto.
      * destruct (IH (i - 1)) as (i' & E' & H1 & H2 & H3 & H4); try lia; try assumption.
        exists i'. split; [exact E'|]. split; [lia|]. tauto.
Qed.

(** one shift *)
Lemma occ_compat j i d : 0 <= i < m -> (forall q, i < q < m -> xat y (j + q) = xat x q) -> xat y (j + i) <> xat x i ->
  1 <= d -> occ (j + d) -> compat x m i d.
Proof.
  intros Hi Hq Hne Hd (O1 & O2 & O3). split.
  - intros q Hqi Hdq. rewrite <- (Hq q) by lia. rewrite <- (O3 (q - d)) by lia. f_equal; lia.
  - intros Hdi. rewrite <- O3 by lia. replace (j + d + (i - d)) with (j + i) by lia. exact Hne.
Qed.
Lemma bc_safe j i d b : 0 <= i < m -> bc_spec x (m - 1) (xat y (j + i)) b -> 1 <= d -> occ (j + d) -> b + i <= d.
Proof.
  intros Hi Hb Hd (O1 & O2 & O3). destruct (Z.le_gt_cases d i) as [L|L].
  - assert (xat x (i - d) = xat y (j + i)) as E by (rewrite <- O3 by lia; f_equal; lia).
    destruct Hb as [[_ H]|(k & H1 & H2 & H3 & H4)]; [exfalso; apply (H (i - d)); [lia|exact E]|].
    destruct (Z.le_gt_cases (i - d) k); [lia|]. exfalso; apply (H4 (i - d)); [lia|exact E].
  - destruct Hb as [[H _]|(k & H1 & H2 & H3 & H4)]; lia.
Qed.
Lemma turbo_safe j u s i d : mem j u s -> 0 <= i < m -> (0 < u -> m - 1 - s < i \/ i <= m - 1 - s - u) ->
  xat y (j + i) <> xat x i -> 1 <= d < u - (m - 1 - i) -> occ (j + d) -> False.
Proof.
  intros (Hu & HM) Hi Hju Hne Hd (O1 & O2 & O3). destruct (HM ltac:(lia)) as (M1 & M2 & M3 & M4). specialize (Hju ltac:(lia)).
  assert (m - 1 - s < i) by lia.
  (* text characters at i and i-s differ *)
  assert (xat y (j + (i - s)) = xat x i) as E1 by (rewrite M3 by lia; apply M4; lia).
  assert (xat x (i - d) = xat y (j + i)) as E2 by (rewrite <- O3 by lia; f_equal; lia).
  assert (xat x (i - d - s) = xat y (j + (i - s))) as E3 by (rewrite <- O3 by lia; f_equal; lia).
  assert (xat x (i - d - s) = xat x (i - d)) as E4 by (apply M4; lia). congruence.
Qed.
Lemma extra_safe j u s i d g b : good_query -> mem j u s -> 0 <= i < m -> (0 < u -> m - 1 - s < i \/ i <= m - 1 - s - u) ->
  (forall q, i < q < m -> xat y (j + q) = xat x q) -> xat y (j + i) <> xat x i ->
  gs_spec x m i g -> bc_spec x (m - 1) (xat y (j + i)) b ->
  g < b + i -> u - (m - 1 - i) < b + i -> 1 <= d <= u -> occ (j + d) -> False.
Proof.
  intros HQ HMM Hi Hju Hq Hne (G1 & G2 & G3) Hb Hgb Htb Hd HO.
  pose proof (bc_safe j i d b Hi Hb ltac:(lia) HO) as Hbd.
  destruct HMM as (Hu & HM). destruct (HM ltac:(lia)) as (M1 & M2 & M3 & M4). specialize (Hju ltac:(lia)).
  destruct HO as (O1 & O2 & O3). destruct G2 as (C1 & C2).
  assert (g <= i) as Hgi by (destruct Hb as [[H _]|(k & H1 & H2 & H3 & H4)]; lia).
  specialize (C2 Hgi).
  assert (forall q, i < q < m -> d <= q -> xat x (q - d) = xat x q) as W.
  { intros q H1 H2. rewrite <- (Hq q) by lia. rewrite <- (O3 (q - d)) by lia. f_equal; lia. }
  assert (exists v, v = m - 1 - i) as (v & Ev0) by (eexists; reflexivity).
  destruct (Z.le_gt_cases d v) as [L|L].
  - (* d <= v *)
    apply C2. assert (xat x (i - g) = xat x (i - g + d)) as E1.
    { rewrite <- (W (i - g + d)) by lia. f_equal; lia. }
    assert (xat x (i - g + d) = xat x (i + d)) as E2.
    { rewrite <- (C1 (i + d)) by lia. f_equal; lia. }
    assert (xat x (i + d) = xat x i) as E3.
    { rewrite <- (W (i + d)) by lia. f_equal; lia. }
    congruence.
  - assert (m - 1 - s < i) as Hnj by lia.
    assert (0 <= i - d) as Hid by lia.
    assert (xat x (i - d) = xat y (j + i)) as Ec by (rewrite <- O3 by lia; f_equal; lia).
    assert (forall k, m - 1 - u <= k <= m - 2 -> xat x k <> xat y (j + i)) as Hnc.
    { intros k Hk. destruct Hb as [[_ H]|(k' & H1 & H2 & H3 & H4)]; [apply H; lia|apply H4; lia]. }
    destruct (Z.le_gt_cases (s - v) d) as [L2|L2].
    + assert (xat x (i - d + s) = xat y (j + i)) as E1.
      { rewrite <- (M4 (i - d + s)) by lia. rewrite <- Ec. f_equal; lia. }
      destruct (Z.eq_dec (i - d + s) (m - 1)) as [E2|E2].
      * destruct (Z.eq_dec v 0) as [Ev|Ev].
        -- apply Hne. rewrite <- E1. f_equal; lia.
        -- apply (Hnc (m - 1 - d)); [lia|]. rewrite (W (m - 1)) by lia. rewrite <- E1. f_equal; lia.
      * apply (Hnc (i - d + s)); [lia|exact E1].
    + assert (v <> 0) as Hv by lia.
      assert (3 <= d) as Hd3.
      { destruct (Z.le_gt_cases 3 d); [assumption|]. exfalso.
        assert (d = 2) as Ed by lia. assert (g = 1) as Eg by lia.
apply C2. assert (xat x (i + 1 - g) = xat x (i + 1)) as Z1 by (apply C1; lia).
        assert (xat x (i + 1 - d) = xat x (i + 1)) as Z2 by (apply W; lia).
        replace (i + 1 - g) with i in Z1 by lia. replace (i - g) with (i + 1 - d) by lia. congruence. }
      destruct HQ as [HQ|HQ]; [lia|].
      destruct (HQ s) as (k & Hk & Hkn); [lia|lia|]. apply Hkn. apply M4. lia.
Qed.

Lemma turbo_ok (first : Prop) : (first -> good_query) -> forall fuel j i s u, 0 <= j -> (Z.to_nat (zlen y - m - j + 1) < fuel)%nat ->
  mem j u s -> (first -> forall d, 0 <= d < j -> ~ occ d) -> 0 <= i ->
  exists j' i', turbo fuel x t y m j i s u = Ret (j', i') /\
    ((i' = -1 /\ occ j' /\ (first -> forall d, 0 <= d < j' -> ~ occ d)) \/ (i' <> -1 /\ (first -> forall d, ~ occ d))).
Proof.
  intros HF. induction fuel as [|k IH]; intros j i s u Hj Hf HM Hno Hi; [lia|]. cbn [turbo].
  destruct (Z.leb_spec j (zlen y - m)) as [L|L].
  2:{ do 2 eexists; split; [reflexivity|]. right. split; [lia|]. intros Hfi d Hd.
      destruct (Z.lt_ge_cases d j); [apply (Hno Hfi d); [destruct Hd; lia|exact Hd]|destruct Hd as (_ & Hd & _); lia]. }
  destruct (scan_ok j u s Hj ltac:(lia) HM (Z.to_nat m) (m - 1)) as (i' & E & H1 & H2 & H3 & H4); try lia.
  { destruct HM as (Hu & HM). intros Hu0. destruct (HM Hu0). lia. }
  rewrite E; cbn [bind]. destruct (Z.ltb_spec i' 0).
  { do 2 eexists; split; [reflexivity|]. left. assert (i' = -1) as -> by lia. split; [reflexivity|]. split; [|exact Hno].
    split; [lia|]. split; [lia|]. intros q Hqq. apply H2; lia. }
  specialize (H3 ltac:(lia)). cbv zeta.
  rewrite rdc_ok by lia. cbn [bind].
  destruct (HC (xat y (j + i'))) as (b & Eb & Hb); [apply HB; lia|]. rewrite (rd_of _ _ _ Eb); cbn [bind].
  destruct (HG i' ltac:(lia)) as (g & Eg & Hg). rewrite (rd_of _ _ _ Eg); cbn [bind].
  set (v := m - 1 - i') in *.
  assert (Hg' := Hg). destruct Hg' as (G1 & G2 & G3).
  assert (forall d, 1 <= d < Z.max (Z.max (u - v) (b + i')) g -> ~ occ (j + d)) as Hsafe.
  { intros d Hd HO. destruct (Z.lt_ge_cases d g).
    - apply (G3 d); [lia|]. eapply occ_compat; try eassumption; lia.
    - destruct (Z.lt_ge_cases d (b + i')).
      + pose proof (bc_safe j i' d b ltac:(lia) Hb ltac:(lia) HO). lia.
      + eapply (turbo_safe j u s i' d); try eassumption; unfold v in *; lia. }
  assert (Hu : 0 <= u) by (destruct HM; assumption).
  match goal with |- context [let '(a, b0) := ?e in _] => set (ee := e) end.
  assert (1 <= fst ee /\ mem (j + fst ee) (snd ee) (fst ee) /\ (first -> forall d, 1 <= d < fst ee -> ~ occ (j + d))) as (S1 & S2 & S3).
  { unfold ee. destruct (Z.eqb_spec (Z.max (Z.max (u - v) (b + i')) g) g) as [Es|Es]; cbn [fst snd].
    - rewrite Es in *. split; [lia|]. split; [|intros _; exact Hsafe].
      split; [lia|]. intros Hu'. split; [lia|]. split; [lia|]. destruct G2 as (C1 & _). split.
      + intros q Hqq. replace (j + g + q) with (j + (g + q)) by lia. rewrite H2 by lia.
        rewrite <- (C1 (g + q)) by lia. f_equal; lia.
      + intros q Hqq. apply C1; lia.
    - destruct (Z.ltb_spec (u - v) (b + i')).
      + split; [lia|]. split; [split; [lia|intros; lia]|]. intros Hfi d Hd HO.
        destruct (Z.lt_ge_cases d (Z.max (Z.max (u - v) (b + i')) g)); [apply (Hsafe d); [lia|exact HO]|].
        eapply (extra_safe j u s i' d g b); try eassumption; try (exact (HF Hfi)); unfold v in *; lia.
      + split; [lia|]. split; [split; [lia|intros; lia]|]. intros _ d Hd. apply Hsafe; lia. }
  destruct ee as [s' u']. cbn [fst snd] in *. apply IH; try lia; try assumption.
  intros Hfi d Hd HO. destruct (Z.lt_ge_cases d j); [apply (Hno Hfi d); [lia|exact HO]|].
  destruct (Z.eq_dec d j) as [->|].
  - apply H3. destruct HO as (_ & _ & HO). apply HO. lia.
  - apply (S3 Hfi (d - j)); [lia|]. replace (j + (d - j)) with d by lia. exact HO.
Qed.
End Search.

Lemma xat_slice y j m x : 0 <= j -> j + m <= zlen y -> zlen x = m ->
  ((forall k, 0 <= k < m -> xat y (j + k) = xat x k) <-> slice y j m = x).
Proof.
  intros Hj Hl Hm. pose proof (zlen_nonneg x). pose proof (zlen_slice y j m ltac:(lia) ltac:(lia) ltac:(lia)) as Es. split.
  - intros H1. apply zget_ext_range; [lia|]. intros i Hi. rewrite Es in Hi. specialize (H1 i Hi). unfold xat in H1.
    rewrite zget_slice by lia. destruct (Z.leb_spec 0 i), (Z.ltb_spec i m); try lia. cbn [andb].
    destruct (zget_some y (j + i)) as [a Ea]; [lia|]. destruct (zget_some x i) as [b Eb]; [lia|].
    rewrite Ea, Eb in *. congruence.
  - intros <- k Hk. unfold xat. rewrite zget_slice by lia. destruct (Z.leb_spec 0 k), (Z.ltb_spec k m); try lia. reflexivity.
Qed.

(** a searcher whose tables belong to its query *)
Definition k_ok (k : searcher) : Prop :=
  k_len k = zlen (k_query k) /\ 1 <= k_len k /\
  exists t, k_table k = Some t /\ zlen t >= 257 + k_maxlen k /\ k_len k <= k_maxlen k /\
    (forall p, 0 <= p < k_len k -> exists g, zget t (256 + p) = Some (Some g) /\ gs_spec (k_query k) (k_len k) p g) /\
    (forall c, 0 <= c < 256 -> exists b, zget t c = Some (Some b) /\ bc_spec (k_query k) (k_len k - 1) c b).
Lemma bytes_xat q : Forall (fun c => 0 <= c < 256) q -> forall k, 0 <= k < zlen q -> 0 <= xat q k < 256.
Proof.
  intros H k Hk. unfold xat. destruct (zget_some q k Hk) as [z Ez]. rewrite Ez. rewrite Forall_forall in H. apply H.
  unfold zget in Ez. destruct (k <? 0); [discriminate|]. eapply nth_error_In; exact Ez.
Qed.
Lemma setQuery_ok k q : k = kmp_null \/ k_ok k -> q <> [] -> Forall (fun c => 0 <= c < 256) q -> zlen q <= 2 ^ 29 - 258 ->
  exists k', setQuery k q = Ret k' /\ k_ok k' /\ k_query k' = q.
Proof.
  intros Hk Hne HB Hl. unfold setQuery. assert (1 <= zlen q) as H1 by (destruct q; [congruence|rewrite zlen_cons; pose proof (zlen_nonneg q); lia]).
  replace (i32 (zlen q)) with true by (symmetry; apply i32_true; unfold INT32_MIN, INT32_MAX; lia). cbn [negb].
  rewrite chk32_ok by (unfold INT32_MIN, INT32_MAX; lia). cbn [bind].
  rewrite chk32_ok by (unfold INT32_MIN, INT32_MAX; lia). cbn [bind].
  match goal with |- context [let '(t, ml) := ?e in _] => set (ee := e) end.
  assert (zlen (fst ee) >= 257 + snd ee /\ zlen q <= snd ee) as (He1 & He2).
  { unfold ee. destruct Hk as [->|(K1 & K2 & t & K3 & K4 & K5 & _)].
    - cbn [kmp_null k_table fst snd]. rewrite zlen_repeat. lia.
    - rewrite K3. destruct (Z.ltb_spec (k_maxlen k) (zlen q)); cbn [fst snd]; [|lia].
      rewrite zlen_app, zlen_repeat. lia. }
  destruct ee as [t ml]. cbn [fst snd] in *. clear Hk.
  destruct (preBmGs_ok q (zlen q) 256 t) as (t1 & E1 & L1 & P1 & O1); try lia. rewrite E1; cbn [bind].
  destruct (preBmBc_ok q (zlen q) t1) as (t2 & E2 & L2 & P2 & O2); try lia. { apply bytes_xat; exact HB. }
  rewrite E2; cbn [bind]. eexists; split; [reflexivity|]. split; [|reflexivity].
  unfold k_ok. cbn [k_len k_query k_table k_maxlen]. split; [reflexivity|]. split; [lia|].
  exists t2. split; [reflexivity|]. split; [lia|]. split; [lia|]. split; [|exact P2].
  intros p Hp. rewrite O2 by lia. apply P1; exact Hp.
Qed.

Lemma tail_good q : short_or_unique_tail q -> good_query q (zlen q).
Proof.
  intros [H|H]; [left; exact H|right]. intros s Hs Hm.
  set (m := zlen q) in *.
  destruct (Z.eq_dec (xat q (m - 3 - s)) (xat q (m - 3))) as [E1|]; [|exists (m-3); split; [lia|assumption]].
  destruct (Z.eq_dec (xat q (m - 2 - s)) (xat q (m - 2))) as [E2|]; [|exists (m-2); split; [lia|assumption]].
  destruct (Z.eq_dec (xat q (m - 1 - s)) (xat q (m - 1))) as [E3|]; [|exists (m-1); split; [lia|assumption]].
  exfalso. apply (H (m - 3 - s)); [lia|].
  assert (zlen (slice q (m - 3) 3) = 3) as L by (apply zlen_slice; unfold m; lia).
  apply xat_slice; try lia. intros k Hk.
  assert (xat (slice q (m - 3) 3) k = xat q (m - 3 + k)) as ->.
  { unfold xat. rewrite zget_slice by lia. destruct (Z.leb_spec 0 k), (Z.ltb_spec k 3); try lia. reflexivity. }
  assert (k = 0 \/ k = 1 \/ k = 2) as [-> | [-> | ->]] by lia.
  - rewrite !Z.add_0_r. exact E1.
  - replace (m - 3 - s + 1) with (m - 2 - s) by lia. replace (m - 3 + 1) with (m - 2) by lia. exact E2.
  - replace (m - 3 - s + 2) with (m - 1 - s) by lia. replace (m - 3 + 2) with (m - 1) by lia. exact E3.
Qed.

Lemma search_ok (first : Prop) k hay : k_ok k -> Forall (fun c => 0 <= c < 256) hay -> (first -> short_or_unique_tail (k_query k)) ->
  exists r, search k hay = Ret r /\
    match r with
    | Some j => occurs_at (k_query k) hay j /\ (first -> forall d, d < j -> ~ occurs_at (k_query k) hay d)
    | None => first -> forall d, ~ occurs_at (k_query k) hay d
    end.
Proof.
  intros (K1 & K2 & t & K3 & K4 & K5 & K6 & K7) HB HF. unfold search. rewrite K3.
  destruct (Z.lt_ge_cases (zlen hay) (k_len k)) as [L|L].
  { assert (turbo (Z.to_nat (zlen hay - k_len k + 2)) (k_query k) t hay (k_len k) 0 0 (k_len k) 0 = Ret (0, 0)) as ->.
    { destruct (Z.to_nat (zlen hay - k_len k + 2)); cbn [turbo]; destruct (Z.leb_spec 0 (zlen hay - k_len k)); try lia; reflexivity. }
    cbn [bind]. eexists; split; [reflexivity|]. cbn. intros _ d (D1 & D2 & _). lia. }
  destruct (turbo_ok (k_query k) t hay (k_len k) ltac:(congruence) ltac:(lia) (bytes_xat _ HB) K6 K7 first
     ltac:(intros Hf; rewrite K1; apply tail_good, HF, Hf) (Z.to_nat (zlen hay - k_len k + 2)) 0 0 (k_len k) 0)
    as (j & i & E & Hres); try lia.
  { split; [lia|intros; lia]. }
  assert (forall d, occurs_at (k_query k) hay d <-> occ (k_query k) hay (k_len k) d) as HO.
  { intros d. unfold occurs_at, occ. rewrite <- K1. split; intros (D1 & D2 & D3); (split; [exact D1|]; split; [exact D2|]);
      apply (xat_slice hay d (k_len k) (k_query k)); try lia; try assumption; congruence. }
  rewrite E; cbn [bind]. eexists; split; [reflexivity|].
  destruct Hres as [(Hi1 & H1 & H2)|(H1 & H2)]; [subst i|].
  - cbn. split; [apply HO; exact H1|]. intros Hf d Hd Ho. apply (H2 Hf d); [destruct Ho; lia|apply HO; exact Ho].
  - destruct (Z.eqb_spec i (-1)); [lia|]. intros Hf d Ho. apply (H2 Hf d). apply HO. exact Ho.
Qed.
