(** The dry run of the LZMA decoder (LzmaDec_TryDummy): it decodes the next symbol with fixed probabilities, and says that the
    input ends before it. *)
From Verif Require Import Base LzmaFormatSpec P_LzmaFormat P_LzmaFormat2 M_LzmaDec P_LzmaDec1 P_LzmaDec2.

Definition tr {A B} (o : out (option B)) (pg : prog A) (k : coder) (R : B -> A -> coder -> Prop) : Prop :=
  match fdecode pg k with Some (a, k') => exists x, o = Ret (Some x) /\ R x a k' | None => o = Ret None end.
Lemma tr_bind {A B C D} (o : out (option B)) (f : B -> out (option D)) (pg : prog A) (g : A -> prog C) k R S :
  tr o pg k R -> (forall x a k', R x a k' -> tr (f x) (g a) k' S) -> tr (dbind o f) (pbind pg g) k S.
Proof.
  intros H1 H2. unfold tr in *. rewrite fdecode_bind. destruct (fdecode pg k) as [(a, k1)|]; [|rewrite H1; reflexivity].
  destruct H1 as (x & -> & HR). exact (H2 _ _ _ HR).
Qed.
Lemma tr_done {A B} (x : B) (a : A) k (R : B -> A -> coder -> Prop) : R x a k -> tr (Ret (Some x)) (Done a) k R.
Proof. intros H. cbn. eauto. Qed.
Lemma tr_impl {A B} (o : out (option B)) (pg : prog A) k (R S : B -> A -> coder -> Prop) : tr o pg k R -> (forall x a k', R x a k' -> S x a k') -> tr o pg k S.
Proof. unfold tr. intros H HI. destruct (fdecode pg k) as [(a, k')|]; [|exact H]. destruct H as (x & -> & HR). eauto. Qed.
Lemma returns_fdecode {A} (p : prog A) Q : forall k a k', returns p Q -> fdecode p k = Some (a, k') -> Q a.
Proof.
  induction p as [x|c f IH|f IH]; intros k a k' H; cbn in *; [intros E; injection E as <- _; exact H| |]; destruct (norm k) as [k1|]; try discriminate.
  - destruct (coded c k1). apply IH, H.
  - destruct (halved k1). apply IH, H.
Qed.
Lemma tr_returns {A B} (o : out (option B)) (pg : prog A) k (R : B -> A -> coder -> Prop) Q : tr o pg k R -> returns pg Q -> tr o pg k (fun x a k' => R x a k' /\ Q a).
Proof.
  unfold tr. intros H HQ. destruct (fdecode pg k) as [(a, k')|] eqn:E; [|exact H]. destruct H as (x & -> & HR). exists x. split; [reflexivity|]. split; [exact HR|exact (returns_fdecode _ _ _ _ _ HQ E)].
Qed.

Section Dry.
Variables (pr : props) (src probs : list Z).
Hypothesis Hl : 0 <= p_lc pr + p_lp pr.
Record DR (d : drc) (k : coder) : Prop := {
  dr_range : fst (fst d) = k_range k; dr_code : snd (fst d) = k_code k; dr_in : at_in src (snd d) (k_in k);
  dr_probs : probs_ok pr probs (k_probs k); dr_good : kgood k }.
Lemma normalize_check_ok d k : DR d k ->
  match norm k with Some k' => exists d', normalize_check src d = Ret (Some d') /\ DR d' k' | None => normalize_check src d = Ret None end.
Proof.
  intros [C1 C2 C3 C4 C5]. destruct (norm k) as [k'|] eqn:E; [destruct (norm_good _ _ C5 E) as (G & _ & _)|]; unfold norm in E; unfold normalize_check; destruct d as ((range, code), buf); cbn [fst snd] in *; subst range code;
    change (2 ^ 24) with 16777216 in E; change (2 ^ 32) with 4294967296 in E;
    (destruct (Z.ltb_spec (k_range k) 16777216); [|first [discriminate|injection E as <-; eexists; split; [reflexivity|constructor; try assumption; reflexivity]]]);
    destruct (k_in k) as [|b t] eqn:Ek; try discriminate.
  - injection E as <-. destruct (at_in_cons _ _ _ _ C3) as (Hg & Ha). pose proof (zget_some_inv _ _ _ Hg). destruct (Z.leb_spec (zlen src) buf); [lia|]. unfold aget. rewrite Hg. cbn [bind]. eexists; split; [reflexivity|].
    destruct C5 as (_ & R & _). constructor; cbn [fst snd k_range k_code k_in k_probs]; [rewrite u32_id by lia; reflexivity|reflexivity|exact Ha|exact C4|exact G].
  - pose proof (at_in_nil _ _ C3). destruct (Z.leb_spec (zlen src) buf); [reflexivity|lia].
Qed.
Definition DB : drc * bool -> bool -> coder -> Prop := fun x b k => DR (fst x) k /\ snd x = b.
Definition DZ : drc * Z -> Z -> coder -> Prop := fun x b k => DR (fst x) k /\ snd x = b.
Lemma bit_check_ok c i d k : ctx_ok pr c -> i = idx c -> DR d k -> tr (bit_check src probs i d) (one c) k DB.
Proof.
  intros Hc -> C. unfold tr, one. cbn [fdecode]. pose proof (normalize_check_ok d k C) as HN. unfold bit_check. assert (aget probs (idx c) = Ret (k_probs k c)) as -> by (unfold aget; rewrite (proj2 (dr_probs _ _ C) c Hc); reflexivity). cbn [bind].
  destruct (norm k) as [k1|] eqn:E; [|rewrite HN; reflexivity]. destruct HN as (d1 & -> & C1). unfold dbind. cbn [bind]. destruct (norm_good _ _ (dr_good _ _ C) E) as (G & N & Ep). rewrite <- Ep.
  destruct (bit_arith k1 c G N) as (A1 & A2 & A3 & A4 & A5). destruct d1 as ((range, code), buf). destruct C1 as [R1 R2 R3 R4 R5]. cbn [fst snd] in *. rewrite R1, R2, A1, A4.
  destruct (coded_good c k1 G N) as (G' & _). unfold coded in *. destruct (Z.ltb_spec (k_code k1) (k_range k1 / 2048 * k_probs k1 c)); cbn [fst] in G'.
  - eexists; split; [reflexivity|]. split; [|reflexivity]. constructor; cbn [fst snd fixed k_range k_code k_in k_probs]; try reflexivity; try assumption. split; [apply G|exact (proj2 G')].
  - rewrite A5 by lia. eexists; split; [reflexivity|]. split; [|reflexivity]. constructor; cbn [fst snd fixed k_range k_code k_in k_probs]; try reflexivity; try assumption. split; [apply G|exact (proj2 G')].
Qed.
Lemma tree_check_ok (mk : Z -> ctx) base limit : (forall i, 1 <= i < limit -> ctx_ok pr (mk i) /\ idx (mk i) = base + i) ->
  forall n fuel i r k, (1 <= n <= fuel)%nat -> 1 <= i -> limit <= i * 2 ^ Z.of_nat n -> (i + 1) * 2 ^ Z.of_nat n <= 2 * limit -> DR r k ->
  tr (tree_loop_check src probs fuel base limit i r) (tree mk n i) k (fun x a k' => DZ x a k' /\ limit <= a < 2 * limit).
Proof.
  intros Hmk. induction n as [|n IH]; intros fuel i r k Hn Hi H1 H2 C; [lia|]. destruct fuel as [|fuel]; [lia|].
  rewrite Nat2Z.inj_succ, Z.pow_succ_r in H1 by lia; rewrite Nat2Z.inj_succ, Z.pow_succ_r in H2 by lia. assert (0 < 2 ^ Z.of_nat n) as Hp by (apply Z.pow_pos_nonneg; lia).
  assert (i < limit) as Hil by nia. destruct (Hmk i ltac:(lia)) as (K1 & K2).
  cbn [tree_loop_check tree]. unfold get_bit_check. pose proof (bit_check_ok (mk i) (base + i) r k K1 (eq_sym K2) C) as HB. unfold tr in *. rewrite fdecode_bind. destruct (fdecode (one (mk i)) k) as [(b, k1)|]; [|rewrite HB; reflexivity].
  destruct HB as ((r1, b1) & -> & (C1 & <-)). unfold dbind. cbn [bind fst snd] in *.
  replace (i + i + b2z b1) with (2 * i + z_of b1) by (destruct b1; cbn [b2z z_of]; lia).
  destruct n as [|n].
  - cbn [tree fdecode]. change (2 ^ Z.of_nat 0) with 1 in H1, H2. destruct (Z.ltb_spec (2 * i + z_of b1) limit) as [Q|Q]; [destruct b1; cbn [z_of] in Q; lia|].
    eexists; split; [reflexivity|]. split; [split; [exact C1|reflexivity]|]. destruct b1; cbn [z_of] in *; lia.
  - destruct (Z.ltb_spec (2 * i + z_of b1) limit) as [Q|Q].
    + apply (IH fuel (2 * i + z_of b1) r1 k1); [lia|destruct b1; cbn [z_of]; lia| | |exact C1]; destruct b1; cbn [z_of]; nia.
    + exfalso. rewrite Nat2Z.inj_succ, Z.pow_succ_r in * by lia. assert (0 < 2 ^ Z.of_nat n) by (apply Z.pow_pos_nonneg; lia). destruct b1; cbn [z_of] in Q; nia.
Qed.
Lemma tree_decode_check_ok (mk : Z -> ctx) base limit n r k : (forall i, 1 <= i < limit -> ctx_ok pr (mk i) /\ idx (mk i) = base + i) ->
  (1 <= n <= 8)%nat -> limit = 2 ^ Z.of_nat n -> DR r k -> tr (tree_decode_check src probs base limit r) (number mk n) k (fun x a k' => DZ x a k' /\ 0 <= a < limit).
Proof.
  intros Hmk Hn HL C. unfold tree_decode_check, number. apply (tr_bind _ _ _ _ _ (fun x a k' => DZ x a k' /\ limit <= a < 2 * limit)).
  - apply tree_check_ok; [exact Hmk|exact Hn|lia|rewrite <- HL; lia|rewrite <- HL; lia|exact C].
  - intros (r1, i) a k1 ((C1 & E) & B). cbn [fst snd] in *. subst i. apply tr_done. rewrite <- HL. split; [split; [exact C1|reflexivity]|lia].
Qed.
Lemma len_check_ok (rep : bool) pos r k : 0 <= pos < 16 -> DR r k ->
  tr (len_check src probs (if rep then RepLenCoder else LenCoder) pos r) (length_ rep pos) k (fun x a k' => DZ x a k' /\ 0 <= a < 272).
Proof.
  intros Hp C. unfold len_check, length_. assert ((if rep then RepLenCoder else LenCoder) = lenbase rep) as -> by (destruct rep; reflexivity).
  apply (tr_bind _ _ _ _ _ DB); [apply bit_check_ok; [exact Logic.I|cbn [idx]; change LenChoice with 0; lia|exact C]|].
  intros (r1, b) b' k1 (C1 & E). cbn [fst snd] in *. subst b'. destruct b; cbn [negb].
  - apply (tr_bind _ _ _ _ _ DB); [apply bit_check_ok; [exact Logic.I|cbn [idx]; change LenChoice2 with 1; lia|exact C1]|].
    intros (r2, b) b' k2 (C2 & E). cbn [fst snd] in *. subst b'. destruct b; cbn [negb].
    + apply (tr_bind _ _ _ _ _ (fun x a k' => DZ x a k' /\ 0 <= a < 256)).
      * apply tree_decode_check_ok; [|lia|reflexivity|exact C2]. intros i Hi. split; [exact Hi|]. cbn [idx]. change LenHigh with 258. lia.
      * intros (r3, l) l' k3 ((C3 & E) & B). cbn [fst snd] in *. subst l'. apply tr_done. split; [split; [exact C3|cbn [snd]; lia]|lia].
    + apply (tr_bind _ _ _ _ _ (fun x a k' => DZ x a k' /\ 0 <= a < 8)).
      * apply tree_decode_check_ok; [|lia|reflexivity|exact C2]. intros i Hi. split; [split; [exact Hp|exact Hi]|]. cbn [idx]. change LenMid with 130. lia.
      * intros (r3, l) l' k3 ((C3 & E) & B). cbn [fst snd] in *. subst l'. apply tr_done. split; [split; [exact C3|cbn [snd]; lia]|lia].
  - eapply tr_impl; [apply (tree_decode_check_ok (CLenLow rep pos) _ 8 3); [|lia|reflexivity|exact C1]|].
    + intros i Hi. split; [split; [exact Hp|exact Hi]|]. cbn [idx]. change LenLow with 2. lia.
    + intros x a k' (H & B). split; [exact H|lia].
Qed.
Lemma bits_check_ok (mk : Z -> ctx) base N : (forall i, 1 <= i < 2 ^ N -> ctx_ok pr (mk i) /\ idx (mk i) = base + i) ->
  forall n i j w r k, 0 <= j -> j + Z.of_nat n = N -> 2 ^ j <= i < 2 ^ (j + 1) -> DR r k ->
  tr (bits_check src probs n base i r) (reverse mk n i w) k (fun x a k' => DR x k').
Proof.
  intros Hmk. induction n as [|n IH]; intros i j w r k Hj HN Hi C.
  - cbn [bits_check reverse]. apply tr_done. exact C.
  - assert (0 < 2 ^ j) as Hp by (apply Z.pow_pos_nonneg; lia). assert (2 ^ (j + 1) <= 2 ^ N) as Hp2 by (apply Z.pow_le_mono_r; lia). rewrite Z.pow_add_r in Hi by lia; rewrite Z.pow_add_r in Hp2 by lia. change (2 ^ 1) with 2 in *.
    destruct (Hmk i ltac:(lia)) as (K1 & K2). cbn [bits_check reverse]. unfold get_bit_check. pose proof (bit_check_ok (mk i) (base + i) r k K1 (eq_sym K2) C) as HB. unfold tr in *. rewrite fdecode_bind. destruct (fdecode (one (mk i)) k) as [(b, k1)|]; [|rewrite HB; reflexivity].
    destruct HB as ((r1, b1) & -> & (C1 & <-)). unfold dbind. cbn [bind fst snd] in *. replace (i + i + b2z b1) with (2 * i + z_of b1) by (destruct b1; cbn [b2z z_of]; lia). rewrite fdecode_bind.
    assert (z_of b1 = 0 \/ z_of b1 = 1) as Hb by (destruct b1; cbn; lia).
    specialize (IH (2 * i + z_of b1) (j + 1) (2 * w) r1 k1). unfold tr in IH. destruct (fdecode (reverse mk n (2 * i + z_of b1) (2 * w)) k1) as [(a1, k2)|].
    + destruct IH as (x & -> & HR); [lia|lia| |exact C1|eexists; split; [reflexivity|exact HR]]. rewrite !Z.pow_add_r by lia. change (2 ^ 1) with 2. lia.
    + apply IH; [lia|lia| |exact C1]. rewrite !Z.pow_add_r by lia. change (2 ^ 1) with 2. lia.
Qed.
Lemma direct_check_ok : forall n m r k, DR r k -> tr (direct_loop_check src n r) (direct n m) k (fun x a k' => DR x k').
Proof.
  induction n as [|n IH]; intros m r k C; [apply tr_done; exact C|]. unfold tr. cbn [direct fdecode direct_loop_check]. pose proof (normalize_check_ok r k C) as HN.
  destruct (norm k) as [k1|] eqn:En; [|rewrite HN; reflexivity]. destruct HN as (r1 & -> & C1). unfold dbind. cbn [bind]. destruct (norm_good _ _ (dr_good _ _ C) En) as (G & N & _).
  destruct r1 as ((range, code), buf). destruct C1 as [R1 R2 R3 R4 R5]. cbn [fst snd] in *. rewrite R1, R2. destruct (halved_arith k1 G N) as (_ & _ & A3 & A4 & A5). cbv zeta in *. rewrite A5, <- A3.
  destruct (halved_good k1 G N) as (G' & _). pose proof (halved_in k1) as Ei. destruct (halved k1) as [k2 b]. cbn [fst snd] in *. apply IH.
  constructor; cbn [fst snd]; try reflexivity; [rewrite Ei; exact R3|rewrite A4; exact R4|exact G'].
Qed.
Lemma distance_check_ok len r k : 0 <= len -> DR r k -> tr (distance_check src probs len r) (distance len) k (fun x a k' => DR x k').
Proof.
  intros Hlen C. unfold distance_check, distance. assert (0 <= Z.min len 3 < 4) as Hm by lia.
  apply (tr_bind _ _ _ _ _ (fun x a k' => DZ x a k' /\ 0 <= a < 64)).
  - apply tree_decode_check_ok; [|lia|reflexivity|exact C]. intros i Hi. split; [split; [exact Hm|exact Hi]|]. cbn [idx]. change PosSlot with 432. destruct (Z.ltb_spec len 4); lia.
  - intros (r1, slot) slot' k1 ((C1 & E) & Hs). cbn [fst snd] in *. subst slot'. destruct (Z.ltb_spec slot 4) as [Q|Q].
    + destruct (Z.leb_spec 4 slot); [lia|]. apply tr_done. exact C1.
    + destruct (Z.leb_spec 4 slot); [|lia]. cbv zeta. destruct (slot_bits slot ltac:(lia)) as (B1 & B2 & B3 & B4).
      assert (Z.lor 2 (Z.land slot 1) = 2 + slot mod 2) as ->.
      { change 1 with (Z.ones 1) at 1. rewrite Z.land_ones by lia. change (2 ^ 1) with 2. assert (slot mod 2 = 0 \/ slot mod 2 = 1) as [-> | ->] by (pose proof (Z.mod_pos_bound slot 2 ltac:(lia)); lia); reflexivity. }
      destruct (Z.ltb_spec slot 14) as [Q2|Q2].
      * specialize (B3 Q2). set (bits := slot / 2 - 1) in *. rewrite Z.shiftl_mul_pow2 by lia. unfold tr. rewrite fdecode_bind.
        pose proof (bits_check_ok (CSpecial slot) (SpecPos + (2 + slot mod 2) * 2 ^ bits - slot - 1) bits) as HB.
        specialize (HB ltac:(intros i Hi; split; [split; [lia|exact Hi]|]; cbn [idx]; change SpecPos with 688; subst bits; lia)).
        specialize (HB (Z.to_nat bits) 1 0 1 r1 k1 ltac:(lia) ltac:(lia) ltac:(lia) C1). unfold tr in HB. unfold reversed. destruct (fdecode (reverse (CSpecial slot) (Z.to_nat bits) 1 1) k1) as [(low, k2)|]; [|exact HB].
        destruct HB as (x & -> & HR). eexists; split; [reflexivity|exact HR].
      * specialize (B2 Q2). apply (tr_bind _ _ _ _ _ (fun x a k' => DR x k')); [apply direct_check_ok; exact C1|]. intros r2 d k2 C2. unfold tr. rewrite fdecode_bind.
        pose proof (bits_check_ok CAlign Align 4) as HB. specialize (HB ltac:(intros i Hi; split; [exact Hi|]; cbn [idx]; change Align with 802; lia)).
        specialize (HB 4%nat 1 0 1 r2 k2 ltac:(lia) ltac:(lia) ltac:(lia) C2). unfold tr in HB. unfold reversed. destruct (fdecode (reverse CAlign 4 1 1) k2) as [(low, k3)|]; [|exact HB].
        destruct HB as (x & -> & HR). eexists; split; [reflexivity|exact HR].
Qed.
Lemma plain_check_ok lit : 0 <= lit < 2 ^ (p_lc pr + p_lp pr) ->
  forall n fuel mb i r k, (1 <= n <= fuel)%nat -> (n <= 8)%nat -> 1 <= i -> 256 <= i * 2 ^ Z.of_nat n -> (i + 1) * 2 ^ Z.of_nat n <= 512 -> DR r k ->
  tr (matched_loop_check src probs fuel (Literal + 768 * lit) mb 0 i r) (plain lit n i) k (fun x a k' => DR (fst x) k').
Proof.
  intros Hlit. induction n as [|n IH]; intros fuel mb i r k Hn Hn8 Hi H1 H2 C; [lia|]. destruct fuel as [|fuel]; [lia|].
  assert (i < 256) as Hi2 by (rewrite Nat2Z.inj_succ, Z.pow_succ_r in H2 by lia; assert (0 < 2 ^ Z.of_nat n) by (apply Z.pow_pos_nonneg; lia); nia).
  unfold tr. cbn [matched_loop_check]. rewrite Z.land_0_r. unfold plain in *. cbn [tree]. rewrite fdecode_bind. rewrite fdecode_bind.
  pose proof (bit_check_ok (CLiteral lit i) (Literal + 768 * lit + 0 + 0 + i) r k) as HB. specialize (HB ltac:(split; [exact Hlit|lia]) ltac:(cbn [idx]; change Literal with 1846; lia) C). unfold tr in HB.
  destruct (fdecode (one (CLiteral lit i)) k) as [(b, k1)|]; [|rewrite HB; reflexivity]. destruct HB as ((r1, b1) & -> & (C1 & <-)).
  unfold dbind. cbn [bind fst snd] in *. replace (if b1 then Z.land 0 0 else Z.land 0 (Z.lnot 0)) with 0 by (destruct b1; reflexivity). replace (i + i + b2z b1) with (2 * i + z_of b1) by (destruct b1; cbn [b2z z_of]; lia).
  destruct (node_next n i b1 ltac:(lia) H1 H2) as (N1 & N2). destruct n as [|n].
  - cbn [tree fdecode]. change (2 ^ Z.of_nat 0) with 1 in N1, N2. destruct (Z.ltb_spec (2 * i + z_of b1) 256); [lia|]. eexists; split; [reflexivity|]. exact C1.
  - assert (2 * i + z_of b1 < 256) by (rewrite Nat2Z.inj_succ, Z.pow_succ_r in N2 by lia; assert (0 < 2 ^ Z.of_nat n) by (apply Z.pow_pos_nonneg; lia); nia).
    destruct (Z.ltb_spec (2 * i + z_of b1) 256); [|lia]. specialize (IH fuel (mb * 2) (2 * i + z_of b1) r1 k1 ltac:(lia) ltac:(lia) ltac:(destruct b1; cbn [z_of]; lia) N1 N2 C1). unfold tr in IH. rewrite fdecode_bind in IH. exact IH.
Qed.
Lemma matched_check_ok lit e : 0 <= lit < 2 ^ (p_lc pr + p_lp pr) ->
  forall n fuel j i r k, (1 <= n <= fuel)%nat -> j + Z.of_nat n = 8 -> 0 <= j -> 1 <= i -> 256 <= i * 2 ^ Z.of_nat n -> (i + 1) * 2 ^ Z.of_nat n <= 512 -> DR r k ->
  tr (matched_loop_check src probs fuel (Literal + 768 * lit) (e * 2 ^ j) 256 i r) (matched lit e n i) k (fun x a k' => DR (fst x) k').
Proof.
  intros Hlit. induction n as [|n IH]; intros fuel j i r k Hn Hj Hj0 Hi H1 H2 C; [lia|]. destruct fuel as [|fuel]; [lia|].
  assert (i < 256) as Hi2 by (rewrite Nat2Z.inj_succ, Z.pow_succ_r in H2 by lia; assert (0 < 2 ^ Z.of_nat n) by (apply Z.pow_pos_nonneg; lia); nia).
  unfold tr. cbn [matched_loop_check]. replace (e * 2 ^ j * 2) with (e * 2 ^ (j + 1)) by (rewrite Z.pow_add_r by lia; change (2 ^ 1) with 2; ring). rewrite land_bit8 by lia.
  replace (7 - j) with (Z.of_nat n) by lia. cbn [matched]. cbv zeta. set (t := Z.testbit e (Z.of_nat n)) in *. rewrite fdecode_bind.
  pose proof (bit_check_ok (CLiteral lit ((1 + z_of t) * 256 + i)) (Literal + 768 * lit + 256 + (if t then 256 else 0) + i) r k) as HB.
  specialize (HB ltac:(split; [exact Hlit|destruct t; cbn [z_of]; lia]) ltac:(cbn [idx]; change Literal with 1846; destruct t; cbn [z_of]; lia) C). unfold tr in HB.
  destruct (fdecode (one (CLiteral lit ((1 + z_of t) * 256 + i))) k) as [(b, k1)|]; [|rewrite HB; reflexivity]. destruct HB as ((r1, b1) & -> & (C1 & <-)).
  unfold dbind. cbn [bind fst snd] in *. replace (i + i + b2z b1) with (2 * i + z_of b1) by (destruct b1; cbn [b2z z_of]; lia).
  assert ((if b1 then Z.land 256 (if t then 256 else 0) else Z.land 256 (Z.lnot (if t then 256 else 0))) = if Bool.eqb b1 t then 256 else 0) as -> by (destruct b1, t; reflexivity).
  destruct (node_next n i b1 ltac:(lia) H1 H2) as (N1 & N2). destruct n as [|n].
  - assert (forall b : bool, (if b then matched lit e 0 (2 * i + z_of b1) else plain lit 0 (2 * i + z_of b1)) = Done (2 * i + z_of b1 - 256)) as -> by (intros [|]; reflexivity).
    cbn [fdecode]. change (2 ^ Z.of_nat 0) with 1 in N1, N2. destruct (Z.ltb_spec (2 * i + z_of b1) 256); [lia|]. eexists; split; [reflexivity|]. exact C1.
  - assert (2 * i + z_of b1 < 256) by (rewrite Nat2Z.inj_succ, Z.pow_succ_r in N2 by lia; assert (0 < 2 ^ Z.of_nat n) by (apply Z.pow_pos_nonneg; lia); nia).
    destruct (Z.ltb_spec (2 * i + z_of b1) 256); [|lia]. destruct (Bool.eqb b1 t).
    + apply (IH fuel (j + 1) (2 * i + z_of b1) r1 k1); [lia|lia|lia|destruct b1; cbn [z_of]; lia|exact N1|exact N2|exact C1].
    + apply (plain_check_ok lit Hlit (S n) fuel _ (2 * i + z_of b1) r1 k1); [lia|lia|destruct b1; cbn [z_of]; lia|exact N1|exact N2|exact C1].
Qed.
Lemma literal_check_ok lit r k : 0 <= lit < 2 ^ (p_lc pr + p_lp pr) -> DR r k ->
  tr (tree_loop_check src probs 8 (Literal + 768 * lit) 256 1 r) (plain lit 8 1) k (fun x a k' => DR (fst x) k').
Proof.
  intros Hlit C. unfold tr, plain. rewrite fdecode_bind.
  pose proof (tree_check_ok (CLiteral lit) (Literal + 768 * lit) 256) as HB. specialize (HB ltac:(intros i Hi; split; [split; [exact Hlit|lia]|]; cbn [idx]; change Literal with 1846; lia)).
  specialize (HB 8%nat 8%nat 1 r k ltac:(lia) ltac:(lia) ltac:(cbn; lia) ltac:(cbn; lia) C). unfold tr in HB.
  destruct (fdecode (tree (CLiteral lit) 8 1) k) as [(m, k1)|]; [|exact HB]. destruct HB as (x & -> & ((C1 & _) & _)). eexists; split; [reflexivity|exact C1].
Qed.
End Dry.
