(** The numbers of the LZMA decoder: literals, lengths and distances. *)
From Verif Require Import Base LzmaFormatSpec P_LzmaFormat P_LzmaFormat2 M_LzmaDec P_LzmaDec1.

Section Numbers.
Variables (pr : props) (src : list Z).
Hypothesis Hl : 0 <= p_lc pr + p_lp pr.

Lemma bit_at c i r k : ctx_ok pr c -> i = idx c -> CR pr src r k -> im (bit src i r) (one c) k (RB pr src).
Proof. intros Hc -> C. apply bit_ok; assumption. Qed.
Definition RZ : rc * Z -> Z -> coder -> Prop := fun x b k => CR pr src (fst x) k /\ snd x = b.

Lemma tree_ok (mk : Z -> ctx) base limit : (forall i, 1 <= i < limit -> ctx_ok pr (mk i) /\ idx (mk i) = base + i) ->
  forall n fuel i r k, (1 <= n <= fuel)%nat -> 1 <= i -> limit <= i * 2 ^ Z.of_nat n -> (i + 1) * 2 ^ Z.of_nat n <= 2 * limit -> CR pr src r k ->
  im (tree_loop src fuel base limit i r) (tree mk n i) k (fun x a k' => RZ x a k' /\ limit <= a < 2 * limit).
Proof.
  intros Hmk. induction n as [|n IH]; intros fuel i r k Hn Hi H1 H2 C; [lia|]. destruct fuel as [|fuel]; [lia|].
  rewrite Nat2Z.inj_succ, Z.pow_succ_r in H1 by lia; rewrite Nat2Z.inj_succ, Z.pow_succ_r in H2 by lia. assert (0 < 2 ^ Z.of_nat n) as Hp by (apply Z.pow_pos_nonneg; lia).
  assert (i < limit) as Hil by nia. destruct (Hmk i ltac:(lia)) as (K1 & K2).
  cbn [tree_loop tree]. unfold get_bit. intros a k' E. rewrite decode_bind in E. destruct (decode (one (mk i)) k) as [(b, k1)|] eqn:E1; [|discriminate].
  destruct (bit_at (mk i) (base + i) r k K1 (eq_sym K2) C _ _ E1) as ((r1, b1) & -> & (C1 & <-)). cbn [bind fst snd] in *.
  replace (i + i + b2z b1) with (2 * i + z_of b1) by (destruct b1; cbn [b2z z_of]; lia).
  destruct n as [|n].
  - cbn [tree decode] in E. assert (a = 2 * i + z_of b1 /\ k' = k1) as (-> & ->) by (split; congruence). change (2 ^ Z.of_nat 0) with 1 in H1, H2. destruct (Z.ltb_spec (2 * i + z_of b1) limit) as [Q|Q]; [destruct b1; cbn [z_of] in Q; lia|].
    eexists; split; [reflexivity|]. split; [split; [exact C1|reflexivity]|]. destruct b1; cbn [z_of] in *; lia.
  - destruct (Z.ltb_spec (2 * i + z_of b1) limit) as [Q|Q].
    + apply (IH fuel (2 * i + z_of b1) r1 k1); [lia|destruct b1; cbn [z_of]; lia| | |exact C1|exact E]; destruct b1; cbn [z_of]; nia.
    + exfalso. rewrite Nat2Z.inj_succ, Z.pow_succ_r in * by lia. assert (0 < 2 ^ Z.of_nat n) by (apply Z.pow_pos_nonneg; lia). destruct b1; cbn [z_of] in Q; nia.
Qed.
Lemma tree_decode_ok (mk : Z -> ctx) base limit n r k : (forall i, 1 <= i < limit -> ctx_ok pr (mk i) /\ idx (mk i) = base + i) ->
  (1 <= n <= 8)%nat -> limit = 2 ^ Z.of_nat n -> CR pr src r k -> im (tree_decode src base limit r) (number mk n) k (fun x a k' => RZ x a k' /\ 0 <= a < limit).
Proof.
  intros Hmk Hn HL C. unfold tree_decode, number. apply (im_bind _ _ _ _ _ (fun x a k' => RZ x a k' /\ limit <= a < 2 * limit)).
  - apply tree_ok; [exact Hmk|exact Hn|lia|rewrite <- HL; lia|rewrite <- HL; lia|exact C].
  - intros (r1, i) a k1 ((C1 & E) & B). cbn [fst snd] in *. subst i. apply im_done. rewrite <- HL. split; [split; [exact C1|reflexivity]|lia].
Qed.
Lemma tree_6_ok (mk : Z -> ctx) base r k : (forall i, 1 <= i < 64 -> ctx_ok pr (mk i) /\ idx (mk i) = base + i) ->
  CR pr src r k -> im (tree_6_decode src base r) (number mk 6) k (fun x a k' => RZ x a k' /\ 0 <= a < 64).
Proof.
  intros Hmk C. intros a k' E. destruct (tree_decode_ok mk base 64 6 r k Hmk ltac:(lia) eq_refl C a k' E) as (x & Ex & HR). exists x. split; [|exact HR]. clear E HR.
  revert Ex. unfold tree_decode, tree_6_decode. cbn [tree_loop].
  assert (forall i r0 (x : rc * Z) (g : rc -> Z -> out (rc * Z)) (f : rc * Z -> out (rc * Z)) (lo : bool), (i < 64 -> lo = true) -> 1 <= i -> bind (bind (get_bit src base i r0) (fun '(r, i) => if i <? 64 then g r i else Ret (r, i))) f = Ret x ->
    forall h, (forall r1 i1, i + i <= i1 <= i + i + 1 -> bind (if i1 <? 64 then g r1 i1 else Ret (r1, i1)) f = Ret x -> h (r1, i1) = Ret x) -> bind (get_bit src base i r0) h = Ret x) as ST.
  { intros i r0 y g f lo Hlo Hi E h Hh. destruct (get_bit src base i r0) as [(r1, i1)| | |] eqn:Eg; cbn [bind] in *; try discriminate. apply Hh; [|exact E].
    unfold get_bit in Eg. destruct (bit src (base + i) r0) as [(r2, b)| | |]; cbn [bind] in Eg; try discriminate. injection Eg as <- <-. destruct b; cbn; lia. }
  intros E.
  refine (ST _ _ _ _ _ true (fun _ => eq_refl) _ E _ _); [lia|]. clear E. intros r1 i1 J1 E. destruct (Z.ltb_spec i1 64) as [K1|K1]; [|lia].
  refine (ST _ _ _ _ _ true (fun _ => eq_refl) _ E _ _); [lia|]. clear E. intros r2 i2 J2 E. destruct (Z.ltb_spec i2 64) as [K2|K2]; [|lia].
  refine (ST _ _ _ _ _ true (fun _ => eq_refl) _ E _ _); [lia|]. clear E. intros r3 i3 J3 E. destruct (Z.ltb_spec i3 64) as [K3|K3]; [|lia].
  refine (ST _ _ _ _ _ true (fun _ => eq_refl) _ E _ _); [lia|]. clear E. intros r4 i4 J4 E. destruct (Z.ltb_spec i4 64) as [K4|K4]; [|lia].
  refine (ST _ _ _ _ _ true (fun _ => eq_refl) _ E _ _); [lia|]. clear E. intros r5 i5 J5 E. destruct (Z.ltb_spec i5 64) as [K5|K5]; [|lia].
  refine (ST _ _ _ _ _ true (fun _ => eq_refl) _ E _ _); [lia|]. clear E. intros r6 i6 J6 E. destruct (Z.ltb_spec i6 64) as [K6|K6]; [lia|]. exact E.
Qed.
Lemma len_ok (rep : bool) pos r k : 0 <= pos < 16 -> CR pr src r k ->
  im (len_decode src (if rep then RepLenCoder else LenCoder) pos r) (length_ rep pos) k (fun x a k' => RZ x a k' /\ 0 <= a < 272).
Proof.
  intros Hp C. unfold len_decode, length_. assert ((if rep then RepLenCoder else LenCoder) = lenbase rep) as -> by (destruct rep; reflexivity).
  apply (im_bind _ _ _ _ _ (RB pr src)); [apply bit_at; [exact Logic.I|cbn [idx]; change LenChoice with 0; lia|exact C]|].
  intros (r1, b) b' k1 (C1 & E). cbn [fst snd] in *. subst b'. destruct b; cbn [negb].
  - apply (im_bind _ _ _ _ _ (RB pr src)); [apply bit_at; [exact Logic.I|cbn [idx]; change LenChoice2 with 1; lia|exact C1]|].
    intros (r2, b) b' k2 (C2 & E). cbn [fst snd] in *. subst b'. destruct b; cbn [negb].
    + apply (im_bind _ _ _ _ _ (fun x a k' => RZ x a k' /\ 0 <= a < 256)).
      * apply tree_decode_ok; [|lia|reflexivity|exact C2]. intros i Hi. split; [exact Hi|]. cbn [idx]. change LenHigh with 258. lia.
      * intros (r3, l) l' k3 ((C3 & E) & B). cbn [fst snd] in *. subst l'. apply im_done. split; [split; [exact C3|cbn [snd]; lia]|lia].
    + apply (im_bind _ _ _ _ _ (fun x a k' => RZ x a k' /\ 0 <= a < 8)).
      * apply tree_decode_ok; [|lia|reflexivity|exact C2]. intros i Hi. split; [split; [exact Hp|exact Hi]|]. cbn [idx]. change LenMid with 130. lia.
      * intros (r3, l) l' k3 ((C3 & E) & B). cbn [fst snd] in *. subst l'. apply im_done. split; [split; [exact C3|cbn [snd]; lia]|lia].
  - eapply im_impl; [apply (tree_decode_ok (CLenLow rep pos) _ 8 3); [|lia|reflexivity|exact C1]|].
    + intros i Hi. split; [split; [exact Hp|exact Hi]|]. cbn [idx]. change LenLow with 2. lia.
    + intros x a k' (H & B). split; [exact H|lia].
Qed.
(** lowest bit first *)
Lemma lor_pow D lo j n : 0 <= j -> 1 <= n -> 0 <= lo < 2 ^ j -> Z.lor (D * 2 ^ (j + n) + lo) (2 ^ j) = D * 2 ^ (j + n) + (lo + 2 ^ j).
Proof.
  intros Hj Hn Hlo. assert (Z.land (D * 2 ^ (j + n) + lo) (2 ^ j) = 0) as HZ.
  { apply Z.bits_inj'. intros i Hi. rewrite Z.land_spec, Z.bits_0, Z.pow2_bits_eqb by lia. destruct (Z.eqb_spec j i) as [<-|]; [|apply andb_false_r]. rewrite andb_true_r.
    rewrite Z.testbit_eqb by lia. assert ((D * 2 ^ (j + n) + lo) / 2 ^ j mod 2 = 0) as ->; [|reflexivity].
    replace (D * 2 ^ (j + n) + lo) with (lo + D * 2 ^ n * 2 ^ j) by (rewrite Z.pow_add_r by lia; ring). assert (0 < 2 ^ j) by (apply Z.pow_pos_nonneg; lia). rewrite Z.div_add by lia. rewrite Z.div_small by lia.
    replace n with (Z.succ (n - 1)) by lia. rewrite Z.pow_succ_r by lia. replace (0 + D * (2 * 2 ^ (n - 1))) with (D * 2 ^ (n - 1) * 2) by ring. apply Z_mod_mult. }
  rewrite <- Z.lxor_lor by exact HZ. rewrite <- Z.add_nocarry_lxor by exact HZ. ring.
Qed.
Lemma spec_loop_ok (mk : Z -> ctx) base N : (forall i, 1 <= i < 2 ^ N -> ctx_ok pr (mk i) /\ idx (mk i) = base + i) ->
  forall n i j D lo r k, 0 <= j -> j + Z.of_nat n = N -> N <= 31 -> 2 ^ j <= i < 2 ^ (j + 1) -> 0 <= lo < 2 ^ j -> CR pr src r k ->
  im (spec_loop src n base (2 ^ j) i (D * 2 ^ (j + Z.of_nat n) + lo) r) (reverse mk n i (2 ^ j)) k (fun x a k' => RZ x (D * 2 ^ (j + Z.of_nat n) + lo + a) k').
Proof.
  intros Hmk. induction n as [|n IH]; intros i j D lo r k Hj HN HN2 Hi Hlo C.
  - cbn [spec_loop reverse]. apply im_done. split; [exact C|cbn [snd]; lia].
  - assert (0 < 2 ^ j) as Hp by (apply Z.pow_pos_nonneg; lia). assert (2 ^ (j + 1) <= 2 ^ N) as Hp2 by (apply Z.pow_le_mono_r; lia). rewrite Z.pow_add_r in Hi by lia; rewrite Z.pow_add_r in Hp2 by lia. change (2 ^ 1) with 2 in *.
    assert (2 ^ N <= 2 ^ 31) as Hp3 by (apply Z.pow_le_mono_r; lia). change (2 ^ 31) with 2147483648 in Hp3.
    destruct (Hmk i ltac:(lia)) as (K1 & K2). cbn [spec_loop reverse]. apply (im_bind _ _ _ _ _ (RB pr src)); [apply bit_at; [exact K1|lia|exact C]|].
    intros (r1, b) b' k1 (C1 & E). cbn [fst snd] in *. subst b'. rewrite u32_id by lia. replace (2 ^ j * 2) with (2 ^ (j + 1)) by (rewrite Z.pow_add_r by lia; change (2 ^ 1) with 2; ring).
    assert (z_of b = 0 \/ z_of b = 1) as Hb by (destruct b; cbn [b2z z_of]; lia).
    assert ((if b then Z.lor (D * 2 ^ (j + Z.of_nat (S n)) + lo) (2 ^ j) else D * 2 ^ (j + Z.of_nat (S n)) + lo) = D * 2 ^ ((j + 1) + Z.of_nat n) + (lo + z_of b * 2 ^ j)) as ->.
    { replace (j + 1 + Z.of_nat n) with (j + Z.of_nat (S n)) by lia. destruct b; cbn [z_of]; [|lia]. rewrite lor_pow by lia. lia. }
    replace (i + i + b2z b) with (2 * i + z_of b) by (destruct b; cbn [b2z z_of]; lia). replace (2 * 2 ^ j) with (2 ^ (j + 1)) by (rewrite Z.pow_add_r by lia; change (2 ^ 1) with 2; ring).
    intros a k' E. rewrite decode_bind in E. destruct (decode (reverse mk n (2 * i + z_of b) (2 ^ (j + 1))) k1) as [(a1, k2)|] eqn:E1; [|discriminate]. cbn [decode] in E. assert (a = z_of b * 2 ^ j + a1 /\ k' = k2) as (-> & ->) by (split; congruence).
    destruct (IH (2 * i + z_of b) (j + 1) D (lo + z_of b * 2 ^ j) r1 k1) with (a := a1) (k' := k2) as (x & -> & (C2 & Ex)); try lia; try assumption.
    + rewrite !Z.pow_add_r by lia. change (2 ^ 1) with 2. lia.
    + rewrite Z.pow_add_r by lia. change (2 ^ 1) with 2. nia.
    + eexists; split; [reflexivity|]. split; [exact C2|]. rewrite Ex. replace (j + 1 + Z.of_nat n) with (j + Z.of_nat (S n)) by lia. lia.
Qed.
(** bits without a probability *)
Lemma halved_arith k : kgood k -> normal k ->
  let range := k_range k / 2 in let code := u32 (k_code k - range) in let t := u32 (0 - code / 2147483648) in
  u32 (t + 1) = z_of (snd (halved k)) /\ u32 (code + Z.land range t) = k_code (fst (halved k)) /\ k_range (fst (halved k)) = range /\
  k_probs (fst (halved k)) = k_probs k /\ u32 (k_code k - Z.land range (u32 (code / 2147483648 - 1))) = k_code (fst (halved k)).
Proof.
  intros (_ & G2 & G3) N. unfold normal in N. cbv zeta. unfold halved. change (2 ^ 31) with 2147483648.
  pose proof (Z.div_mod (k_range k) 2 ltac:(lia)). pose proof (Z.mod_pos_bound (k_range k) 2 ltac:(lia)). set (h := k_range k / 2) in *.
  assert (Z.land h 4294967295 = h) as HL by (change 4294967295 with (Z.ones 32); rewrite Z.land_ones by lia; apply Z.mod_small; change (2 ^ 32) with 4294967296; lia).
  destruct (Z.leb_spec h (k_code k)) as [Q|Q]; cbn [andb].
  - rewrite (u32_id (k_code k - h)) by lia. destruct (Z.ltb_spec (k_code k - h) 2147483648) as [Q2|Q2]; cbn [fst snd k_range k_code k_probs].
    + rewrite Z.div_small by lia. change (u32 (0 - 0)) with 0. change (u32 (0 - 1)) with 4294967295. rewrite HL, Z.land_0_r. rewrite !u32_id by lia. split; [reflexivity|]. split; [lia|]. split; [reflexivity|]. split; [reflexivity|]. reflexivity.
    + assert ((k_code k - h) / 2147483648 = 1) as -> by (pose proof (Z.div_mod (k_code k - h) 2147483648 ltac:(lia)); pose proof (Z.mod_pos_bound (k_code k - h) 2147483648 ltac:(lia)); lia).
      change (u32 (0 - 1)) with 4294967295. change (u32 (1 - 1)) with 0. rewrite HL, Z.land_0_r. rewrite (u32_id (_ - h + h)) by lia. rewrite (u32_id (_ - 0)) by lia. split; [reflexivity|]. split; [lia|]. split; [reflexivity|]. split; [reflexivity|]. lia.
  - cbn [fst snd k_range k_code k_probs]. assert (u32 (k_code k - h) = k_code k - h + 4294967296) as -> by (unfold u32; symmetry; apply (Z.mod_unique _ _ (-1)); lia).
    assert ((k_code k - h + 4294967296) / 2147483648 = 1) as -> by (pose proof (Z.div_mod (k_code k - h + 4294967296) 2147483648 ltac:(lia)); pose proof (Z.mod_pos_bound (k_code k - h + 4294967296) 2147483648 ltac:(lia)); lia).
    change (u32 (0 - 1)) with 4294967295. change (u32 (1 - 1)) with 0. rewrite HL, Z.land_0_r. rewrite (u32_id (_ - 0)) by lia. split; [reflexivity|]. split; [|split; [reflexivity|split; [reflexivity|lia]]].
    unfold u32. symmetry. apply (Z.mod_unique _ _ 1); lia.
Qed.
Lemma direct_ok : forall n m r k, 0 <= m -> (m + 1) * 2 ^ Z.of_nat n <= 4294967296 -> CR pr src r k ->
  im (direct_loop src n m r) (direct n m) k RZ.
Proof.
  induction n as [|n IH]; intros m r k Hm Hb C; [apply im_done; split; [exact C|reflexivity]|].
  rewrite Nat2Z.inj_succ, Z.pow_succ_r in Hb by lia. assert (0 < 2 ^ Z.of_nat n) by (apply Z.pow_pos_nonneg; lia).
  intros a k' E. cbn [direct decode] in E. destruct (norm k) as [k1|] eqn:En; [|discriminate]. destruct (normalize_ok _ _ _ _ _ C En) as (r1 & E1 & C1). destruct (norm_good _ _ (cr_good _ _ _ _ C) En) as (G & N & _).
  cbn [direct_loop]. rewrite E1. cbn [bind]. destruct C1 as [R1 R2 R3 R4 R5]. rewrite R1, R2. destruct (halved_arith k1 G N) as (A1 & A2 & A3 & A4 & _). cbv zeta in *. rewrite A1, A2, <- A3.
  destruct (halved_good k1 G N) as (G' & _). pose proof (halved_in k1) as Ei. destruct (halved k1) as [k2 b]. cbn [fst snd] in *. assert (0 <= z_of b <= 1) by (destruct b; cbn [b2z z_of]; lia).
  rewrite u32_id by nia. replace (m * 2 + z_of b) with (2 * m + z_of b) by ring. apply (IH _ _ k2); [lia|nia| |exact E].
  constructor; cbn; try reflexivity; [rewrite Ei; exact R3|rewrite A4; exact R4|exact G'].
Qed.
Lemma distance_ok len r k : 0 <= len -> CR pr src r k -> im (distance_decode src len r) (distance len) k RZ.
Proof.
  intros Hlen C. unfold distance_decode, distance. assert (0 <= Z.min len 3 < 4) as Hm by lia.
  apply (im_bind _ _ _ _ _ (fun x a k' => RZ x a k' /\ 0 <= a < 64)).
  - apply tree_6_ok; [|exact C]. intros i Hi. split; [split; [exact Hm|exact Hi]|]. cbn [idx]. change PosSlot with 432. destruct (Z.ltb_spec len 4); lia.
  - intros (r1, slot) slot' k1 ((C1 & E) & Hs). cbn [fst snd] in *. subst slot'. destruct (Z.ltb_spec slot 4) as [Q|Q].
    + destruct (Z.leb_spec 4 slot); [lia|]. apply im_done. split; [exact C1|reflexivity].
    + destruct (Z.leb_spec 4 slot); [|lia]. cbv zeta. destruct (slot_bits slot ltac:(lia)) as (B1 & B2 & B3 & B4).
      assert (Z.lor 2 (Z.land slot 1) = 2 + slot mod 2) as ->.
      { change 1 with (Z.ones 1) at 1. rewrite Z.land_ones by lia. change (2 ^ 1) with 2. assert (slot mod 2 = 0 \/ slot mod 2 = 1) as [-> | ->] by (pose proof (Z.mod_pos_bound slot 2 ltac:(lia)); lia); reflexivity. }
      destruct (Z.ltb_spec slot 14) as [Q2|Q2].
      * specialize (B3 Q2). set (bits := slot / 2 - 1) in *. rewrite Z.shiftl_mul_pow2 by lia.
        assert (2 ^ bits <= 2 ^ 5) as Hb by (apply Z.pow_le_mono_r; lia). change (2 ^ 5) with 32 in Hb. assert (0 < 2 ^ bits) by (apply Z.pow_pos_nonneg; lia).
        rewrite u32_id by nia. intros a k' E. rewrite decode_bind in E. destruct (decode (reversed (CSpecial slot) (Z.to_nat bits)) k1) as [(low, k2)|] eqn:E1; [|discriminate]. cbn [decode] in E. assert (a = (2 + slot mod 2) * 2 ^ bits + low /\ k' = k2) as (-> & ->) by (split; congruence).
        destruct (spec_loop_ok (CSpecial slot) (SpecPos + (2 + slot mod 2) * 2 ^ bits - slot - 1) bits) with (n := Z.to_nat bits) (i := 1) (j := 0) (D := 2 + slot mod 2) (lo := 0) (r := r1) (k := k1) (a := low) (k' := k2) as (x & Ex & (C2 & E2)); try lia; try assumption.
        -- intros i Hi. split; [split; [lia|exact Hi]|]. cbn [idx]. change SpecPos with 688. subst bits. lia.
        -- rewrite Z.add_0_r, Z.add_0_l, Z2Nat.id in Ex by lia. change (2 ^ 0) with 1 in Ex. exists x. split; [exact Ex|]. split; [exact C2|]. rewrite E2. rewrite Z.add_0_l, Z2Nat.id by lia. ring.
      * specialize (B2 Q2). set (bits := slot / 2 - 1) in *. assert (2 ^ (bits - 4) <= 2 ^ 26) as Hb by (apply Z.pow_le_mono_r; lia). change (2 ^ 26) with 67108864 in Hb. assert (0 < 2 ^ (bits - 4)) by (apply Z.pow_pos_nonneg; lia).
        apply (im_bind _ _ _ _ _ (fun x a k' => RZ x a k' /\ 0 <= a < 268435456)).
        -- apply (im_impl _ _ _ (fun x a k' => RZ x a k' /\ (2 + slot mod 2) * 2 ^ Z.of_nat (Z.to_nat (bits - 4)) <= a < ((2 + slot mod 2) + 1) * 2 ^ Z.of_nat (Z.to_nat (bits - 4)))).
           ++ apply im_returns; [|apply returns_direct]. apply direct_ok; [lia| |exact C1]. rewrite Z2Nat.id by lia. nia.
           ++ intros x a k' (H1 & H2). split; [exact H1|]. rewrite Z2Nat.id in H2 by lia. nia.
        -- intros (r2, d) d' k2 ((C2 & E) & Bd). cbn [fst snd] in *. subst d'. rewrite u32_id by lia. unfold align_bits.
           intros a k' E. rewrite decode_bind in E. destruct (decode (reversed CAlign 4) k2) as [(low, k3)|] eqn:E1; [|discriminate]. cbn [decode] in E. assert (a = d * 16 + low /\ k' = k3) as (-> & ->) by (split; congruence).
           destruct (spec_loop_ok CAlign Align 4) with (n := 4%nat) (i := 1) (j := 0) (D := d) (lo := 0) (r := r2) (k := k2) (a := low) (k' := k3) as (x & Ex & (C3 & E3)); try lia; try assumption.
           ++ intros i Hi. split; [exact Hi|]. cbn [idx]. change Align with 802. lia.
           ++ change (0 + Z.of_nat 4) with 4 in *. change (2 ^ 4) with 16 in *. change (2 ^ 0) with 1 in Ex. rewrite Z.add_0_r in Ex, E3. exists x. split; [exact Ex|]. split; [exact C3|exact E3].
Qed.
(** literals *)
Lemma land_bit8 mb j : 0 <= j <= 7 -> Z.land (mb * 2 ^ (j + 1)) 256 = if Z.testbit mb (7 - j) then 256 else 0.
Proof.
  intros Hj. change 256 with (2 ^ 8). apply Z.bits_inj'. intros i Hi. rewrite Z.land_spec, Z.pow2_bits_eqb by lia. destruct (Z.eqb_spec 8 i) as [<-|Q].
  - rewrite andb_true_r, Z.mul_pow2_bits by lia. replace (8 - (j + 1)) with (7 - j) by lia. destruct (Z.testbit mb (7 - j)); [rewrite Z.pow2_bits_true by lia|rewrite Z.bits_0]; reflexivity.
  - rewrite andb_false_r. destruct (Z.testbit mb (7 - j)); [rewrite Z.pow2_bits_false by lia|rewrite Z.bits_0]; reflexivity.
Qed.
Lemma node_next n i (b : bool) : (n < 8)%nat -> 256 <= i * 2 ^ Z.of_nat (S n) -> (i + 1) * 2 ^ Z.of_nat (S n) <= 512 ->
  256 <= (2 * i + z_of b) * 2 ^ Z.of_nat n /\ (2 * i + z_of b + 1) * 2 ^ Z.of_nat n <= 512.
Proof. intros Hn H1 H2. rewrite Nat2Z.inj_succ, Z.pow_succ_r in H1 by lia; rewrite Nat2Z.inj_succ, Z.pow_succ_r in H2 by lia. assert (0 < 2 ^ Z.of_nat n) by (apply Z.pow_pos_nonneg; lia). destruct b; cbn [z_of]; nia. Qed.
Lemma plain_loop_ok lit : 0 <= lit < 2 ^ (p_lc pr + p_lp pr) ->
  forall n fuel mb i r k, (1 <= n <= fuel)%nat -> (n <= 8)%nat -> 1 <= i -> 256 <= i * 2 ^ Z.of_nat n -> (i + 1) * 2 ^ Z.of_nat n <= 512 -> CR pr src r k ->
  im (matched_loop src fuel (Literal + 768 * lit) mb 0 i r) (plain lit n i) k (fun x a k' => CR pr src (fst x) k' /\ a = snd x - 256 /\ 256 <= snd x < 512).
Proof.
  intros Hlit. induction n as [|n IH]; intros fuel mb i r k Hn Hn8 Hi H1 H2 C; [lia|]. destruct fuel as [|fuel]; [lia|].
  assert (i < 256) as Hi2 by (rewrite Nat2Z.inj_succ, Z.pow_succ_r in H2 by lia; assert (0 < 2 ^ Z.of_nat n) by (apply Z.pow_pos_nonneg; lia); nia).
  intros a k' E. cbn [matched_loop]. rewrite Z.land_0_r. unfold plain in *. cbn [tree] in E. rewrite decode_bind in E. rewrite decode_bind in E. destruct (decode (one (CLiteral lit i)) k) as [(b, k1)|] eqn:E1; [|discriminate].
  destruct (bit_at (CLiteral lit i) (Literal + 768 * lit + 0 + 0 + i) r k) with (a := b) (k' := k1) as ((r1, b1) & -> & (C1 & <-)); [split; [exact Hlit|lia]|cbn [idx]; change Literal with 1846; lia|exact C|exact E1|].
  cbn [bind fst snd] in *. replace (if b1 then Z.land 0 0 else Z.land 0 (Z.lnot 0)) with 0 by (destruct b1; reflexivity). replace (i + i + b2z b1) with (2 * i + z_of b1) by (destruct b1; cbn [b2z z_of]; lia).
  destruct (node_next n i b1 ltac:(lia) H1 H2) as (N1 & N2). destruct n as [|n].
  - cbn [tree decode] in E. assert (a = 2 * i + z_of b1 - 256 /\ k' = k1) as (-> & ->) by (split; congruence). change (2 ^ Z.of_nat 0) with 1 in N1, N2. destruct (Z.ltb_spec (2 * i + z_of b1) 256); [lia|]. eexists; split; [reflexivity|]. split; [exact C1|]. cbn [snd]. lia.
  - assert (2 * i + z_of b1 < 256) by (rewrite Nat2Z.inj_succ, Z.pow_succ_r in N2 by lia; assert (0 < 2 ^ Z.of_nat n) by (apply Z.pow_pos_nonneg; lia); nia).
    destruct (Z.ltb_spec (2 * i + z_of b1) 256); [|lia]. apply (IH fuel (mb * 2) (2 * i + z_of b1) r1 k1); [lia|lia|destruct b1; cbn [z_of]; lia|exact N1|exact N2|exact C1|]. rewrite decode_bind. exact E.
Qed.
Lemma matched_ok lit e : 0 <= lit < 2 ^ (p_lc pr + p_lp pr) ->
  forall n fuel j i r k, (1 <= n <= fuel)%nat -> j + Z.of_nat n = 8 -> 0 <= j -> 1 <= i -> 256 <= i * 2 ^ Z.of_nat n -> (i + 1) * 2 ^ Z.of_nat n <= 512 -> CR pr src r k ->
  im (matched_loop src fuel (Literal + 768 * lit) (e * 2 ^ j) 256 i r) (matched lit e n i) k (fun x a k' => CR pr src (fst x) k' /\ a = snd x - 256 /\ 256 <= snd x < 512).
Proof.
  intros Hlit. induction n as [|n IH]; intros fuel j i r k Hn Hj Hj0 Hi H1 H2 C; [lia|]. destruct fuel as [|fuel]; [lia|].
  assert (i < 256) as Hi2 by (rewrite Nat2Z.inj_succ, Z.pow_succ_r in H2 by lia; assert (0 < 2 ^ Z.of_nat n) by (apply Z.pow_pos_nonneg; lia); nia).
  intros a k' E. cbn [matched_loop]. replace (e * 2 ^ j * 2) with (e * 2 ^ (j + 1)) by (rewrite Z.pow_add_r by lia; change (2 ^ 1) with 2; ring). rewrite land_bit8 by lia.
  replace (7 - j) with (Z.of_nat n) by lia. cbn [matched] in E. cbv zeta in E. set (t := Z.testbit e (Z.of_nat n)) in *. rewrite decode_bind in E.
  destruct (decode (one (CLiteral lit ((1 + z_of t) * 256 + i))) k) as [(b, k1)|] eqn:E1; [|discriminate].
  destruct (bit_at (CLiteral lit ((1 + z_of t) * 256 + i)) (Literal + 768 * lit + 256 + (if t then 256 else 0) + i) r k) with (a := b) (k' := k1) as ((r1, b1) & -> & (C1 & <-)); [split; [exact Hlit|destruct t; cbn [z_of]; lia]|cbn [idx]; change Literal with 1846; destruct t; cbn [z_of]; lia|exact C|exact E1|].
  cbn [bind fst snd] in *. replace (i + i + b2z b1) with (2 * i + z_of b1) by (destruct b1; cbn [b2z z_of]; lia).
  assert ((if b1 then Z.land 256 (if t then 256 else 0) else Z.land 256 (Z.lnot (if t then 256 else 0))) = if Bool.eqb b1 t then 256 else 0) as -> by (destruct b1, t; reflexivity).
  destruct (node_next n i b1 ltac:(lia) H1 H2) as (N1 & N2). destruct n as [|n].
  - assert (decode (Done (2 * i + z_of b1 - 256)) k1 = Some (a, k')) as E' by (destruct (Bool.eqb b1 t); exact E). cbn [decode] in E'. assert (a = 2 * i + z_of b1 - 256 /\ k' = k1) as (-> & ->) by (split; congruence). change (2 ^ Z.of_nat 0) with 1 in N1, N2. destruct (Z.ltb_spec (2 * i + z_of b1) 256); [lia|]. eexists; split; [reflexivity|]. split; [exact C1|]. cbn [snd]. lia.
  - assert (2 * i + z_of b1 < 256) by (rewrite Nat2Z.inj_succ, Z.pow_succ_r in N2 by lia; assert (0 < 2 ^ Z.of_nat n) by (apply Z.pow_pos_nonneg; lia); nia).
    destruct (Z.ltb_spec (2 * i + z_of b1) 256); [|lia]. destruct (Bool.eqb b1 t).
    + apply (IH fuel (j + 1) (2 * i + z_of b1) r1 k1); [lia|lia|lia|destruct b1; cbn [z_of]; lia|exact N1|exact N2|exact C1|exact E].
    + apply (plain_loop_ok lit Hlit (S n) fuel _ (2 * i + z_of b1) r1 k1); [lia|lia|destruct b1; cbn [z_of]; lia|exact N1|exact N2|exact C1|exact E].
Qed.
Lemma literal_ok lit r k : 0 <= lit < 2 ^ (p_lc pr + p_lp pr) -> CR pr src r k ->
  im (tree_loop src 8 (Literal + 768 * lit) 256 1 r) (plain lit 8 1) k (fun x a k' => CR pr src (fst x) k' /\ a = snd x - 256 /\ 256 <= snd x < 512).
Proof.
  intros Hlit C a k' E. unfold plain in E. rewrite decode_bind in E. destruct (decode (tree (CLiteral lit) 8 1) k) as [(m, k1)|] eqn:E1; [|discriminate]. cbn [decode] in E. assert (a = m - 256 /\ k' = k1) as (-> & ->) by (split; congruence).
  destruct (tree_ok (CLiteral lit) (Literal + 768 * lit) 256) with (n := 8%nat) (fuel := 8%nat) (i := 1) (r := r) (k := k) (a := m) (k' := k1) as (x & Ex & ((C1 & E2) & B)); try lia; try assumption; try reflexivity.
  - intros i Hi. split; [split; [exact Hlit|lia]|]. cbn [idx]. change Literal with 1846. lia.
  - exists x. split; [exact Ex|]. split; [exact C1|]. rewrite E2. lia.
Qed.
End Numbers.
