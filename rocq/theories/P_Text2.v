From Verif Require Import Base M_Text TextSpec B64Spec P_Base64 P_Text.

(** * convertNewLines *)
Definition nl (c : Z) : Z := if (c =? 10) || (c =? 13) then 32 else c.
Lemma cnl_length l : forall nb, length (convertNewLines_loop l nb) = length l.
Proof.
  induction l as [|c r IH]; intros nb; [reflexivity|]. cbn [convertNewLines_loop].
  repeat match goal with |- context [if ?b then _ else _] => destruct b end; cbn [length]; rewrite ?IH; reflexivity.
Qed.
Lemma cnl_bytes l : forall nb, Forall2 (fun c d => d = c \/ ((c = 10 \/ c = 13) /\ d = 32)) l (convertNewLines_loop l nb).
Proof.
  assert (forall r : list Z, Forall2 (fun c d => d = c \/ ((c = 10 \/ c = 13) /\ d = 32)) r r) as Hr by (induction r; constructor; [left; reflexivity|assumption]).
  induction l as [|c r IH]; intros nb; [constructor|]. cbn [convertNewLines_loop].
  destruct (negb (nb =? 0)).
  { destruct (negb _); [apply Hr|constructor; [left; reflexivity|apply IH]]. }
  destruct (_ && _); [constructor; [left; reflexivity|apply IH]|]. destruct (_ =? _); [constructor; [left; reflexivity|apply IH]|].
  destruct (_ && _); [constructor; [left; reflexivity|apply IH]|]. destruct (_ || _) eqn:E; [|constructor; [left; reflexivity|apply IH]].
  apply orb_true_iff in E. rewrite !Z.eqb_eq in E. constructor; [right; split; [lia|reflexivity]|apply IH].
Qed.
Lemma cnl_idem l : forall nb, convertNewLines_loop (convertNewLines_loop l nb) nb = convertNewLines_loop l nb.
Proof.
  induction l as [|c r IH]; intros nb; [reflexivity|]. cbn [convertNewLines_loop].
  destruct (negb (nb =? 0)) eqn:E0.
  { destruct (negb (Z.land 192 c =? 128)) eqn:E1; cbn [convertNewLines_loop]; rewrite E0, E1; [reflexivity|rewrite IH; reflexivity]. }
  destruct ((194 <=? c) && (c <=? 223)) eqn:E2; [cbn [convertNewLines_loop]; rewrite E0, E2, IH; reflexivity|].
  destruct (Z.land 240 c =? 224) eqn:E3; [cbn [convertNewLines_loop]; rewrite E0, E2, E3, IH; reflexivity|].
  destruct ((240 <=? c) && (c <=? 244)) eqn:E4; [cbn [convertNewLines_loop]; rewrite E0, E2, E3, E4, IH; reflexivity|].
  destruct ((c =? 10) || (c =? 13)) eqn:E5.
  - cbn [convertNewLines_loop]. rewrite E0. change (194 <=? 32) with false. change (Z.land 240 32 =? 224) with false. change (240 <=? 32) with false.
    change ((32 =? 10) || (32 =? 13)) with false. cbn [andb]. rewrite IH. reflexivity.
  - cbn [convertNewLines_loop]. rewrite E0, E2, E3, E4, E5, IH. reflexivity.
Qed.
Lemma cnl_lead c r : byte c -> convertNewLines_loop (c :: r) 0 =
  nl c :: match classify2 c with L2 => convertNewLines_loop r 1 | L3 => convertNewLines_loop r 2 | L4 => convertNewLines_loop r 3 | _ => convertNewLines_loop r 0 end.
Proof.
  intros Hc. cbn [convertNewLines_loop]. cbn [Z.eqb negb]. pose proof (classify_ok c Hc) as Hk. unfold classify in Hk.
  assert (forall d, classify2 c <> L1 -> classify2 c <> Lbad -> nl c :: d = c :: d :> list Z) as Hnl.
  { intros d H1 H2. unfold nl. destruct ((c =? 10) || (c =? 13)) eqn:E; [|reflexivity]. exfalso. apply orb_true_iff in E. rewrite !Z.eqb_eq in E.
    destruct (classify2_cases c Hc) as [(E1 & Q)|[(E1 & Q)|[(E1 & Q)|[(E1 & Q)|(E1 & Q & Q2)]]]]; try congruence; lia. }
  destruct ((194 <=? c) && (c <=? 223)); [rewrite <- Hk in *; rewrite Hnl by discriminate; reflexivity|].
  destruct (Z.land 240 c =? 224); [rewrite <- Hk in *; rewrite Hnl by discriminate; reflexivity|].
  destruct ((240 <=? c) && (c <=? 244)); [rewrite <- Hk in *; rewrite Hnl by discriminate; reflexivity|].
  unfold nl. destruct ((127 <? c) || _); rewrite <- Hk; destruct ((c =? 10) || (c =? 13)); reflexivity.
Qed.
Lemma cnl_cont c r nb : byte c -> cont c -> 1 <= nb -> convertNewLines_loop (c :: r) nb = nl c :: convertNewLines_loop r (nb - 1).
Proof.
  intros Hb Hc Hn. cbn [convertNewLines_loop]. destruct (Z.eqb_spec nb 0); [lia|]. cbn [negb].
  destruct (byte_bits c Hb) as (-> & _). apply contb_iff in Hc as Hc'. rewrite Hc'. cbn [negb]. unfold nl. unfold cont in Hc.
  destruct (Z.eqb_spec c 10); [lia|]. destruct (Z.eqb_spec c 13); [lia|]. reflexivity.
Qed.
Lemma cnl_uchar u r : uchar u -> convertNewLines_loop (u ++ r) 0 = map nl u ++ convertNewLines_loop r 0.
Proof.
  assert (forall c, cont c -> byte c) as Hcb by (intros c H; unfold cont, byte in *; lia).
  intros H; inversion H as [c Hc|a b Ha Hb1|a b c Ha Hb1 Hc1 Hf|a b c d Ha Hb1 Hc1 Hd1 Hf]; subst; cbn [app map].
  - assert (byte c) as HB by (unfold byte; lia). rewrite cnl_lead by exact HB.
    destruct (classify2_cases c HB) as [(E1 & Q)|[(E1 & Q)|[(E1 & Q)|[(E1 & Q)|(E1 & Q & Q2)]]]]; rewrite E1; try lia; reflexivity.
  - assert (byte a) as HB by (unfold byte; lia). rewrite cnl_lead by exact HB.
    destruct (classify2_cases a HB) as [(E1 & Q)|[(E1 & Q)|[(E1 & Q)|[(E1 & Q)|(E1 & Q & Q2)]]]]; rewrite E1; try lia.
    rewrite cnl_cont by (auto; lia). reflexivity.
  - assert (byte a) as HB by (unfold byte; lia). rewrite cnl_lead by exact HB.
    destruct (classify2_cases a HB) as [(E1 & Q)|[(E1 & Q)|[(E1 & Q)|[(E1 & Q)|(E1 & Q & Q2)]]]]; rewrite E1; try lia.
    rewrite cnl_cont by (auto; lia). change (2 - 1) with 1. rewrite cnl_cont by (auto; lia). reflexivity.
  - assert (byte a) as HB by (unfold byte; lia). rewrite cnl_lead by exact HB.
    destruct (classify2_cases a HB) as [(E1 & Q)|[(E1 & Q)|[(E1 & Q)|[(E1 & Q)|(E1 & Q & Q2)]]]]; rewrite E1; try lia.
    rewrite cnl_cont by (auto; lia). change (3 - 1) with 2. rewrite cnl_cont by (auto; lia). change (2 - 1) with 1. rewrite cnl_cont by (auto; lia). reflexivity.
Qed.
Lemma cnl_valid l : utf8_valid l -> convertNewLines l = map nl l.
Proof.
  intros (us & HF & ->). unfold convertNewLines. induction HF as [|u us Hu _ IH]; [reflexivity|]. cbn [concat].
  rewrite cnl_uchar by exact Hu. rewrite IH, map_app. reflexivity.
Qed.

(** * byte order *)
Lemma land_byte x k : 0 <= k -> Z.land x (Z.shiftl 255 k) = Z.shiftl ((x / 2 ^ k) mod 256) k.
Proof.
  intros Hk. apply Z.bits_inj'. intros n Hn. rewrite Z.land_spec, !Z.shiftl_spec by assumption.
  destruct (Z.lt_ge_cases n k) as [H|H]; [rewrite !(Z.testbit_neg_r _ (n - k)) by lia; apply andb_false_r|].
  change 256 with (2 ^ 8). change 255 with (Z.ones 8). rewrite <- Z.land_ones by lia. rewrite Z.land_spec. f_equal.
  rewrite <- Z.shiftr_div_pow2 by lia. rewrite Z.shiftr_spec by lia. f_equal. lia.
Qed.
Lemma lor_add a b k : 0 <= k -> 0 <= a < 2 ^ k -> Z.lor a (Z.shiftl b k) = a + b * 2 ^ k.
Proof.
  intros Hk Ha. rewrite <- Z.shiftl_mul_pow2 by lia. symmetry. rewrite Z.add_nocarry_lxor.
  - apply Z.bits_inj'. intros n Hn. rewrite Z.lxor_spec, Z.lor_spec, Z.shiftl_spec by lia.
    destruct (Z.lt_ge_cases n k) as [H|H]; [rewrite (Z.testbit_neg_r b) by lia; destruct (Z.testbit a n); reflexivity|].
    assert (Z.testbit a n = false) as ->; [|destruct (Z.testbit b (n - k)); reflexivity].
    rewrite <- (Z.mod_small a (2 ^ k)) by lia. apply Z.mod_pow2_bits_high. lia.
  - apply Z.bits_inj'. intros n Hn. rewrite Z.land_spec, Z.shiftl_spec, Z.bits_0 by lia.
    destruct (Z.lt_ge_cases n k) as [H|H]; [rewrite (Z.testbit_neg_r b) by lia; apply andb_false_r|].
    assert (Z.testbit a n = false) as ->; [|reflexivity].
    rewrite <- (Z.mod_small a (2 ^ k)) by lia. apply Z.mod_pow2_bits_high. lia.
Qed.
Definition bat (x k : Z) : Z := (x / 2 ^ k) mod 256.
Lemma bat_bound x k : 0 <= bat x k < 256. Proof. apply Z.mod_pos_bound; lia. Qed.
Lemma shl_shr v k j : 0 <= j <= k -> Z.shiftr (Z.shiftl v k) j = Z.shiftl v (k - j).
Proof. intros H. rewrite Z.shiftr_shiftl_l by lia. reflexivity. Qed.

Lemma swap16_eq x : swap16 x = bat x 8 + bat x 0 * 2 ^ 8.
Proof.
  unfold swap16. replace (Z.land (Z.shiftr x 8) 255) with (bat x 8).
  - change (Z.land x 255) with (Z.land x (Z.shiftl 255 0)). rewrite land_byte by lia. fold (bat x 0). rewrite Z.shiftl_0_r.
    apply lor_add; [lia|]. pose proof (bat_bound x 8). lia.
  - unfold bat. rewrite Z.shiftr_div_pow2 by lia. change 255 with (Z.ones 8). rewrite Z.land_ones by lia. reflexivity.
Qed.
Lemma swap32_eq x : swap32 x = bat x 24 + bat x 16 * 2 ^ 8 + bat x 8 * 2 ^ 16 + bat x 0 * 2 ^ 24.
Proof.
  unfold swap32. change 4278190080 with (Z.shiftl 255 24). change 16711680 with (Z.shiftl 255 16). change 65280 with (Z.shiftl 255 8).
  change (Z.land x 255) with (Z.land x (Z.shiftl 255 0)). rewrite !land_byte by lia. fold (bat x 0) (bat x 8) (bat x 16) (bat x 24).
  rewrite !Z.shiftr_shiftl_l by lia. rewrite !Z.shiftl_shiftl by lia. cbn [Z.sub Z.add Z.pos_sub Z.opp Z.succ_double Z.pred_double Pos.pred_double Pos.add Pos.succ].
  change (24 - 24) with 0. change (16 - 8) with 8. change (8 + 8) with 16. change (0 + 24) with 24.
  pose proof (bat_bound x 0). pose proof (bat_bound x 8). pose proof (bat_bound x 16). pose proof (bat_bound x 24).
  rewrite Z.shiftl_0_r. rewrite (lor_add _ (bat x 16) 8) by lia. rewrite (lor_add _ (bat x 8) 16) by lia. rewrite (lor_add _ (bat x 0) 24) by lia. reflexivity.
Qed.
Lemma swap64_eq x : swap64 x = bat x 56 + bat x 48 * 2 ^ 8 + bat x 40 * 2 ^ 16 + bat x 32 * 2 ^ 24 + bat x 24 * 2 ^ 32 + bat x 16 * 2 ^ 40 + bat x 8 * 2 ^ 48 + bat x 0 * 2 ^ 56.
Proof.
  unfold swap64. change (Z.land x 255) with (Z.land x (Z.shiftl 255 0)). rewrite !land_byte by lia.
  fold (bat x 0) (bat x 8) (bat x 16) (bat x 24) (bat x 32) (bat x 40) (bat x 48) (bat x 56).
  rewrite !Z.shiftr_shiftl_l by lia. rewrite !Z.shiftl_shiftl by lia.
  change (56 - 56) with 0. change (48 - 40) with 8. change (40 - 24) with 16. change (32 - 8) with 24. change (24 + 8) with 32.
  change (16 + 24) with 40. change (8 + 40) with 48. change (0 + 56) with 56.
  pose proof (bat_bound x 0). pose proof (bat_bound x 8). pose proof (bat_bound x 16). pose proof (bat_bound x 24).
  pose proof (bat_bound x 32). pose proof (bat_bound x 40). pose proof (bat_bound x 48). pose proof (bat_bound x 56).
  rewrite Z.shiftl_0_r. rewrite (lor_add _ (bat x 48) 8) by lia. rewrite (lor_add _ (bat x 40) 16) by lia. rewrite (lor_add _ (bat x 32) 24) by lia. rewrite (lor_add _ (bat x 24) 32) by lia. rewrite (lor_add _ (bat x 16) 40) by lia. rewrite (lor_add _ (bat x 8) 48) by lia. rewrite (lor_add _ (bat x 0) 56) by lia. reflexivity.
Qed.
Lemma bat_mod x k n : 0 <= k -> k + 8 <= n -> bat (x mod 2 ^ n) k = bat x k.
Proof.
  intros Hk Hn. unfold bat. rewrite (Z.mod_eq x (2 ^ n)) by (apply Z.pow_nonzero; lia).
  replace (x - 2 ^ n * (x / 2 ^ n)) with (x + (- (x / 2 ^ n) * 2 ^ (n - k - 8) * 256) * 2 ^ k).
  - rewrite Z.div_add by (apply Z.pow_nonzero; lia). apply Z.mod_add. lia.
  - replace (2 ^ n) with (2 ^ (n - k - 8) * 256 * 2 ^ k); [ring|]. change 256 with (2 ^ 8). rewrite <- !Z.pow_add_r by lia. f_equal. lia.
Qed.
Lemma bat_sN x k n : 0 <= k -> k + 8 <= n -> bat (sN n x) k = bat x k.
Proof.
  intros Hk Hn. rewrite <- (bat_mod x k n Hk Hn). unfold sN. destruct (_ <? _); [reflexivity|]. set (r := x mod 2 ^ n).
  rewrite <- (bat_mod (r - 2 ^ n) k n Hk Hn). replace (r - 2 ^ n) with (r + (-1) * 2 ^ n) by ring. rewrite Z.mod_add by (apply Z.pow_nonzero; lia).
  apply bat_mod; assumption.
Qed.
Lemma lsb_le l : lsb_first l = le_value l. Proof. induction l as [|b r IH]; [reflexivity|]. cbn. rewrite IH. reflexivity. Qed.
Lemma le_bound l : Forall byte l -> 0 <= le_value l < 256 ^ zlen l.
Proof.
  intros H; induction H as [|b r Hb _ IH]; [change (256 ^ zlen (@nil Z)) with 1; cbn [le_value]; lia|]. rewrite zlen_cons. cbn [le_value]. unfold byte in Hb.
  replace (256 ^ _) with (256 * 256 ^ zlen r); [lia|]. pose proof (zlen_nonneg r). rewrite <- Z.pow_succ_r by lia. f_equal. lia.
Qed.
Lemma bat_nth l : Forall byte l -> forall i, bat (le_value l) (8 * Z.of_nat i) = nth i l 0.
Proof.
  intros H; induction H as [|b r Hb _ IH]; intros i.
  - unfold bat. cbn [le_value]. rewrite Z.div_0_l by (apply Z.pow_nonzero; lia). destruct i; reflexivity.
  - unfold byte in Hb. destruct i as [|i].
    + unfold bat. cbn [le_value nth]. change (2 ^ (8 * Z.of_nat 0)) with 1. rewrite Z.div_1_r. replace (b + 256 * le_value r) with (b + le_value r * 256) by ring.
      rewrite Z.mod_add by lia. apply Z.mod_small. lia.
    + cbn [nth]. rewrite <- IH. unfold bat. cbn [le_value]. f_equal.
      replace (8 * Z.of_nat (S i)) with (8 + 8 * Z.of_nat i) by lia. rewrite Z.pow_add_r by lia. change (2 ^ 8) with 256. rewrite <- Z.div_div by (try (apply Z.pow_nonzero; lia); try (apply Z.pow_pos_nonneg; lia); lia). f_equal.
      replace (b + 256 * le_value r) with (b + le_value r * 256) by ring. rewrite Z.div_add by lia. rewrite Z.div_small by lia. lia.
Qed.
Lemma swap16_list l x : Forall byte l -> zlen l = 2 -> (forall k, 0 <= k -> k + 8 <= 16 -> bat x k = bat (le_value l) k) -> swap16 x = le_value (rev l).
Proof.
  intros HB HL Hx. rewrite swap16_eq, !Hx by lia. 
  change 8 with (8 * Z.of_nat 1) at 1. change (bat (le_value l) 0) with (bat (le_value l) (8 * Z.of_nat 0)). rewrite !bat_nth by exact HB.
  destruct l as [|a [|b [|? ?]]]; try (unfold zlen in HL; cbn in HL; lia). cbn [nth rev app le_value]. lia.
Qed.
Lemma swap32_list l x : Forall byte l -> zlen l = 4 -> (forall k, 0 <= k -> k + 8 <= 32 -> bat x k = bat (le_value l) k) -> swap32 x = le_value (rev l).
Proof.
  intros HB HL Hx. rewrite swap32_eq, !Hx by lia. set (v := le_value l).
  change (bat v 24) with (bat v (8 * Z.of_nat 3)). change (bat v 16) with (bat v (8 * Z.of_nat 2)). change (bat v 8) with (bat v (8 * Z.of_nat 1)).
  change (bat v 0) with (bat v (8 * Z.of_nat 0)). subst v. rewrite !bat_nth by exact HB.
  destruct l as [|a [|b [|c [|d [|? ?]]]]]; try (unfold zlen in HL; cbn in HL; lia). cbn [nth rev app le_value]. lia.
Qed.
Lemma swap64_list l x : Forall byte l -> zlen l = 8 -> (forall k, 0 <= k -> k + 8 <= 64 -> bat x k = bat (le_value l) k) -> swap64 x = le_value (rev l).
Proof.
  intros HB HL Hx. rewrite swap64_eq, !Hx by lia. set (v := le_value l).
  change (bat v 56) with (bat v (8 * Z.of_nat 7)). change (bat v 48) with (bat v (8 * Z.of_nat 6)). change (bat v 40) with (bat v (8 * Z.of_nat 5)). change (bat v 32) with (bat v (8 * Z.of_nat 4)).
  change (bat v 24) with (bat v (8 * Z.of_nat 3)). change (bat v 16) with (bat v (8 * Z.of_nat 2)). change (bat v 8) with (bat v (8 * Z.of_nat 1)).
  change (bat v 0) with (bat v (8 * Z.of_nat 0)). subst v. rewrite !bat_nth by exact HB.
  destruct l as [|a [|b [|c [|d [|e [|f [|g [|h [|? ?]]]]]]]]]; try (unfold zlen in HL; cbn in HL; lia). cbn [nth rev app le_value]. lia.
Qed.
Lemma zlen_rev {A} (l : list A) : zlen (rev l) = zlen l. Proof. unfold zlen. rewrite rev_length. reflexivity. Qed.
Lemma native_eq big l : native big l = le_value (if big then rev l else l). Proof. unfold native. destruct big; apply lsb_le. Qed.
(* the value of the bytes as an n bit unsigned/signed integer *)
Lemma uN_small n m l : Forall byte l -> zlen l = m -> n = 8 * m -> uN n (le_value l) = le_value l.
Proof. intros HB HL ->. unfold uN. apply Z.mod_small. rewrite Z.pow_mul_r by (pose proof (zlen_nonneg l); lia). rewrite <- HL. apply le_bound; exact HB. Qed.
Lemma sN_twos n m l : Forall byte l -> zlen l = m -> n = 8 * m -> 1 <= m -> sN n (le_value l) = twos m (le_value l).
Proof.
  intros HB HL E Hm. unfold sN. pose proof (uN_small n m l HB HL E) as Hu. unfold uN in Hu. rewrite Hu. subst n.
  unfold twos. change 256 with (2 ^ 8). rewrite <- Z.pow_mul_r by lia.
  replace (2 ^ (8 * m) / 2) with (2 ^ (8 * m - 1)); [reflexivity|]. apply Z.div_unique_exact; [lia|]. rewrite <- (Z.pow_succ_r 2) by lia. f_equal. lia.
Qed.

(** * DOS time *)
Lemma shr_land x k m w : 0 <= k -> 0 <= w -> m = Z.ones w -> Z.land (Z.shiftr x k) m = (x / 2 ^ k) mod 2 ^ w.
Proof. intros Hk Hw ->. rewrite Z.land_ones by lia. rewrite Z.shiftr_div_pow2 by lia. reflexivity. Qed.
Lemma dos_fields_ok y mo d h mi s2 : 1980 <= y -> 0 <= mo < 16 -> 0 <= d < 32 -> 0 <= h < 32 -> 0 <= mi < 64 -> 0 <= s2 < 32 ->
  dos_fields (dos_word y mo d h mi s2) = mkTm (y - 1900) (mo - 1) d (h mod 16) mi (2 * s2).
Proof.
  intros Hy Hmo Hd Hh Hmi Hs. unfold dos_fields. set (w := dos_word y mo d h mi s2).
  change (Z.land w 31) with (Z.land (Z.shiftr w 0) 31).
  rewrite (shr_land w 21 15 4), (shr_land w 16 31 5), (shr_land w 11 15 4), (shr_land w 5 63 6), (shr_land w 0 31 5) by (try lia; reflexivity).
  rewrite Z.shiftr_div_pow2 by lia. rewrite Z.shiftl_mul_pow2 by lia.
  assert (w = ((((((y - 1980) * 2 ^ 4 + mo) * 2 ^ 5 + d) * 2 ^ 5 + h) * 2 ^ 6 + mi) * 2 ^ 5 + s2)) as Ew by (unfold w, dos_word; lia).
  set (a1 := (y - 1980) * 2 ^ 4 + mo) in *. set (a2 := a1 * 2 ^ 5 + d) in *. set (a3 := a2 * 2 ^ 5 + h) in *. set (a4 := a3 * 2 ^ 6 + mi) in *.
  assert (w / 2 ^ 25 = y - 1980) as -> by (symmetry; apply (Z.div_unique _ _ _ (w - (y - 1980) * 2 ^ 25)); subst a1 a2 a3 a4; lia).
  assert (w / 2 ^ 21 = a1) as -> by (symmetry; apply (Z.div_unique _ _ _ (w - a1 * 2 ^ 21)); subst a2 a3 a4; lia).
  assert (w / 2 ^ 16 = a2) as -> by (symmetry; apply (Z.div_unique _ _ _ (w - a2 * 2 ^ 16)); subst a3 a4; lia).
  assert (w / 2 ^ 11 = a3) as -> by (symmetry; apply (Z.div_unique _ _ _ (w - a3 * 2 ^ 11)); subst a4; lia).
  assert (w / 2 ^ 5 = a4) as -> by (symmetry; apply (Z.div_unique _ _ _ s2); lia).
  change (2 ^ 0) with 1. rewrite Z.div_1_r.
  assert (a1 mod 2 ^ 4 = mo) as -> by (symmetry; apply (Z.mod_unique _ _ (y - 1980)); lia).
  assert (a2 mod 2 ^ 5 = d) as -> by (symmetry; apply (Z.mod_unique _ _ a1); lia).
  assert (a3 mod 2 ^ 4 = h mod 16) as ->.
  { subst a3. replace (a2 * 2 ^ 5 + h) with (h + (a2 * 2) * 16) by lia. change (2 ^ 4) with 16. apply Z.mod_add. lia. }
  assert (a4 mod 2 ^ 6 = mi) as -> by (symmetry; apply (Z.mod_unique _ _ a3); lia).
  assert (w mod 2 ^ 5 = s2) as -> by (symmetry; apply (Z.mod_unique _ _ a4); lia).
  f_equal; lia.
Qed.
