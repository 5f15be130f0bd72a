From Verif Require Import Base M_Text TextSpec B64Spec P_Base64.

Definition lead_eqb (a b : lead) : bool := match a, b with L1, L1 | L2, L2 | L3, L3 | L4, L4 | Lbad, Lbad => true | _, _ => false end.
Definition classify2 (c : Z) : lead :=
  if (194 <=? c) && (c <=? 223) then L2 else if (224 <=? c) && (c <=? 239) then L3
  else if (240 <=? c) && (c <=? 244) then L4
  else if (c =? 9) || (c =? 10) || (c =? 13) || ((32 <=? c) && (c <=? 127)) then L1 else Lbad.
Lemma classify_ok c : byte c -> classify c = classify2 c.
Proof.
  intros Hc. assert (lead_eqb (classify c) (classify2 c) = true) as H.
  { apply (byte_check (fun c => lead_eqb (classify c) (classify2 c))); [vm_compute; reflexivity|exact Hc]. }
  destruct (classify c), (classify2 c); try discriminate; reflexivity.
Qed.
Definition contb (c : Z) : bool := (128 <=? c) && (c <=? 191).
Lemma contb_iff c : contb c = true <-> cont c. Proof. unfold contb, cont. rewrite andb_true_iff, !Z.leb_le. tauto. Qed.
Lemma byte_bits c : byte c ->
  (Z.land 192 c =? 128) = contb c /\ (cont c -> Z.land c 63 = c - 128) /\ (194 <= c <= 223 -> Z.land c 31 = c - 192) /\
  (224 <= c <= 239 -> Z.land c 15 = c - 224) /\ (240 <= c <= 244 -> Z.land c 7 = c - 240).
Proof.
  intros Hc.
  set (P := fun c => Bool.eqb (Z.land 192 c =? 128) (contb c) && (negb (contb c) || (Z.land c 63 =? c - 128)) &&
    (negb ((194 <=? c) && (c <=? 223)) || (Z.land c 31 =? c - 192)) && (negb ((224 <=? c) && (c <=? 239)) || (Z.land c 15 =? c - 224)) &&
    (negb ((240 <=? c) && (c <=? 244)) || (Z.land c 7 =? c - 240))).
  assert (P c = true) as H by (apply (byte_check P); [vm_compute; reflexivity|exact Hc]).
  unfold P in H. rewrite !andb_true_iff in H. destruct H as ((((H1 & H2) & H3) & H4) & H5).
  apply Bool.eqb_prop in H1. split; [exact H1|].
  rewrite orb_true_iff, negb_true_iff, Z.eqb_eq in H2, H3, H4, H5.
  split; [intros Hx; apply contb_iff in Hx; destruct H2; congruence|].
  rewrite !andb_false_iff, !Z.leb_gt in H3, H4, H5.
  split; [intros; destruct H3; [lia|assumption]|]. split; [intros; destruct H4; [lia|assumption]|intros; destruct H5; [lia|assumption]].
Qed.
Lemma bad_iff v : bad_val v = true <-> forbidden v.
Proof. unfold bad_val, forbidden. rewrite !orb_true_iff, andb_true_iff, !Z.eqb_eq, !Z.leb_le. tauto. Qed.

Lemma chk_cont c r nb val : byte c -> 1 <= nb -> 0 <= val < 2 ^ 32 ->
  checkUtf8_loop (c :: r) nb val =
    if contb c then (let v := val * 64 + (c - 128) in if (nb =? 1) && bad_val v then false else checkUtf8_loop r (nb - 1) v) else false.
Proof.
  intros Hc Hn Hv. cbn [checkUtf8_loop]. destruct (Z.eqb_spec nb 0); [lia|]. cbn [negb].
  destruct (byte_bits c Hc) as (B1 & B2 & _). rewrite B1. destruct (contb c) eqn:Ec; cbn [negb]; [|reflexivity].
  apply contb_iff in Ec. rewrite (B2 Ec). rewrite Z.shiftl_mul_pow2 by lia. change (2 ^ 6) with 64.
  unfold cont in Ec. rewrite Z.mod_small by lia. cbv zeta.
  destruct (Z.eqb_spec (nb - 1) 0), (Z.eqb_spec nb 1); try lia; reflexivity.
Qed.
Lemma chk_val0 r v w : checkUtf8_loop r 0 v = checkUtf8_loop r 0 w.
Proof. revert v w; induction r as [|c r IH]; intros; [reflexivity|]. cbn [checkUtf8_loop]. cbn [Z.eqb negb]. destruct (classify c); try reflexivity. apply IH. Qed.
Lemma classify2_cases c : byte c ->
  (classify2 c = L1 /\ (c = 9 \/ c = 10 \/ c = 13 \/ 32 <= c <= 127)) \/ (classify2 c = L2 /\ 194 <= c <= 223) \/
  (classify2 c = L3 /\ 224 <= c <= 239) \/ (classify2 c = L4 /\ 240 <= c <= 244) \/
  (classify2 c = Lbad /\ ~ (c = 9 \/ c = 10 \/ c = 13 \/ 32 <= c <= 127) /\ ~ 194 <= c <= 244).
Proof.
  unfold byte, classify2; intros H.
  destruct ((194 <=? c) && (c <=? 223)) eqn:E2; [apply andb_true_iff in E2; right; left; split; [reflexivity|lia]|].
  apply andb_false_iff in E2. rewrite !Z.leb_gt in E2.
  destruct ((224 <=? c) && (c <=? 239)) eqn:E3; [apply andb_true_iff in E3; right; right; left; split; [reflexivity|lia]|].
  apply andb_false_iff in E3. rewrite !Z.leb_gt in E3.
  destruct ((240 <=? c) && (c <=? 244)) eqn:E4; [apply andb_true_iff in E4; right; right; right; left; split; [reflexivity|lia]|].
  apply andb_false_iff in E4. rewrite !Z.leb_gt in E4.
  destruct (_ || _) eqn:E1; [left|right; right; right; right]; (split; [reflexivity|]).
  - rewrite !orb_true_iff, andb_true_iff, !Z.eqb_eq, !Z.leb_le in E1. tauto.
  - rewrite !orb_false_iff, andb_false_iff, !Z.eqb_neq, !Z.leb_gt in E1. lia.
Qed.

Lemma chk_lead c r v : byte c -> checkUtf8_loop (c :: r) 0 v =
  match classify2 c with
  | L1 => checkUtf8_loop r 0 0 | L2 => checkUtf8_loop r 1 (c - 192) | L3 => checkUtf8_loop r 2 (c - 224)
  | L4 => checkUtf8_loop r 3 (c - 240) | Lbad => false end.
Proof.
  intros Hc. cbn [checkUtf8_loop]. cbn [Z.eqb negb]. rewrite (classify_ok c Hc). destruct (byte_bits c Hc) as (_ & _ & B2 & B3 & B4).
  destruct (classify2_cases c Hc) as [(E & Q)|[(E & Q)|[(E & Q)|[(E & Q)|(E & Q & Q2)]]]]; rewrite E;
    [apply chk_val0|rewrite B2 by exact Q; reflexivity|rewrite B3 by exact Q; reflexivity|rewrite B4 by exact Q; reflexivity|reflexivity].
Qed.
Lemma uchar_bytes u : uchar u -> Forall byte u.
Proof. intros H; inversion H; subst; unfold cont in *; repeat constructor; unfold byte; lia. Qed.
Lemma utf8_bytes l : utf8_valid l -> Forall byte l.
Proof. intros (us & HF & ->). induction HF as [|u us Hu _ IH]; [constructor|]. cbn. apply Forall_app. split; [apply uchar_bytes; exact Hu|exact IH]. Qed.
Lemma chk_uchar u r v : uchar u -> checkUtf8_loop (u ++ r) 0 v = checkUtf8_loop r 0 0.
Proof.
  assert (forall c v0, cont c -> 0 <= v0 < 2 ^ 26 -> 0 <= v0 * 64 + (c - 128) < 2 ^ 32) as Hb by (unfold cont; intros; lia).
  assert (forall c, cont c -> contb c = true /\ byte c) as Hcb by (intros c H; split; [apply contb_iff, H|unfold cont, byte in *; lia]).
  assert (forall x, ~ forbidden x -> bad_val x = false) as Hnb.
  { intros x Hx. destruct (bad_val x) eqn:E; [apply bad_iff in E; contradiction|reflexivity]. }
  intros H; inversion H as [c Hc|a b Ha Hb1|a b c Ha Hb1 Hc1 Hf|a b c d Ha Hb1 Hc1 Hd1 Hf]; subst; cbn [app].
  - assert (byte c) as HB by (unfold byte; lia). rewrite (chk_lead c r v HB). destruct (classify2_cases c HB) as [(E & _)|[(E & ?)|[(E & ?)|[(E & ?)|(E & ? & ?)]]]]; rewrite E; try lia. reflexivity.
  - assert (byte a) as HB by (unfold byte; lia). rewrite chk_lead by exact HB. destruct (classify2_cases a HB) as [(E & ?)|[(E & ?)|[(E & ?)|[(E & ?)|(E & ? & ?)]]]]; rewrite E; try lia.
    destruct (Hcb b Hb1). rewrite chk_cont by (try assumption; lia). rewrite H1. cbv zeta. change (1 =? 1) with true. cbn [andb].
    rewrite Hnb; [apply chk_val0|]. unfold forbidden, cont in *; lia.
  - assert (byte a) as HB by (unfold byte; lia). rewrite chk_lead by exact HB. destruct (classify2_cases a HB) as [(E & ?)|[(E & ?)|[(E & ?)|[(E & ?)|(E & ? & ?)]]]]; rewrite E; try lia.
    destruct (Hcb b Hb1), (Hcb c Hc1). rewrite chk_cont by (try assumption; lia). rewrite H1. cbv zeta. change (2 =? 1) with false. cbn [andb]. change (2 - 1) with 1.
    rewrite chk_cont by (try assumption; try apply Hb; try assumption; lia). rewrite H3. cbv zeta. change (1 =? 1) with true. cbn [andb].
    rewrite Hnb; [apply chk_val0|]. intros HH; apply Hf. replace ((a - 224) * 4096 + (b - 128) * 64 + (c - 128)) with (((a - 224) * 64 + (b - 128)) * 64 + (c - 128)) by lia. exact HH.
  - assert (byte a) as HB by (unfold byte; lia). rewrite chk_lead by exact HB. destruct (classify2_cases a HB) as [(E & ?)|[(E & ?)|[(E & ?)|[(E & ?)|(E & ? & ?)]]]]; rewrite E; try lia.
    destruct (Hcb b Hb1), (Hcb c Hc1), (Hcb d Hd1). rewrite chk_cont by (try assumption; lia). rewrite H1. cbv zeta. change (3 =? 1) with false. cbn [andb]. change (3 - 1) with 2.
    rewrite chk_cont by (try assumption; try apply Hb; try assumption; lia). rewrite H3. cbv zeta. change (2 =? 1) with false. cbn [andb]. change (2 - 1) with 1.
    rewrite chk_cont by (try assumption; unfold cont in *; lia). rewrite H5. cbv zeta. change (1 =? 1) with true. cbn [andb].
    rewrite Hnb; [apply chk_val0|]. intros HH; apply Hf.
    replace ((a - 240) * 262144 + (b - 128) * 4096 + (c - 128) * 64 + (d - 128)) with ((((a - 240) * 64 + (b - 128)) * 64 + (c - 128)) * 64 + (d - 128)) by lia. exact HH.
Qed.

Lemma valid_cons u l : uchar u -> utf8_valid l -> utf8_valid (u ++ l).
Proof. intros Hu (us & HF & ->). exists (u :: us). split; [constructor; assumption|reflexivity]. Qed.
Lemma chk_nil nb v : checkUtf8_loop [] nb v = (nb =? 0). Proof. reflexivity. Qed.

Lemma chk_valid : forall n l, (length l < n)%nat -> Forall byte l -> checkUtf8_loop l 0 0 = true -> utf8_valid l.
Proof.
  induction n as [|n IH]; intros l Hl HB H; [lia|].
  destruct l as [|a l]; [exists []; split; [constructor|reflexivity]|].
  inversion HB as [|? ? Ba HB1]; subst. rewrite chk_lead in H by exact Ba. cbn [length] in Hl.
  destruct (classify2_cases a Ba) as [(E & ?)|[(E & ?)|[(E & ?)|[(E & ?)|(E & ? & ?)]]]]; rewrite E in H; try discriminate.
  - apply (valid_cons [a]); [constructor; exact H0|]. apply IH; [lia|assumption|exact H].
  - destruct l as [|b l]; [discriminate|]. inversion HB1 as [|? ? Bb HB2]; subst. rewrite chk_cont in H by (try assumption; lia).
    destruct (contb b) eqn:Cb; [|discriminate]. cbv zeta in H. apply contb_iff in Cb. change (1 =? 1) with true in H. cbn [andb] in H.
    destruct (bad_val _); [discriminate|]. change (1 - 1) with 0 in H. rewrite (chk_val0 _ _ 0) in H. cbn [length] in Hl.
    apply (valid_cons [a; b]); [constructor; assumption|]. apply IH; [lia|assumption|exact H].
  - destruct l as [|b l]; [discriminate|]. inversion HB1 as [|? ? Bb HB2]; subst. rewrite chk_cont in H by (try assumption; lia).
    destruct (contb b) eqn:Cb; [|discriminate]. cbv zeta in H. apply contb_iff in Cb. change (2 =? 1) with false in H. cbn [andb] in H. change (2 - 1) with 1 in H.
    destruct l as [|c l]; [discriminate|]. inversion HB2 as [|? ? Bc HB3]; subst. rewrite chk_cont in H by (try assumption; unfold cont in *; lia).
    destruct (contb c) eqn:Cc; [|discriminate]. cbv zeta in H. apply contb_iff in Cc. change (1 =? 1) with true in H. cbn [andb] in H.
    destruct (bad_val _) eqn:Bv in H; [discriminate|]. change (1 - 1) with 0 in H. rewrite (chk_val0 _ _ 0) in H. cbn [length] in Hl.
    apply (valid_cons [a; b; c]); [|apply IH; [lia|assumption|exact H]]. constructor; try assumption.
    intros F. replace ((a - 224) * 4096 + (b - 128) * 64 + (c - 128)) with (((a - 224) * 64 + (b - 128)) * 64 + (c - 128)) in F by lia. apply bad_iff in F. congruence.
  - destruct l as [|b l]; [discriminate|]. inversion HB1 as [|? ? Bb HB2]; subst. rewrite chk_cont in H by (try assumption; lia).
    destruct (contb b) eqn:Cb; [|discriminate]. cbv zeta in H. apply contb_iff in Cb. change (3 =? 1) with false in H. cbn [andb] in H. change (3 - 1) with 2 in H.
    destruct l as [|c l]; [discriminate|]. inversion HB2 as [|? ? Bc HB3]; subst. rewrite chk_cont in H by (try assumption; unfold cont in *; lia).
    destruct (contb c) eqn:Cc; [|discriminate]. cbv zeta in H. apply contb_iff in Cc. change (2 =? 1) with false in H. cbn [andb] in H. change (2 - 1) with 1 in H.
    destruct l as [|d l]; [discriminate|]. inversion HB3 as [|? ? Bd HB4]; subst. rewrite chk_cont in H by (try assumption; unfold cont in *; lia).
    destruct (contb d) eqn:Cd; [|discriminate]. cbv zeta in H. apply contb_iff in Cd. change (1 =? 1) with true in H. cbn [andb] in H.
    destruct (bad_val _) eqn:Bv in H; [discriminate|]. change (1 - 1) with 0 in H. rewrite (chk_val0 _ _ 0) in H. cbn [length] in Hl.
    apply (valid_cons [a; b; c; d]); [|apply IH; [lia|assumption|exact H]]. constructor; try assumption.
    intros F. replace ((a - 240) * 262144 + (b - 128) * 4096 + (c - 128) * 64 + (d - 128)) with ((((a - 240) * 64 + (b - 128)) * 64 + (c - 128)) * 64 + (d - 128)) in F by lia. apply bad_iff in F. congruence.
Qed.
Theorem checkUtf8_iff l : Forall byte l -> (checkUtf8 l = true <-> utf8_valid l).
Proof.
  intros HB. split.
  - apply (chk_valid (S (length l))); [lia|exact HB].
  - intros (us & HF & ->). clear HB. unfold checkUtf8. induction HF as [|u us Hu _ IH]; [reflexivity|]. cbn [concat]. rewrite chk_uchar by exact Hu. exact IH.
Qed.

Lemma encode_uchar v : xml_char v -> uchar (utf8_encode v).
Proof.
  intros H. unfold utf8_encode. 
  pose proof (Z.div_mod v 64 ltac:(lia)). pose proof (Z.mod_pos_bound v 64 ltac:(lia)).
  pose proof (Z.div_mod (v / 64) 64 ltac:(lia)). pose proof (Z.mod_pos_bound (v / 64) 64 ltac:(lia)).
  pose proof (Z.div_mod (v / 4096) 64 ltac:(lia)). pose proof (Z.mod_pos_bound (v / 4096) 64 ltac:(lia)).
  assert (v / 4096 = v / 64 / 64) as E1 by (rewrite Z.div_div by lia; reflexivity).
  assert (v / 262144 = v / 4096 / 64) as E2 by (rewrite Z.div_div by lia; reflexivity).
  unfold xml_char in H.
  destruct (Z.ltb_spec v 128); [constructor; lia|].
  destruct (Z.ltb_spec v 2048); [constructor; unfold cont; lia|].
  destruct (Z.ltb_spec v 65536).
  - constructor; unfold cont, forbidden; try lia.
  - constructor; unfold cont, forbidden; try lia.
Qed.

(** the pointer version *)
Section Ptr.
Definition pres (full : list Z) (r : option Z) (nb : Z) : Prop :=
  (r = None /\ nb = 0 /\ utf8_valid full) \/
  (exists p, r = Some p /\ 0 <= p < zlen full /\ 1 <= nb /\ utf8_valid (firstn (Z.to_nat p) full) /\ incomplete (skipn (Z.to_nat p) full) nb) \/
  (exists p, r = Some p /\ 0 <= p < zlen full /\ nb = 0 /\
     (exists a u, firstn (Z.to_nat p) full = a ++ u /\ utf8_valid a /\ (u = [] \/ exists k, incomplete u k)) /\
     forall ext, Forall byte ext -> ~ utf8_valid (firstn (Z.to_nat (p + 1)) full ++ ext)).

Lemma utf8_app a b : utf8_valid a -> utf8_valid b -> utf8_valid (a ++ b).
Proof. intros (u & HF & ->) (w & HG & ->). exists (u ++ w). split; [apply Forall_app; split; assumption|symmetry; apply concat_app]. Qed.

Lemma firstn_zlen {A} (a b : list A) p : p = zlen a -> firstn (Z.to_nat p) (a ++ b) = a /\ skipn (Z.to_nat p) (a ++ b) = b.
Proof. intros ->. unfold zlen. rewrite Nat2Z.id. rewrite firstn_app, skipn_app, firstn_all, skipn_all, Nat.sub_diag. cbn. rewrite app_nil_r. split; reflexivity. Qed.

(** state: [a] complete characters, [u] the started one *)
Definition pst (a u : list Z) (cs nb val : Z) : Prop :=
  utf8_valid a /\ Forall byte u /\
  ((nb = 0 /\ u = []) \/ (1 <= nb /\ cs = zlen a /\ incomplete u nb /\ 0 <= val /\ (val + 1) * 64 ^ nb <= 2 ^ 26)) /\
  (forall rest, checkUtf8_loop (u ++ rest) 0 0 = checkUtf8_loop rest nb val).

Lemma chk_valid_app a r : utf8_valid a -> checkUtf8_loop (a ++ r) 0 0 = checkUtf8_loop r 0 0.
Proof. intros (us & HF & ->). induction HF as [|u us Hu _ IH]; [reflexivity|]. cbn [concat]. rewrite <- app_assoc, chk_uchar by exact Hu. exact IH. Qed.

Lemma ptr_ok : forall l a u cs nb val, Forall byte l -> pst a u cs nb val ->
  pres (a ++ u ++ l) (fst (checkUtf8p_loop l (zlen a + zlen u) cs nb val)) (snd (checkUtf8p_loop l (zlen a + zlen u) cs nb val)).
Proof.
  induction l as [|c l IH]; intros a u cs nb val HB (HA & HU & HS & HC).
  - cbn [checkUtf8p_loop fst snd]. rewrite app_nil_r. destruct HS as [(-> & ->)|(H1 & -> & H3 & _)].
    + left. cbn. rewrite app_nil_r. tauto.
    + destruct (Z.eqb_spec nb 0); [lia|]. cbn [negb]. right; left. exists (zlen a). pose proof (zlen_nonneg a).
      assert (0 < zlen u) by (destruct H3 as (c & cs & n' & -> & _); rewrite zlen_cons; pose proof (zlen_nonneg cs); lia).
      destruct (firstn_zlen a u (zlen a) eq_refl) as (-> & ->). rewrite zlen_app. repeat split; try lia; assumption.
  - inversion HB as [|? ? Bc HBl]; subst. cbn [checkUtf8p_loop].
    pose proof (zlen_nonneg a) as Za. pose proof (zlen_nonneg u) as Zu. pose proof (zlen_nonneg l) as Zl.
    (* error at this byte *)
    assert (forall nb', nb' = 0 -> (forall ext, Forall byte ext -> checkUtf8_loop (c :: ext) nb val = false) -> 
      pres (a ++ u ++ c :: l) (Some (zlen a + zlen u)) nb') as Herr.
    { intros nb' -> Hf. right; right. exists (zlen a + zlen u). rewrite !zlen_app, zlen_cons. repeat split; try lia.
      - exists a, u. rewrite app_assoc. destruct (firstn_zlen (a ++ u) (c :: l) (zlen a + zlen u)) as (-> & _); [rewrite zlen_app; reflexivity|].
        split; [reflexivity|]. split; [exact HA|]. destruct HS as [(_ & ->)|(_ & _ & H & _)]; [left; reflexivity|right; eauto].
      - intros ext He HV. replace (a ++ u ++ c :: l) with ((a ++ u ++ [c]) ++ l) in HV by (rewrite <- !app_assoc; reflexivity).
        destruct (firstn_zlen (a ++ u ++ [c]) l (zlen a + zlen u + 1)) as (E & _); [rewrite !zlen_app; change (zlen [c]) with 1; lia|]. rewrite E in HV.
        assert (Forall byte ((a ++ u ++ [c]) ++ ext)) as HBB.
        { repeat (apply Forall_app; split); try assumption; [apply utf8_bytes; exact HA|constructor; [exact Bc|constructor]]. }
        apply checkUtf8_iff in HV; [|exact HBB]. unfold checkUtf8 in HV. rewrite <- !app_assoc in HV. cbn [app] in HV.
        rewrite chk_valid_app in HV by exact HA. rewrite HC, Hf in HV by exact He. discriminate. }
    destruct (Z.eqb_spec nb 0) as [N0|N0]; cbn [negb].
    + subst nb. destruct HS as [(_ & ->)|(H1 & _)]; [|lia]. change (zlen (@nil Z)) with 0 in *. rewrite Z.add_0_r in *. cbn [app] in *.
      rewrite (classify_ok c Bc). destruct (byte_bits c Bc) as (_ & _ & B2 & B3 & B4).
      assert (forall n v, lead_len c n -> 1 <= n -> 0 <= v -> (v + 1) * 64 ^ n <= 2 ^ 26 -> (forall rest, checkUtf8_loop (c :: rest) 0 0 = checkUtf8_loop rest n v) -> pst a [c] (zlen a) n v) as Hlead.
      { intros n v HL Hn Hv Hv2 HCC. split; [exact HA|]. split; [constructor; [exact Bc|constructor]|]. split; [|exact HCC].
        right. split; [lia|]. split; [reflexivity|]. split; [|split; [exact Hv|exact Hv2]]. exists c, [], n. split; [reflexivity|]. split; [exact HL|]. split; [constructor|]. split; [exact Hn|change (zlen (@nil Z)) with 0; lia]. }
      destruct (classify2_cases c Bc) as [(E & Q)|[(E & Q)|[(E & Q)|[(E & Q)|(E & Q & Q2)]]]]; rewrite E.
      * replace (zlen a + 1) with (zlen (a ++ [c]) + zlen (@nil Z)) by (rewrite zlen_app; change (zlen [c]) with 1; change (zlen (@nil Z)) with 0; lia).
        replace (a ++ c :: l) with ((a ++ [c]) ++ [] ++ l) by (rewrite <- app_assoc; reflexivity). apply IH; [exact HBl|].
        split; [apply utf8_app; [exact HA|exists [[c]]; split; [constructor; [apply u1; exact Q|constructor]|reflexivity]]|]. split; [constructor|]. split; [left; split; reflexivity|].
        intros rest. cbn [app]. apply chk_val0.
      * specialize (IH a [c] (zlen a) 1 (Z.land c 31) HBl). change (zlen [c]) with 1 in IH. apply IH.
        rewrite B2 by exact Q. apply Hlead; [left; lia|lia|lia|change (64 ^ 1) with 64; lia|]. intros rest. rewrite chk_lead by exact Bc. rewrite E. reflexivity.
      * specialize (IH a [c] (zlen a) 2 (Z.land c 15) HBl). change (zlen [c]) with 1 in IH. apply IH.
        rewrite B3 by exact Q. apply Hlead; [right; left; lia|lia|lia|change (64 ^ 2) with 4096; lia|]. intros rest. rewrite chk_lead by exact Bc. rewrite E. reflexivity.
      * specialize (IH a [c] (zlen a) 3 (Z.land c 7) HBl). change (zlen [c]) with 1 in IH. apply IH.
        rewrite B4 by exact Q. apply Hlead; [right; right; lia|lia|lia|change (64 ^ 3) with 262144; lia|]. intros rest. rewrite chk_lead by exact Bc. rewrite E. reflexivity.
      * cbn [fst snd]. apply Herr; [reflexivity|]. intros ext He. rewrite chk_lead by exact Bc. rewrite E. reflexivity.
    + destruct HS as [(H1 & _)|(H1 & -> & HI & Hv0 & Hv1)]; [lia|].
      assert (64 ^ nb = 64 * 64 ^ (nb - 1)) as Hp by (rewrite <- Z.pow_succ_r by lia; f_equal; lia).
      assert (1 <= 64 ^ (nb - 1)) as Hp1 by (apply (Z.pow_le_mono_r 64 0 (nb - 1)); lia).
      assert (0 <= val < 2 ^ 26) as Hv by nia.
      destruct (byte_bits c Bc) as (B1 & B2 & _). rewrite B1. destruct (contb c) eqn:Ec; cbn [negb].
      2:{ cbn [fst snd]. apply Herr; [reflexivity|]. intros ext He. rewrite chk_cont by (try assumption; lia). rewrite Ec. reflexivity. }
      assert (cont c) as Cc by (apply contb_iff; exact Ec). rewrite (B2 Cc). rewrite Z.shiftl_mul_pow2 by lia. change (2 ^ 6) with 64.
      assert (128 <= c <= 191) as Cc' by exact Cc.
      rewrite Z.mod_small by lia. cbv zeta.
      assert (forall rest, checkUtf8_loop ((u ++ [c]) ++ rest) 0 0 = if (nb =? 1) && bad_val (val * 64 + (c - 128)) then false else checkUtf8_loop rest (nb - 1) (val * 64 + (c - 128))) as HC'.
      { intros rest. rewrite <- app_assoc. cbn [app]. rewrite HC. rewrite chk_cont by (try assumption; lia). rewrite Ec. reflexivity. }
      replace (nb - 1 =? 0) with (nb =? 1) by (destruct (Z.eqb_spec nb 1), (Z.eqb_spec (nb - 1) 0); try lia; reflexivity).
      destruct ((nb =? 1) && bad_val (val * 64 + (c - 128))) eqn:EB.
      { cbn [fst snd]. apply andb_true_iff in EB as (EB1 & EB2). apply Z.eqb_eq in EB1. apply Herr; [lia|]. intros ext He. rewrite chk_cont by (try assumption; lia). rewrite Ec. cbv zeta. rewrite EB1, EB2. reflexivity. }
      destruct (Z.eqb_spec nb 1) as [E1|E1].
      * subst nb. change (1 - 1) with 0 in *.
        replace (zlen a + zlen u + 1) with (zlen (a ++ u ++ [c]) + zlen (@nil Z)) by (rewrite !zlen_app; change (zlen [c]) with 1; change (zlen (@nil Z)) with 0; lia).
        replace (a ++ u ++ c :: l) with ((a ++ u ++ [c]) ++ [] ++ l) by (rewrite <- !app_assoc; reflexivity). apply IH; [exact HBl|].
        split.
        { apply utf8_app; [exact HA|]. apply checkUtf8_iff; [apply Forall_app; split; [exact HU|constructor; [exact Bc|constructor]]|].
          unfold checkUtf8. rewrite <- (app_nil_r (u ++ [c])). rewrite HC'. reflexivity. }
        split; [constructor|]. split; [left; split; reflexivity|]. intros rest. cbn [app]. apply chk_val0.
      * replace (zlen a + zlen u + 1) with (zlen a + zlen (u ++ [c])) by (rewrite zlen_app; change (zlen [c]) with 1; lia).
        replace (a ++ u ++ c :: l) with (a ++ (u ++ [c]) ++ l) by (rewrite <- !app_assoc; reflexivity). 
        destruct HI as (c0 & cs0 & n & -> & HL & HF & Hk & Hn).
        apply IH; [exact HBl|].
        split; [exact HA|]. split; [apply Forall_app; split; [exact HU|constructor; [exact Bc|constructor]]|]. split; [|exact HC'].
        right. split; [lia|]. split; [reflexivity|]. split.
        -- exists c0, (cs0 ++ [c]), n. split; [reflexivity|]. split; [exact HL|]. split; [apply Forall_app; split; [exact HF|constructor; [exact Cc|constructor]]|]. split; [lia|]. rewrite zlen_app. change (zlen [c]) with 1. lia.
        -- split; [lia|]. rewrite Hp in Hv1. clear - Hv1 Hp1 Cc' Hv0. nia.
Qed.
End Ptr.
