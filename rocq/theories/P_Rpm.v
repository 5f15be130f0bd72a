From Verif Require Import Base StreamSpec P_Stream M_Buffered P_Entry ArchiveSpec M_Ar M_Cpio P_Cpio M_Detect TextSpec M_Text T_Text M_Rpm RpmSpec.

Lemma be32_in big b o : 0 <= o -> o + 4 <= zlen b -> exists v, be32 big b o = Ret v.
Proof. intros H1 H2. unfold be32. destruct (Z.leb_spec 0 o); [|lia]. destruct (Z.leb_spec (o + 4) (zlen b)); [|lia]. eexists; reflexivity. Qed.
Lemma be32_at big pre f post n : big4 f n -> be32 big (pre ++ f ++ post) (zlen pre) = Ret n.
Proof.
  intros (a & b & c & d & -> & Ha & Hb & Hc & Hd & ->). pose proof (zlen_nonneg pre). pose proof (zlen_nonneg post). unfold be32.
  rewrite !zlen_app. change (zlen [a;b;c;d]) with 4. destruct (Z.leb_spec 0 (zlen pre)); [|lia]. destruct (Z.leb_spec (zlen pre + 4) (zlen pre + (4 + zlen post))); [|lia]. cbn [andb].
  rewrite slice_app_r by lia. rewrite Z.sub_diag. change (slice ([a;b;c;d] ++ post) 0 4) with [a;b;c;d]. f_equal.
  destruct (C18_32 big [a;b;c;d]) as (_ & _ & _ & ->); [repeat (apply Forall_cons; [unfold B64Spec.byte; lia|]); apply Forall_nil|reflexivity|].
  cbn [rev app le_value]. unfold twos. change (256 ^ 4 / 2) with 2147483648. destruct (Z.ltb_spec (d + 256 * (c + 256 * (b + 256 * (a + 256 * 0)))) 2147483648); lia.
Qed.
Lemma big4_range f n : big4 f n -> 0 <= n <= INT32_MAX /\ zlen f = 4.
Proof. intros (a & b & c & d & -> & Ha & Hb & Hc & Hd & ->). unfold INT32_MAX. split; [lia|reflexivity]. Qed.
Lemma ie_len hs e : rpm_index_entry hs e -> zlen e = 16.
Proof. intros (tag & ty & off & o & ct & -> & H1 & H2 & H3 & H4 & _). apply big4_range in H4. rewrite !zlen_app. lia. Qed.
Lemma concat_len hs ix : Forall (rpm_index_entry hs) ix -> zlen (concat ix) = 16 * zlen ix.
Proof. induction 1 as [|e ix He H IH]; [reflexivity|]. cbn [concat]. rewrite zlen_app, zlen_cons, (ie_len _ _ He). lia. Qed.

Lemma rpm_index_ok big hs store : forall ix dn, zlen dn = 16 * (zlen dn / 16) -> Forall (rpm_index_entry hs) ix ->
  rpm_index big (dn ++ concat ix ++ store) (zlen dn / 16 + zlen ix) hs (length ix) (zlen dn / 16) = Ret true.
Proof.
  induction ix as [|e ix IH]; intros dn Hd Hx; [reflexivity|]. inversion Hx as [|? ? He Hx']; subst. cbn [length rpm_index].
  assert (zlen (concat ix) = 16 * zlen ix) as Lc by (eapply concat_len; eassumption). assert (Le := ie_len _ _ He).
  set (b := dn ++ concat (e :: ix) ++ store). set (i := zlen dn / 16) in *.
  pose proof (zlen_nonneg ix). pose proof (zlen_nonneg dn). pose proof (zlen_nonneg store).
  assert (zlen b = zlen dn + 16 + 16 * zlen ix + zlen store) as Lb by (unfold b; cbn [concat]; rewrite !zlen_app; lia).
  destruct (be32_in big b (i * 16)) as (v1 & ->); [lia..|]. cbn [bind].
  destruct (be32_in big b (i * 16 + 4)) as (v2 & ->); [lia..|]. cbn [bind].
  destruct He as (tag & ty & off & o & ct & He & A1 & A2 & A3 & A4 & A5).
  assert (be32 big b (i * 16 + 8) = Ret o) as ->.
  { unfold b. cbn [concat]. rewrite He. rewrite <- !app_assoc. replace (i * 16 + 8) with (zlen (dn ++ tag ++ ty)) by (rewrite !zlen_app; lia).
    replace (dn ++ tag ++ ty ++ off ++ ct ++ concat ix ++ store) with ((dn ++ tag ++ ty) ++ off ++ ct ++ concat ix ++ store) by (rewrite <- !app_assoc; reflexivity). apply (be32_at big (dn ++ tag ++ ty) off). exact A4. }
  cbn [bind]. destruct (Z.ltb_spec o 0); [lia|]. destruct (Z.leb_spec hs o); [lia|]. cbn [orb].
  destruct (be32_in big b (i * 16 + 12)) as (v3 & ->); [lia..|]. cbn [bind]. rewrite zlen_cons.
  assert (exists v4, (if i <? i + (1 + zlen ix) - 1 then be32 big b (i * 16 + 8 + 16) else Ret hs) = Ret v4) as (v4 & ->).
  { destruct (Z.ltb_spec i (i + (1 + zlen ix) - 1)); [|eexists; reflexivity]. apply be32_in; lia. }
  cbn [bind]. unfold b. cbn [concat]. rewrite <- app_assoc. rewrite app_assoc.
  assert (zlen (dn ++ e) / 16 = i + 1) as Ei by (rewrite zlen_app, Le; symmetry; apply Z.div_unique with 0; lia).
  replace (i + (1 + zlen ix)) with (i + 1 + zlen ix) by lia. rewrite <- Ei. apply IH; [rewrite Ei, zlen_app, Le; lia|exact Hx'].
Qed.

Section Rpm.
Context {P : Type}.
Variables (par : ops P Z) (full : list Z) (lim : Z).
Let R := Conforms par full False lim.
Let HS : sim par full False lim R := conforms_sim par full False lim.
Hypothesis Hlim : 96 <= lim.

Lemma slice_mid (pre a post : list Z) k : k = zlen a -> slice (pre ++ a ++ post) (zlen pre) k = a.
Proof. intros ->. rewrite slice_app_r by lia. rewrite Z.sub_diag. rewrite slice_app_l by (pose proof (zlen_nonneg a); lia). apply slice_all. Qed.
(** reading exactly the bytes [a] that come next *)
Lemma read_mid p v pre a post : R p v -> full = pre ++ a ++ post -> v_pos v = zlen pre -> 1 <= zlen a <= lim -> zlen a <= INT32_MAX ->
  exists p', o_read par p (zlen a) (zlen a) = Ret (p', zlen a, a) /\ R p' (mkView (zlen pre + zlen a) (zlen pre) (zlen pre + zlen a)).
Proof.
  intros HR Hf Hv Ha Hb. pose proof (zlen_nonneg post).
  destruct (gread_exact par full lim R HS p v (zlen a)) as (p' & E & H'); [exact HR|lia|lia|rewrite Hf, !zlen_app; lia|].
  rewrite Hv in *. exists p'. split; [|exact H']. rewrite E. do 2 f_equal. rewrite Hf. apply slice_mid. reflexivity.
Qed.
Lemma section_ok big p v pre n h post : rpm_struct n h -> R p v -> full = pre ++ h ++ post -> v_pos v = zlen pre ->
  exists ix store rest p', h = rest ++ concat ix ++ store /\ zlen rest = 16 /\ rpm_section par big p = Ret (p', Some (zlen ix, zlen store)) /\
    R p' (mkView (zlen pre + 16) (zlen pre) (zlen pre + 16)) /\ Forall (rpm_index_entry (zlen store)) ix /\ n = 16 * zlen ix + zlen store /\ 1 <= n /\
    zlen ix <= INT32_MAX.
Proof.
  intros (res & fn & fs & ix & store & Hh & H1 & H2 & H3 & H4 & H5 & H6) HR Hf Hv.
  destruct (big4_range _ _ H2) as (B1 & B2). destruct (big4_range _ _ H3) as (B3 & B4).
  set (m := [142;173;232;1] ++ res ++ fn ++ fs).
  assert (zlen m = 16) as Lm by (unfold m; rewrite !zlen_app; change (zlen [142;173;232;1]) with 4; lia).
  assert (h = m ++ concat ix ++ store) as Hm by (rewrite Hh; unfold m; rewrite <- !app_assoc; reflexivity).
  destruct (read_mid p v pre m (concat ix ++ store ++ post)) as (p' & E & H'); [exact HR|rewrite Hf, Hm, <- !app_assoc; reflexivity|exact Hv|lia|unfold INT32_MAX; lia|].
  exists ix, store, m, p'. split; [exact Hm|]. split; [exact Lm|]. rewrite Lm in *. split; [|split; [exact H'|split; [exact H4|split; [exact H5|split; [exact H6|lia]]]]].
  unfold rpm_section. rewrite E; cbn [bind]. change (negb (16 =? 16)) with false. cbn iota.
  assert (memeq m 0 headmagic = Ret true) as ->.
  { unfold memeq. rewrite Lm. change (zlen headmagic) with 4. cbn [andb Z.leb Z.add]. change (0 <=? 0) with true. change (0 + 4 <=? 16) with true. cbn [andb]. reflexivity. }
  cbn [bind negb].
  assert (be32 big m 8 = Ret (zlen ix)) as ->.
  { unfold m. rewrite (app_assoc _ res). replace 8 with (zlen ([142;173;232;1] ++ res)) by (rewrite zlen_app, H1; reflexivity). apply be32_at. exact H2. }
  cbn [bind]. assert (be32 big m 12 = Ret (zlen store)) as ->.
  { unfold m. rewrite <- (app_nil_r fs). rewrite (app_assoc res fn), (app_assoc _ (res ++ fn)). replace 12 with (zlen ([142;173;232;1] ++ res ++ fn)) by (rewrite !zlen_app, H1, B2; reflexivity). apply be32_at. exact H3. }
  reflexivity.
Qed.
Lemma section_len n h : rpm_struct n h -> zlen h = 16 + n.
Proof.
  intros (res & fn & fs & ix & store & Hh & H1 & H2 & H3 & H4 & H5 & H6). apply big4_range in H2, H3. rewrite Hh, !zlen_app, (concat_len _ _ H4). change (zlen [142;173;232;1]) with 4. lia.
Qed.
Definition kind_of (k : compression) : pkind := match k with Bzip2ed => PkBz2 | Lzmaed => PkLzma | Gzipped => PkGzip end.
Lemma sniff k pay : 16 <= zlen pay -> starts_with k pay ->
  (let* z := bz2_check (slice pay 0 16) in
   if z then Ret (Some PkBz2)
   else let* l := lzma_check (slice pay 0 16) in
        if l then Ret (Some PkLzma) else let* g := gzip_check (slice pay 0 16) in Ret (if g then Some PkGzip else None)) = Ret (Some (kind_of k)).
Proof.
  intros Hl Hs. destruct k; cbn [starts_with kind_of] in *.
  - destruct Hs as (h & lv & t & Hh & ->). do 6 (destruct t as [|? t]; [unfold zlen in Hl; cbn in Hl; lia|]). unfold slice.
    destruct Hh as [-> | ->]; cbn [skipn firstn app Z.to_nat]; reflexivity.
  - destruct Hs as (d & t & -> & Hd). do 3 (destruct t as [|? t]; [unfold zlen in Hl; cbn in Hl; lia|]).
    set (s := slice _ 0 16). assert (s = [93; 0; 0; d; 0; 255;255;255;255;255;255;255;255;z;z0;z1]) as -> by reflexivity.
    set (l := [93; 0; 0; d; 0; 255;255;255;255;255;255;255;255;z;z0;z1]).
    assert (bz2_check l = Ret false) as -> by reflexivity. cbn [bind].
    assert (lzma_check l = Ret true) as ->; [|reflexivity]. unfold lzma_check.
    assert (rd_le 4 l 1 = Ret (0 + 256 * (0 + 256 * (d + 256 * (0 + 256 * 0))))) as -> by reflexivity.
    assert (rd_le 8 l 5 = Ret 18446744073709551615) as -> by reflexivity.
    assert (M_Kmp.rdc l 0 = Ret 93) as -> by reflexivity. assert (M_Kmp.rdc l 1 = Ret 0) as -> by reflexivity.
    assert (zlen l = 16) as -> by reflexivity. change (16 <? 5 + 8) with false. cbn [bind negb Z.eqb Pos.eqb]. change (93 =? 93) with true. change (0 =? 0) with true. cbn [negb bind].
    change (18446744073709551615 <? 9223372036854775808) with false. cbn iota. change (18446744073709551615 - 18446744073709551616) with (-1). change (-1 =? -1) with true. change (93 <? 9 * 5 * 5) with true. cbn [andb orb].
    set (dic := if _ <? 4096 then 4096 else _). assert (dic <= 33554432) as Hdic by (unfold dic; destruct (_ <? 4096); lia).
    destruct (Z.leb_spec dic 33554432); [|lia]. reflexivity.
  - destruct Hs as (t & ->). do 14 (destruct t as [|? t]; [unfold zlen in Hl; cbn in Hl; lia|]). reflexivity.
Qed.
Lemma rpm_open_ok big p v pre bytes pay k : R p v -> full = pre ++ bytes -> v_pos v = zlen pre -> rpm_file lim bytes pay ->
  16 <= zlen pay -> starts_with k pay ->
  exists p' v', rpm_open par big p = Ret (p', Some (kind_of k)) /\ R p' v' /\ skipn (Z.to_nat (v_pos v')) full = pay.
Proof.
  intros HR Hf Hv (lead & sg & pad & hd & n1 & n2 & Hb & L1 & S1 & L2 & L3 & S2 & L4 & L5 & L6 & L7) Hp Hk.
  pose proof (zlen_nonneg pre). unfold rpm_open.
  destruct (read_mid p v pre lead (sg ++ pad ++ hd ++ pay)) as (p1 & E1 & R1); [exact HR|rewrite Hf, Hb; reflexivity|exact Hv|lia|unfold INT32_MAX; lia|].
  rewrite L1 in E1. rewrite E1; cbn [bind]. change (negb (96 =? 96)) with false. cbn iota.
  destruct (section_ok big p1 _ (pre ++ lead) n1 sg (pad ++ hd ++ pay) S1 R1) as (ix & store & m & p2 & Hs & Lm & E2 & R2 & Hx & Hn & Hn1 & Hi).
  { rewrite Hf, Hb, <- !app_assoc. reflexivity. } { cbn [v_pos]. rewrite zlen_app. reflexivity. }
  rewrite E2; cbn [bind]. pose proof (zlen_nonneg ix). pose proof (zlen_nonneg store).
  rewrite (chk32_ok (zlen ix * 16)) by (unfold INT32_MIN; lia). cbn [bind].
  rewrite (chk32_ok (zlen ix * 16 + zlen store)) by (unfold INT32_MIN; lia). cbn [bind].
  replace (zlen ix * 16 + zlen store) with n1 by lia.
  assert ((if Z.rem n1 8 =? 0 then Ret n1 else chk32 (n1 + (8 - Z.rem n1 8))) = Ret (n1 + zlen pad)) as ->.
  { rewrite Z.rem_mod_nonneg by lia. pose proof (Z.mod_pos_bound n1 8 ltac:(lia)). 
    assert (zlen pad = (if n1 mod 8 =? 0 then 0 else 8 - n1 mod 8)) as Lp.
    { rewrite Z.add_mod in L3 by lia. rewrite (Z.mod_small (zlen pad)) in L3 by lia. destruct (Z.eqb_spec (n1 mod 8) 0) as [Q|Q].
      - rewrite Q in L3. cbn [Z.add] in L3. rewrite Z.mod_small in L3 by lia. exact L3.
      - destruct (Z.lt_ge_cases (n1 mod 8 + zlen pad) 8) as [W|W]; [rewrite Z.mod_small in L3 by lia; lia|].
        assert ((n1 mod 8 + zlen pad) mod 8 = n1 mod 8 + zlen pad - 8) as W2 by (symmetry; apply Z.mod_unique with 1; lia). lia. }
    rewrite Lp. destruct (n1 mod 8 =? 0) eqn:Q; [f_equal; lia|]. apply chk32_ok. unfold INT32_MIN. lia. }
  cbn [bind].
  assert (zlen (concat ix ++ store ++ pad) = n1 + zlen pad) as Lb by (rewrite !zlen_app, (concat_len _ _ Hx); lia).
  destruct (read_mid p2 _ ((pre ++ lead) ++ m) (concat ix ++ store ++ pad) (hd ++ pay) R2) as (p3 & E3 & R3).
  { rewrite Hf, Hb, Hs, <- !app_assoc. reflexivity. } { cbn [v_pos]. rewrite (zlen_app (pre ++ lead) m). lia. } { lia. } { lia. }
  rewrite Lb in E3. rewrite E3; cbn [bind]. rewrite Z.eqb_refl. cbn [negb].
  destruct (section_ok big p3 _ (((pre ++ lead) ++ m) ++ concat ix ++ store ++ pad) n2 hd pay S2 R3) as (ix2 & store2 & m2 & p4 & Hs2 & Lm2 & E4 & R4 & Hx2 & Hn2 & Hn22 & Hi2).
  { rewrite Hf, Hb, Hs, <- !app_assoc. reflexivity. } { cbn [v_pos]. rewrite (zlen_app ((pre ++ lead) ++ m)). reflexivity. }
  rewrite E4; cbn [bind]. pose proof (zlen_nonneg ix2). pose proof (zlen_nonneg store2).
  rewrite (chk32_ok (zlen ix2 * 16)) by (unfold INT32_MIN; lia). cbn [bind].
  rewrite (chk32_ok (zlen ix2 * 16 + zlen store2)) by (unfold INT32_MIN; lia). cbn [bind].
  replace (zlen ix2 * 16 + zlen store2) with n2 by lia.
  assert (zlen (concat ix2 ++ store2) = n2) as Lb2 by (rewrite !zlen_app, (concat_len _ _ Hx2); lia).
  set (pre4 := (((pre ++ lead) ++ m) ++ concat ix ++ store ++ pad)) in *.
  assert (full = pre4 ++ hd ++ pay) as Hf4 by (rewrite Hf, Hb, Hs; unfold pre4; rewrite <- !app_assoc; reflexivity).
  destruct (read_mid p4 _ (pre4 ++ m2) (concat ix2 ++ store2) pay R4) as (p5 & E5 & R5).
  { rewrite Hf4, Hs2, <- !app_assoc. reflexivity. } { cbn [v_pos]. rewrite (zlen_app pre4 m2). lia. } { lia. } { lia. }
  rewrite Lb2 in E5. rewrite E5; cbn [bind]. rewrite Z.eqb_refl. cbn [negb].
  assert (Hix := rpm_index_ok big (zlen store2) store2 ix2 [] eq_refl Hx2). change (zlen (@nil Z) / 16) with 0 in Hix. cbn [app] in Hix. rewrite Z.add_0_l in Hix.
  replace (Z.to_nat (zlen ix2)) with (length ix2) by (unfold zlen; lia). rewrite Hix. cbn [bind negb].
  set (pre5 := (pre4 ++ m2) ++ concat ix2 ++ store2).
  assert (full = pre5 ++ pay) as Hf5 by (rewrite Hf4, Hs2; unfold pre5; rewrite <- !app_assoc; reflexivity).
  replace (zlen (pre4 ++ m2) + zlen (concat ix2 ++ store2)) with (zlen pre5) in R5 by (unfold pre5; rewrite !zlen_app; lia).
  assert (o_pos par p5 = zlen pre5) as -> by (exact (sim_pos _ _ _ _ _ HS _ _ R5)).
  destruct (gread_exact par full lim R HS p5 _ 16 R5) as (p6 & E6 & R6); [lia|unfold INT32_MAX; lia|cbn [v_pos]; rewrite Hf5, zlen_app; lia|].
  cbn [v_pos] in E6, R6. rewrite E6; cbn [bind]. change (negb (16 =? 16)) with false. cbn iota.
  destruct (sim_reset _ _ _ _ _ p6 _ (zlen pre5) HS R6) as (p7 & rr & E7 & [[G7 R7]|(_ & [])]); [rewrite Hf5, zlen_app; pose proof (zlen_nonneg pre5); lia|].
  rewrite E7; cbn [bind]. cbn [next_view v_lo v_hi] in R7. destruct (Z.leb_spec (zlen pre5) (zlen pre5)); [|lia]. destruct (Z.leb_spec (zlen pre5) (zlen pre5 + 16)); [|lia]. cbn [andb] in R7.
  assert (slice full (zlen pre5) 16 = slice pay 0 16) as -> by (rewrite Hf5, slice_app_r by lia; rewrite Z.sub_diag; reflexivity).
  assert (Sn := sniff k pay Hp Hk).
  exists p7; eexists. split; [|split; [exact R7|]].
  - destruct (bz2_check (slice pay 0 16)) as [[]| | |]; cbn [bind] in *; try discriminate; [congruence|].
    destruct (lzma_check (slice pay 0 16)) as [[]| | |]; cbn [bind] in *; try discriminate; [congruence|].
    destruct (gzip_check (slice pay 0 16)) as [g| | |]; cbn [bind] in *; try discriminate. congruence.
  - cbn [v_pos]. rewrite Hf5. unfold zlen. rewrite Nat2Z.id. rewrite skipn_app, skipn_all, Nat.sub_diag. reflexivity.
Qed.
End Rpm.
