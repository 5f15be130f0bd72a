(** C15-C19.  Specifications: TextSpec.v. *)
From Verif Require Import Base M_Text TextSpec B64Spec P_Base64 P_Text P_Text2.

(** * C15 *)
Theorem C15_checkUtf8 : forall l, Forall byte l -> (checkUtf8 l = true <-> utf8_valid l).
Proof. exact checkUtf8_iff. Qed.
(** every text of XML characters, encoded as UTF-8, is accepted *)
Theorem C15_accepts_text : forall vs, Forall xml_char vs -> checkUtf8 (concat (map utf8_encode vs)) = true.
Proof.
  intros vs H. apply checkUtf8_iff.
  - apply utf8_bytes. exists (map utf8_encode vs). split; [|reflexivity]. apply Forall_map. eapply Forall_impl; [|exact H]. exact encode_uchar.
  - exists (map utf8_encode vs). split; [|reflexivity]. apply Forall_map. eapply Forall_impl; [|exact H]. exact encode_uchar.
Qed.
(** the encoding of a surrogate or of U+FFFE, U+FFFF anywhere in the text makes it invalid *)
Theorem C15_rejects_forbidden : forall a v b, utf8_valid a -> Forall byte b -> forbidden v -> checkUtf8 (a ++ utf8_encode v ++ b) = false.
Proof.
  intros a v b Ha Hb Hv. unfold checkUtf8. rewrite chk_valid_app by exact Ha.
  assert (55296 <= v <= 65535) as Hr by (unfold forbidden in Hv; lia).
  unfold utf8_encode. destruct (Z.ltb_spec v 128); [lia|]. destruct (Z.ltb_spec v 2048); [lia|]. destruct (Z.ltb_spec v 65536); [|lia].
  pose proof (Z.div_mod v 64 ltac:(lia)). pose proof (Z.mod_pos_bound v 64 ltac:(lia)).
  pose proof (Z.div_mod (v / 64) 64 ltac:(lia)). pose proof (Z.mod_pos_bound (v / 64) 64 ltac:(lia)).
  assert (v / 4096 = v / 64 / 64) as E1 by (rewrite Z.div_div by lia; reflexivity). rewrite E1.
  set (q := v / 64) in *. set (q2 := q / 64) in *. set (r1 := q mod 64) in *. set (r0 := v mod 64) in *.
  cbn [app]. assert (byte (224 + q2)) as B1 by (unfold byte; lia). rewrite chk_lead by exact B1.
  destruct (classify2_cases _ B1) as [(E & Q)|[(E & Q)|[(E & Q)|[(E & Q)|(E & Q & Q2)]]]]; rewrite E; try lia.
  assert (contb (128 + r1) = true) as C1 by (apply contb_iff; unfold cont; lia).
  assert (contb (128 + r0) = true) as C0 by (apply contb_iff; unfold cont; lia).
  rewrite chk_cont by (unfold byte; lia). rewrite C1. cbv zeta. change (2 =? 1) with false. cbn [andb]. change (2 - 1) with 1.
  rewrite chk_cont by (unfold byte; lia). rewrite C0. cbv zeta. change (1 =? 1) with true. cbn [andb].
  replace (((224 + q2 - 224) * 64 + (128 + r1 - 128)) * 64 + (128 + r0 - 128)) with v by lia.
  apply bad_iff in Hv. rewrite Hv. reflexivity.
Qed.
Example C15_case : checkUtf8 (concat (map utf8_encode [72; 233; 8364; 128512; 10])) = true /\
  utf8_encode 8364 = [226; 130; 172] /\ utf8_encode 128512 = [240; 159; 152; 128] /\ Forall xml_char [72; 233; 8364; 128512; 10] /\
  checkUtf8 [226; 130] = false /\ checkUtf8 [128] = false /\ checkUtf8 [237; 160; 128] = false /\ checkUtf8 [0] = false.
Proof.
  split; [vm_compute; reflexivity|]. split; [vm_compute; reflexivity|]. split; [vm_compute; reflexivity|].
  split; [repeat apply Forall_cons; try apply Forall_nil; unfold xml_char; lia|]. split; [vm_compute; reflexivity|]. split; [vm_compute; reflexivity|]. split; vm_compute; reflexivity.
Qed.
(** the grammar is larger than UTF-8 (RFC 3629): an overlong form and a value above U+10FFFF are accepted *)
Theorem C15_overlong_refuted : checkUtf8 [224; 128; 175] = true /\ checkUtf8 [244; 144; 128; 128] = true /\
  ~ exists v, utf8_encode v = [224; 128; 175].
Proof.
  split; [vm_compute; reflexivity|]. split; [vm_compute; reflexivity|]. intros (v & H). unfold utf8_encode in H.
  destruct (Z.ltb_spec v 128); [discriminate|]. destruct (Z.ltb_spec v 2048); [discriminate|]. destruct (Z.ltb_spec v 65536); [|discriminate].
  assert (224 + v / 4096 = 224 /\ 128 + (v / 64) mod 64 = 128) as (Ha & Hb) by (split; congruence). clear H. assert (v / 4096 = 0) as Hz by lia. apply Z.div_small_iff in Hz; [|lia].
  assert (v / 64 mod 64 = 0) as Hb' by lia. assert (32 <= v / 64) by (apply Z.div_le_lower_bound; lia).
  assert (v / 64 < 64) by (apply Z.div_lt_upper_bound; lia). rewrite Z.mod_small in Hb' by lia. lia.
Qed.

(** * C16: the version that reports a position.  [None] is the null pointer *)
Theorem C16_result : forall l r nb, Forall byte l -> checkUtf8p l = (r, nb) ->
  match r with
  | None => nb = 0 /\ utf8_valid l
  | Some p => 0 <= p < zlen l /\
      let done := firstn (Z.to_nat p) l in
      if nb =? 0 then
        (* byte [p] is the first that no text can contain after what precedes it *)
        (exists a u, done = a ++ u /\ utf8_valid a /\ (u = [] \/ exists k, incomplete u k)) /\
        forall ext, Forall byte ext -> ~ utf8_valid (firstn (Z.to_nat (p + 1)) l ++ ext)
      else
        (* the last character starts at [p] and [nb] bytes are missing *)
        utf8_valid done /\ incomplete (skipn (Z.to_nat p) l) nb
  end.
Proof.
  intros l r nb HB E. pose proof (ptr_ok l [] [] 0 0 0 HB) as H. cbn [app] in H. change (zlen (@nil Z) + zlen (@nil Z)) with 0 in H.
  unfold checkUtf8p in E. rewrite E in H. cbn [fst snd] in H.
  destruct H as [(-> & -> & H)|[(p & -> & Hp & Hn & H1 & H2)|(p & -> & Hp & -> & H1 & H2)]].
  - split; [exists []; split; [constructor|reflexivity]|]. split; [constructor|]. split; [left; split; reflexivity|]. intros; reflexivity.
  - tauto.
  - split; [lia|]. cbv zeta. destruct (Z.eqb_spec nb 0); [lia|]. tauto.
  - split; [lia|]. cbv zeta. cbn [Z.eqb]. tauto.
Qed.
Theorem C16_agrees : forall l, Forall byte l -> (fst (checkUtf8p l) = None <-> checkUtf8 l = true).
Proof.
  intros l HB. destruct (checkUtf8p l) as (r, nb) eqn:E. pose proof (C16_result l r nb HB E) as H. cbn [fst]. rewrite checkUtf8_iff by exact HB.
  destruct r as [p|]; [|tauto]. split; [discriminate|]. intros HV. exfalso. destruct H as (Hp & H). cbv zeta in H.
  destruct (Z.eqb_spec nb 0).
  - destruct H as (_ & H). apply (H (skipn (Z.to_nat (p + 1)) l)).
    + rewrite <- (firstn_skipn (Z.to_nat (p + 1)) l) in HB. apply Forall_app in HB. tauto.
    + rewrite firstn_skipn. exact HV.
  - destruct H as (H1 & c & cs & n1 & E2 & HL & HF & Hk & Hn).
    apply checkUtf8_iff in HV; [|exact HB]. rewrite <- (firstn_skipn (Z.to_nat p) l) in HV. unfold checkUtf8 in HV. rewrite chk_valid_app in HV by exact H1.
    assert (Forall byte (c :: cs)) as HB2 by (rewrite <- E2; rewrite <- (firstn_skipn (Z.to_nat p) l) in HB; apply Forall_app in HB; tauto).
    rewrite E2 in HV. inversion HB2 as [|? ? Bc Bcs]; subst. rewrite chk_lead in HV by exact Bc.
    assert (forall m v, 0 <= v -> (v + 1) * 64 ^ m <= 2 ^ 26 -> zlen cs < m -> checkUtf8_loop cs m v = false) as Hsh.
    { clear - HF Bcs. induction cs as [|d cs IH]; intros m v Hv Hvm Hm; [change (zlen (@nil Z)) with 0 in Hm; cbn; destruct (Z.eqb_spec m 0); [lia|reflexivity]|].
      rewrite zlen_cons in Hm. pose proof (zlen_nonneg cs). inversion HF as [|? ? Cd HF']; subst. inversion Bcs as [|? ? Bd Bcs']; subst.
      assert (64 ^ m = 64 * 64 ^ (m - 1)) as Hp by (rewrite <- Z.pow_succ_r by lia; f_equal; lia).
      assert (1 <= 64 ^ (m - 1)) as Hp1 by (apply (Z.pow_le_mono_r 64 0 (m - 1)); lia).
      rewrite chk_cont by (try assumption; nia). assert (contb d = true) as -> by (apply contb_iff; exact Cd). cbv zeta.
      destruct (Z.eqb_spec m 1); [lia|]. cbn [andb]. unfold cont in Cd. apply IH; try assumption; try lia. nia. }
    destruct (classify2_cases c Bc) as [(E3 & Q)|[(E3 & Q)|[(E3 & Q)|[(E3 & Q)|(E3 & Q & Q2)]]]]; rewrite E3 in HV; unfold lead_len in HL.
    + lia.
    + rewrite Hsh in HV; [discriminate|lia|change (64 ^ 1) with 64; lia|lia].
    + rewrite Hsh in HV; [discriminate|lia|change (64 ^ 2) with 4096; lia|lia].
    + rewrite Hsh in HV; [discriminate|lia|change (64 ^ 3) with 262144; lia|lia].
    + discriminate.
Qed.
(** a text can be checked in pieces: keep the bytes from the reported position on and
    continue with them *)
Theorem C16_incremental : forall l p nb more, Forall byte l -> checkUtf8p l = (Some p, nb) -> nb <> 0 ->
  checkUtf8 (l ++ more) = checkUtf8 (skipn (Z.to_nat p) l ++ more).
Proof.
  intros l p nb more HB E Hn. pose proof (C16_result l _ nb HB E) as (Hp & H). cbv zeta in H. destruct (Z.eqb_spec nb 0); [lia|].
  destruct H as (HV & _). unfold checkUtf8. rewrite <- (firstn_skipn (Z.to_nat p) l) at 1. rewrite <- app_assoc. apply chk_valid_app. exact HV.
Qed.
Theorem C16_incremental_valid : forall l more, Forall byte l -> fst (checkUtf8p l) = None -> checkUtf8 (l ++ more) = checkUtf8 more.
Proof. intros l more HB E. apply C16_agrees in E; [|exact HB]. apply checkUtf8_iff in E; [|exact HB]. apply chk_valid_app. exact E. Qed.
Example C16_case : checkUtf8p [65; 226; 130] = (Some 1, 1) /\ checkUtf8p [65; 240] = (Some 1, 3) /\ checkUtf8p [65; 226; 130; 172] = (None, 0) /\
  checkUtf8p [65; 226; 65] = (Some 2, 0) /\ checkUtf8p [65; 255; 65] = (Some 1, 0).
Proof. repeat (split; [vm_compute; reflexivity|]). vm_compute; reflexivity. Qed.
(** the position of an error is the offending byte, not the start of the invalid character *)
Theorem C16_position_of_char_refuted : checkUtf8p [226; 130; 65] = (Some 2, 0) /\ utf8_valid [65].
Proof. split; [vm_compute; reflexivity|]. exists [[65]]. split; [constructor; [constructor; lia|constructor]|reflexivity]. Qed.

(** * C17 *)
Theorem C17_valid_text : forall l, utf8_valid l -> convertNewLines l = map (fun c => if (c =? 10) || (c =? 13) then 32 else c) l.
Proof. exact cnl_valid. Qed.
Theorem C17_any_bytes : forall l,
  Forall2 (fun c d => d = c \/ ((c = 10 \/ c = 13) /\ d = 32)) l (convertNewLines l) /\ length (convertNewLines l) = length l /\
  convertNewLines (convertNewLines l) = convertNewLines l.
Proof. intros l. split; [apply cnl_bytes|]. split; [apply cnl_length|apply cnl_idem]. Qed.
Example C17_case : convertNewLines [65; 13; 10; 195; 169; 10] = [65; 32; 32; 195; 169; 32] /\ utf8_valid [65; 13; 10; 195; 169; 10] /\
  convertNewLines [195; 10; 10] = [195; 10; 10].
Proof. split; [vm_compute; reflexivity|]. split; [|vm_compute; reflexivity]. apply checkUtf8_iff; [repeat constructor; unfold byte; lia|vm_compute; reflexivity]. Qed.

(** * C18: on hosts of both byte orders ([big]) *)
Theorem C18_16 : forall big l, Forall byte l -> zlen l = 2 ->
  readLittleEndianUInt16 big l = le_value l /\ readLittleEndianInt16 big l = twos 2 (le_value l) /\
  readBigEndianUInt16 big l = le_value (rev l) /\ readBigEndianInt16 big l = twos 2 (le_value (rev l)).
Proof.
  intros big l HB HL. assert (Forall byte (rev l)) as HR by (apply Forall_rev; exact HB). assert (zlen (rev l) = 2) as HLR by (rewrite zlen_rev; exact HL).
  assert (forall y m, Forall byte m -> zlen m = 2 -> (y = uN 16 (le_value m) \/ y = sN 16 (le_value m)) -> swap16 y = le_value (rev m)) as Hs.
  { intros y m HBm HLm Hy. apply swap16_list; [assumption..|]. intros k Hk1 Hk2. destruct Hy as [-> | ->]; [apply bat_mod|apply bat_sN]; lia. }
  unfold readLittleEndianUInt16, readLittleEndianInt16, readBigEndianUInt16, readBigEndianInt16. rewrite !native_eq. cbv zeta.
  destruct big.
  - rewrite !(Hs _ (rev l)), !rev_involutive by tauto. repeat split; first [apply (uN_small 16 2); tauto|apply (sN_twos 16 2); first [assumption|lia]].
  - rewrite !(Hs _ l) by tauto. repeat split; first [apply (uN_small 16 2); tauto|apply (sN_twos 16 2); first [assumption|lia]].
Qed.
Theorem C18_32 : forall big l, Forall byte l -> zlen l = 4 ->
  readLittleEndianUInt32 big l = le_value l /\ readLittleEndianInt32 big l = twos 4 (le_value l) /\
  readBigEndianUInt32 big l = le_value (rev l) /\ readBigEndianInt32 big l = twos 4 (le_value (rev l)).
Proof.
  intros big l HB HL. assert (Forall byte (rev l)) as HR by (apply Forall_rev; exact HB). assert (zlen (rev l) = 4) as HLR by (rewrite zlen_rev; exact HL).
  assert (forall y m, Forall byte m -> zlen m = 4 -> (y = uN 32 (le_value m) \/ y = sN 32 (le_value m)) -> swap32 y = le_value (rev m)) as Hs.
  { intros y m HBm HLm Hy. apply swap32_list; [assumption..|]. intros k Hk1 Hk2. destruct Hy as [-> | ->]; [apply bat_mod|apply bat_sN]; lia. }
  unfold readLittleEndianUInt32, readLittleEndianInt32, readBigEndianUInt32, readBigEndianInt32. rewrite !native_eq. cbv zeta.
  destruct big.
  - rewrite !(Hs _ (rev l)), !rev_involutive by tauto. repeat split; first [apply (uN_small 32 4); tauto|apply (sN_twos 32 4); first [assumption|lia]].
  - rewrite !(Hs _ l) by tauto. repeat split; first [apply (uN_small 32 4); tauto|apply (sN_twos 32 4); first [assumption|lia]].
Qed.
Theorem C18_64 : forall big l, Forall byte l -> zlen l = 8 ->
  readLittleEndianUInt64 big l = le_value l /\ readLittleEndianInt64 big l = twos 8 (le_value l) /\
  readBigEndianUInt64 big l = le_value (rev l) /\ readBigEndianInt64 big l = twos 8 (le_value (rev l)).
Proof.
  intros big l HB HL. assert (Forall byte (rev l)) as HR by (apply Forall_rev; exact HB). assert (zlen (rev l) = 8) as HLR by (rewrite zlen_rev; exact HL).
  assert (forall y m, Forall byte m -> zlen m = 8 -> (y = uN 64 (le_value m) \/ y = sN 64 (le_value m)) -> swap64 y = le_value (rev m)) as Hs.
  { intros y m HBm HLm Hy. apply swap64_list; [assumption..|]. intros k Hk1 Hk2. destruct Hy as [-> | ->]; [apply bat_mod|apply bat_sN]; lia. }
  unfold readLittleEndianUInt64, readLittleEndianInt64, readBigEndianUInt64, readBigEndianInt64. rewrite !native_eq. cbv zeta.
  destruct big.
  - rewrite !(Hs _ (rev l)), !rev_involutive by tauto. repeat split; first [apply (uN_small 64 8); tauto|apply (sN_twos 64 8); first [assumption|lia]].
  - rewrite !(Hs _ l) by tauto. repeat split; first [apply (uN_small 64 8); tauto|apply (sN_twos 64 8); first [assumption|lia]].
Qed.
Example C18_case : readLittleEndianInt32 true [1; 2; 3; 255] = -16580095 /\ readLittleEndianInt32 false [1; 2; 3; 255] = -16580095 /\
  readBigEndianUInt16 false [1; 2] = 258 /\ twos 4 (le_value [1; 2; 3; 255]) = -16580095.
Proof. repeat (split; [vm_compute; reflexivity|]). vm_compute; reflexivity. Qed.
(** the unsigned char* overloads of the 64 bit signed readers read 2 bytes only *)
Theorem C18_unsigned_char_int64_refuted : forall big,
  readLittleEndianInt64_uc big [1; 0; 1; 0; 0; 0; 0; 0] = 1 /\ twos 8 (le_value [1; 0; 1; 0; 0; 0; 0; 0]) = 65537 /\
  readBigEndianInt64_uc big [0; 0; 0; 0; 0; 0; 0; 7] = 0 /\ twos 8 (le_value (rev [0; 0; 0; 0; 0; 0; 0; 7])) = 7.
Proof. intros []; repeat (split; [vm_compute; reflexivity|]); vm_compute; reflexivity. Qed.

(** * C19: the fields that are handed to mktime, for every word *)
Theorem C19_fields_partial : forall mktime y mo d h mi s2,
  1980 <= y -> 1 <= mo <= 12 -> 1 <= d <= 31 -> 0 <= h < 16 -> 0 <= mi < 60 -> 0 <= s2 < 30 ->
  dos2unixtime mktime (dos_word y mo d h mi s2) = mktime (mkTm (y - 1900) (mo - 1) d h mi (2 * s2)).
Proof. intros. unfold dos2unixtime. rewrite dos_fields_ok by lia. rewrite Z.mod_small by lia. reflexivity. Qed.
(** from 16:00 on the hour is wrong *)
Theorem C19_hour_refuted : forall y mo d h mi s2,
  1980 <= y -> 1 <= mo <= 12 -> 1 <= d <= 31 -> 16 <= h < 24 -> 0 <= mi < 60 -> 0 <= s2 < 30 ->
  tm_hour (dos_fields (dos_word y mo d h mi s2)) = h - 16 /\
  tm_year (dos_fields (dos_word y mo d h mi s2)) = y - 1900 /\ tm_mon (dos_fields (dos_word y mo d h mi s2)) = mo - 1 /\
  tm_mday (dos_fields (dos_word y mo d h mi s2)) = d /\ tm_min (dos_fields (dos_word y mo d h mi s2)) = mi /\
  tm_sec (dos_fields (dos_word y mo d h mi s2)) = 2 * s2.
Proof.
  intros. rewrite dos_fields_ok by lia. cbn [tm_hour tm_year tm_mon tm_mday tm_min tm_sec]. repeat split; try lia.
  symmetry. apply (Z.mod_unique _ _ 1); lia.
Qed.
Example C19_case : dos_fields (dos_word 2007 3 21 9 30 22) = mkTm 107 2 21 9 30 44.
Proof. vm_compute; reflexivity. Qed.
