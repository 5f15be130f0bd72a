(** C31: SdfInputStream. Specification: SdfSpec.v. *)
From Verif Require Import Base StreamSpec P_Stream M_StringStream P_StringStream M_Buffered BufferedSpec M_File P_File T_Streams M_Sub ArchiveSpec
  KmpSpec M_Kmp T_Kmp M_Sdf SdfSpec P_Sdf.

(** For every file (in memory, below 2 GB) the entries are exactly those of [sdf_listing], whatever is done with the entry streams.
    Missing from the full claim: [sdf_listing] is not [sdf_records], see the refutations below; other input streams. *)
Theorem C31_listing_partial : forall bytes ms, zlen bytes <= INT32_MAX -> KmpSpec.bytes bytes -> sdf_listing 0 bytes ms ->
  exists a, sdf_new (mkSS bytes (zlen bytes) 0 Ok) = Ret a /\ lists (sdf_provider ss_ops (length bytes + 1)) INT32_MAX ms a.
Proof.
  intros bytes ms Hlen HB Hl. destruct sdf_kmp as (k & Ek & Hk). unfold sdf_new. rewrite Ek. cbn [bind]. eexists; split; [reflexivity|].
  pose proof (zlen_nonneg bytes) as H0.
  eapply (listing_run bytes Hlen HB k Hk (length bytes + 1) ltac:(lia) 0 bytes ms Hl _ 0); cbn [sd_st sd_kmp sd_num]; try reflexivity; try lia.
  - rewrite Z.sub_0_r. apply slice_all.
  - unfold first_part. cbn [sd_cur sd_prev]. rewrite (at_reset bytes _ view0); [reflexivity| |lia].
    unfold ss_R, view_ok. cbn. do 4 (split; [reflexivity || lia|]). split; [congruence|]. intros; discriminate.
Qed.
(** every file has such a listing, so the iteration always ends, without undefined behaviour and with status Eof *)
Theorem C31_every_file : forall bytes, zlen bytes <= INT32_MAX -> KmpSpec.bytes bytes -> exists ms, sdf_listing 0 bytes ms.
Proof. intros bytes Hlen HB. apply (listing_exists (length bytes) bytes 0); [lia|exact HB|lia|]. unfold zlen, INT32_MAX in Hlen. lia. Qed.
(** and only one *)
Theorem C31_one_listing : forall k bytes ms, sdf_listing k bytes ms -> forall ms', sdf_listing k bytes ms' -> ms = ms'.
Proof.
  assert (forall b r1 s1 r2 s2, first_delim b r1 s1 -> first_delim b r2 s2 -> r1 = r2 /\ s1 = s2) as FD.
  { intros b r1 s1 r2 s2 (E1 & F1) (E2 & F2). assert (occurs_at delim b (zlen r1)) as O1 by (rewrite E1; apply occurs_app). assert (occurs_at delim b (zlen r2)) as O2 by (rewrite E2; apply occurs_app).
    assert (zlen r1 = zlen r2) as El. { destruct (Z.lt_trichotomy (zlen r1) (zlen r2)) as [X|[X|X]]; [exfalso; exact (F2 _ X O1)|exact X|exfalso; exact (F1 _ X O2)]. }
    rewrite E1 in E2. apply (f_equal (fun l => (firstn (length r1) l, skipn (length r1) l))) in E2. unfold zlen in El. assert (length r1 = length r2) as El' by lia.
    rewrite El' in E2 at 3 4. rewrite !firstn_app, !skipn_app, !firstn_all, !skipn_all, !Nat.sub_diag in E2. cbn [firstn skipn app] in E2. rewrite !app_nil_r in E2.
    injection E2 as -> E2. auto. }
  assert (forall nl t nl' t', nl ++ t = nl' ++ t' -> Forall newline nl -> Forall newline nl' -> (forall c u, t = c :: u -> ~ newline c) -> (forall c u, t' = c :: u -> ~ newline c) -> t = t') as NL.
  { induction nl as [|c nl IH]; intros t [|c' nl'] t' E H1 H2 H3 H4; cbn [app] in E.
    - exact E.
    - subst t. exfalso. inversion H2; subst. exact (H3 _ _ eq_refl H5).
    - subst t'. exfalso. inversion H1; subst. exact (H4 _ _ eq_refl H5).
    - injection E as -> E. eapply IH; [exact E|inversion H1; assumption|inversion H2; assumption|exact H3|exact H4]. }
  assert (forall r, occurs_at delim (delim ++ r) 0) as O0 by (intros r; exact (occurs_app [] r)).
  induction 1 as [k bytes Hno|k rst|k bytes rec nl t name ms Hfd Hrec Hnl Ht Hname Hms IH]; intros ms' H'; inversion H' as [k2 b2 Hno2|k2 rst2|k2 b2 rec2 nl2 t2 name2 ms2 Hfd2 Hrec2 Hnl2 Ht2 Hname2 Hms2]; subst; try reflexivity.
  - exfalso. destruct Hfd2 as (E & _). apply (Hno (zlen rec2)). rewrite E. apply occurs_app.
  - exfalso. destruct Hfd2 as (_ & F). apply (F 0); [|apply O0]. destruct rec2; [congruence|]. rewrite zlen_cons. pose proof (zlen_nonneg rec2). lia.
  - exfalso. destruct Hfd as (E & _). apply (Hno2 (zlen rec)). rewrite E. apply occurs_app.
  - exfalso. destruct Hfd as (_ & F). apply (F 0); [|apply O0]. destruct rec; [congruence|]. rewrite zlen_cons. pose proof (zlen_nonneg rec). lia.
  - destruct (FD _ _ _ _ _ Hfd Hfd2) as (-> & E). rewrite (NL _ _ _ _ E Hnl Hnl2 Ht Ht2) in *. f_equal; [|apply IH; assumption]. f_equal. f_equal.
    destruct Hname as (l1 & D1 & ->), Hname2 as (l2 & D2 & ->). f_equal. eapply decimal_unique; eassumption.
Qed.
(** the first record is listed exactly *)
Theorem C31_first_record_partial : forall bytes rec rs, zlen bytes <= INT32_MAX -> KmpSpec.bytes bytes -> sdf_records bytes (rec :: rs) -> rec <> [] ->
  exists name ms, entry_name 1 name /\ sdf_listing 0 bytes (mkMember (mkInfo name (zlen rec) 0 2) rec :: ms).
Proof.
  intros bytes rec rs Hlen HB H Hne. inversion H as [|b r eol rst rs' Hfd Heol Hrs]; subst.
  destruct (split_nl (eol ++ rst)) as (nl & t & E & Hnl & Ht). rewrite E in Hfd.
  destruct (listing_exists (length bytes) (tl t) 1) as (ms & Hms).
  - rewrite (proj1 Hfd), !app_length. destruct t; cbn [tl length]; lia.
  - assert (Hb := proj1 Hfd). rewrite Hb in HB. unfold KmpSpec.bytes in *. rewrite !Forall_app in HB. destruct t; cbn [tl]; [constructor|]. destruct HB as (_ & _ & _ & HB). inversion HB; assumption.
  - lia.
  - unfold zlen, INT32_MAX in Hlen. lia.
  - exists ([77;111;108;101;99;117;108;101] ++ print 11 1), ms. assert (entry_name 1 ([77;111;108;101;99;117;108;101] ++ print 11 1)) as Hn.
    { exists (print 11 1). split; [|reflexivity]. apply print_decimal; [lia|]. change (10 ^ Z.of_nat 11) with 100000000000. lia. }
    split; [exact Hn|]. eapply sl_record; try eassumption. 
Qed.

(** "a\n$$$$\nbc\n$$$$\n" *)
Definition two : list Z := [97;10;36;36;36;36;10;98;99;10;36;36;36;36;10].
Lemma no_delim_short l : zlen l < 4 -> forall d, ~ occurs_at delim l d.
Proof. intros H d (H1 & H2 & _). change (zlen delim) with 4 in H2. lia. Qed.
Ltac nodelim := intros d Hd (O1 & O2 & O3); change (zlen delim) with 4 in *; repeat match type of Hd with d < ?n => assert_fails (constr_eq n 0); let m := eval vm_compute in (n - 1) in destruct (Z.eq_dec d m) as [->|]; [vm_compute in O3; congruence|]; assert (d < m) by lia; clear Hd; rename H into Hd end; lia.
Example C31_listing_case : sdf_listing 0 two [mkMember (mkInfo (molecule ++ [49]) 2 0 2) [97;10]; mkMember (mkInfo (molecule ++ [50]) 2 0 2) [99;10]].
Proof.
  apply (sl_record 0 two [97;10] [10] [98;99;10;36;36;36;36;10]).
  - split; [reflexivity|]. change (zlen [97;10]) with 2. nodelim.
  - discriminate.
  - repeat constructor.
  - intros c t H. injection H as <- _. intros [X|X]; discriminate.
  - exists [49]. split; [apply (dec_digit 1); lia|reflexivity].
  - apply (sl_record 1 [99;10;36;36;36;36;10] [99;10] [10] []).
    + split; [reflexivity|]. change (zlen [99;10]) with 2. nodelim.
    + discriminate.
    + repeat constructor.
    + intros c t H. discriminate.
    + exists [50]. split; [apply (dec_digit 2); lia|reflexivity].
    + apply sl_none. cbn [tl]. apply no_delim_short. reflexivity.
Qed.
(** records behind the first one lose their first byte *)
Theorem C31_later_records_refuted : exists bytes r1 r2, sdf_records bytes [r1; r2] /\
  sdf_listing 0 bytes [mkMember (mkInfo (molecule ++ [49]) (zlen r1) 0 2) r1; mkMember (mkInfo (molecule ++ [50]) (zlen (tl r2)) 0 2) (tl r2)].
Proof.
  exists two, [97;10], [98;99;10]. split; [|exact C31_listing_case].
  apply (rc_record two [97;10] [10] [98;99;10;36;36;36;36;10]).
  - split; [reflexivity|]. change (zlen [97;10]) with 2. nodelim.
  - left; reflexivity.
  - apply (rc_record _ [98;99;10] [10] []); [|left; reflexivity|apply rc_none; apply no_delim_short; reflexivity].
    split; [reflexivity|]. change (zlen [98;99;10]) with 3. nodelim.
Qed.
(** a delimiter across the boundary of two reads is not seen: a conforming stream, a delimiter, and nothing is listed *)
Definition straddle : list Z := repeat 97 1022 ++ [36;36;36;36;10].
Theorem C31_read_boundary_refuted : exists bytes (src : source fstate Z) s a a',
  Conforms (bs_ops src) bytes False BUF_LIM s view0 /\ occurs_at delim bytes 1022 /\
  sdf_new s = Ret a /\ sdf_next (bs_ops src) 10 a = Ret (a', None) /\ sd_st a' = Eof.
Proof.
  exists straddle, (file_src straddle (fun _ _ => false)), (bs_new (mkF true 0)).
  destruct sdf_kmp as (k & Ek & _). vm_compute in Ek. injection Ek as <-.
  eexists. eexists (mkSdf (inl (mkBS _ _ _ _ _ _)) _ _ _ _).
  split.
  { eapply C02_buffered_contract; [apply (proj1 (C02_case straddle))|]. apply C02_case. apply zlen_nonneg. }
  split; [unfold occurs_at; split; [lia|]; split; [vm_compute; discriminate|vm_compute; reflexivity]|].
  split; [vm_compute; reflexivity|]. split; [vm_compute; reflexivity|reflexivity].
Qed.
