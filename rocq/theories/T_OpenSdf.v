(** C49: an sdf file in memory is found and listed. Specification: OpenSpec.v and SdfSpec.v. *)
From Coq Require Import Permutation.
From Verif Require Import Base StreamSpec P_Stream ArchiveSpec KmpSpec M_StringStream P_StringStream M_Buffered BufferedSpec M_Text TextSpec M_Inflate InflateSpec P_MagicCodec P_Inflate T_Inflate
  M_Lzma LzmaSpec P_LzCopy M_Detect DetectSpec P_Detect M_Kmp M_Sdf SdfSpec P_Sdf T_Sdf M_MailList MailPartsSpec T_MailList M_Open OpenSpec P_Open T_Zip T_Open P_ListReal2.

Lemma ss_peek x m : x <> [] -> zlen x <= INT32_MAX -> peek ss_ops (mkSS x (zlen x) 0 Ok) m = Ret (mkSS x (zlen x) 0 Ok, zlen x, x).
Proof.
  intros Hne Hx. pose proof (zlen_nonneg x) as H0. assert (0 < zlen x) as H1 by (destruct x; [congruence|]; rewrite zlen_cons; pose proof (zlen_nonneg x); lia).
  unfold peek. cbn [ss_ops o_read o_reset]. rewrite (at_read_ok x Hx 0 m 0) by lia. cbv zeta.
  replace ((zlen x - 0 <? 0) || (0 <? 1)) with true by (rewrite orb_comm; reflexivity). rewrite Z.sub_0_r, Z.add_0_l. cbn [bind].
  rewrite (at_reset' x (zlen x) 0) by lia. cbn [bind]. rewrite slice_all. destruct (Z.ltb_spec 0 (zlen x)); [reflexivity|lia].
Qed.
(** Any file in memory that is not compressed, whose beginning looks like sdf and like no other format, and that has at least one record in
    the sense of SdfSpec.sdf_listing: ArchiveReader finds it whatever the order of the map of formats, and its entries are those of
    the listing.  Missing: sdf in compressed files and other streams, where C31 is false (C31_read_boundary_refuted). *)
Theorem C49_opens_sdf_partial : forall (Dz Dg Db Dl : Type) (cz : codec Dz) (cg : codec Dg) (cb : codec Db) (cl : lzcodec Dl)
    bufsize gas fuel big mktime subs x ms,
  Permutation subs (reader_subs cg cb cl bufsize gas true cz big mktime maxline fuel) ->
  KmpSpec.bytes x -> zlen x <= INT32_MAX -> plain x -> clearly ASdf x -> sdf_listing 0 x ms -> ms <> [] -> (length x < fuel)%nat ->
  exists St (pv : provider St) st i inp,
    open_archive cg cb cl bufsize gas true subs (Any ss_ops (mkSS x (zlen x) 0 Ok) (fun p => p)) = Ret (Found pv st i inp) /\
    at_first (fun s => s = Eof) pv INT32_MAX ms st i.
Proof.
  intros Dz Dg Db Dl cz cg cb cl bufsize gas fuel big mktime subs x ms Hperm HB Hx Hpl (Hne & Hcl) Hl Hms Hf.
  pose proof (zlen_nonneg x) as H0. assert (0 < zlen x) as H1 by (destruct x; [congruence|]; rewrite zlen_cons; pose proof (zlen_nonneg x); lia).
  set (G := fun p => p = mkSS x (zlen x) 0 Ok).
  assert (forall p m, G p -> 1 <= m <= 1024 -> exists p' n c, peek ss_ops p m = Ret (p', n, c) /\ G p' /\ peeked x m n c) as HG.
  { intros p m -> _. do 3 eexists. split; [apply ss_peek; assumption|]. split; [reflexivity|]. unfold peeked. rewrite slice_all. split; [lia|]. split; [reflexivity|]. right; reflexivity. }
  unfold open_archive, unwrap.
  destruct (plain_bz2 cb bufsize gas ss_ops (fun p => p) x G HG Hpl (mkSS x (zlen x) 0 Ok) eq_refl) as (p1 & -> & P1). cbn [bind].
  assert (try_gzip cg bufsize gas (Any ss_ops p1 (fun p => p)) = Ret (Any ss_ops p1 (fun p => p), false)) as ->.
  { unfold G in P1. subst p1. unfold try_gzip. rewrite ss_peek by assumption. cbn [bind]. destruct (Z.leb_spec 2 (zlen x)) as [H2|H2]; cbn [bind]; [|reflexivity].
    assert (exists c0 c1 t, x = c0 :: c1 :: t) as (c0 & c1 & t & Ec). { clear - H2. destruct x as [|c0 [|c1 t]]; [change (zlen (@nil Z)) with 0 in H2; lia|change (zlen [c0]) with 1 in H2; lia|eauto]. }
    rewrite Ec. cbn [bind]. destruct (Z.eqb_spec c0 31), (Z.eqb_spec c1 139); cbn [andb]; try reflexivity. exfalso. apply (proj1 (proj2 Hpl)). exists t. congruence. }
  cbn [bind].
  destruct (plain_lzma cl bufsize gas ss_ops (fun p => p) x G HG Hpl HB p1 P1) as (p3 & -> & P3). cbn [bind orb].
  unfold G in P3. subst p3. rewrite ss_peek by assumption. cbn [bind].
  assert (header x x) as Hh. { exists (zlen x). split; [symmetry; apply slice_all|]. split; [lia|]. right; reflexivity. }
  assert (forall k', exists b, su_check (sub_of cz cg cb cl bufsize gas fuel big mktime k') x = Ret b /\ (b = true <-> k' = ASdf)) as Hck.
  { intros k'. destruct (sub_check cz cg cb cl bufsize gas fuel big mktime k' x HB) as (b & Eb & Hbb). exists b. split; [exact Eb|]. rewrite Hbb. apply Hcl. exact Hh. }
  apply (try_subs_found (fun St pv st i => at_first (fun s => s = Eof) pv INT32_MAX ms st i)).
  - apply Forall_forall. intros sb Hin. apply (Permutation_in _ Hperm) in Hin. apply in_sub in Hin. destruct Hin as (k' & ->).
    destruct (Hck k') as (b & Eb & Hbb). rewrite Eb. destruct b; [right|left; reflexivity]. split; [reflexivity|].
    assert (k' = ASdf) as -> by (apply Hbb; reflexivity). cbn [sub_of].
    destruct sdf_kmp as (k & Ek & Hk).
    assert (exists a, sdf_new (mkSS x (zlen x) 0 Ok) = Ret a /\ lists (sdf_provider ss_ops fuel) INT32_MAX ms a) as (a & Ea & Hlist).
    { unfold sdf_new. rewrite Ek. cbn [bind]. eexists; split; [reflexivity|].
      eapply (listing_run x Hx HB k Hk fuel ltac:(lia) 0 x ms Hl _ 0); cbn [sd_st sd_kmp sd_num]; try reflexivity; try lia.
      - rewrite Z.sub_0_r. apply slice_all.
      - unfold first_part. cbn [sd_cur sd_prev]. rewrite (at_reset x _ view0); [reflexivity| |lia].
        unfold ss_R, view_ok. cbn. do 4 (split; [reflexivity || lia|]). split; [congruence|]. intros; discriminate. }
    destruct (lists_first _ _ _ _ _ Hlist Hms) as (st1 & i & E1 & HA). exists a, st1, i. cbn [sub_sdf su_make su_pv]. auto.
  - apply Exists_exists. exists (sub_of cz cg cb cl bufsize gas fuel big mktime ASdf). split; [apply (Permutation_in _ (Permutation_sym Hperm)), sub_in|].
    destruct (Hck ASdf) as (b & Eb & Hbb). rewrite Eb. f_equal. apply Hbb. reflexivity.
Qed.
(** the rest of C31: every file has exactly one listing, so [ms] is determined by [x] (C31_every_file, C31_one_listing) *)

(** "m\na\nb\n V2000\nc\n$$$$\n" *)
Definition one_mol : list Z := [109;10;97;10;98;10;32;86;50;48;48;48;10;99;10;36;36;36;36;10].
Lemma one_mol_listing : sdf_listing 0 one_mol [mkMember (mkInfo (molecule ++ [49]) 15 0 2) (firstn 15 one_mol)].
Proof.
  apply (sl_record 0 one_mol (firstn 15 one_mol) [10] []).
  - split; [reflexivity|]. change (zlen (firstn 15 one_mol)) with 15. intros d Hd (O1 & O2 & O3). change (zlen delim) with 4 in *. 
    assert (d = 0 \/ d = 1 \/ d = 2 \/ d = 3 \/ d = 4 \/ d = 5 \/ d = 6 \/ d = 7 \/ d = 8 \/ d = 9 \/ d = 10 \/ d = 11 \/ d = 12 \/ d = 13 \/ d = 14) as Hx by lia.
    repeat (destruct Hx as [->|Hx]; [vm_compute in O3; congruence|]). subst d. vm_compute in O3. congruence.
  - discriminate.
  - repeat constructor.
  - intros c t H; discriminate H.
  - exists [49]. split; [apply (dec_digit 1); lia|reflexivity].
  - apply sl_none. intros d (O1 & O2 & O3). change (zlen delim) with 4 in *. cbn [tl] in O2. change (zlen (@nil Z)) with 0 in O2. lia.
Qed.
Example C49_sdf_case : exists St (pv : provider St) st i inp,
  open_archive (magic_codec [31;139] toy_codec) (magic_codec [66;90;104;57;49;65;89;38;83;89] toy_codec) cp_codec 262144 1000 true
    (reader_subs (magic_codec [31;139] toy_codec) (magic_codec [66;90;104;57;49;65;89;38;83;89] toy_codec) cp_codec 262144 1000 true toy_codec false (fun _ => 0) maxline 1000)
    (Any ss_ops (mkSS one_mol (zlen one_mol) 0 Ok) (fun p => p)) = Ret (Found pv st i inp) /\
  at_first (fun s => s = Eof) pv INT32_MAX [mkMember (mkInfo (molecule ++ [49]) 15 0 2) (firstn 15 one_mol)] st i.
Proof.
  apply (C49_opens_sdf_partial _ _ _ _ toy_codec _ _ cp_codec 262144 1000 1000 false (fun _ => 0)).
  - apply Permutation_refl.
  - apply bytes_dec. vm_compute. reflexivity.
  - vm_compute. discriminate.
  - split; [|split].
    + intros (h & lv & t & _ & E). discriminate E.
    + intros (t & E). discriminate E.
    + destruct (lzma_check_ok one_mol ltac:(apply bytes_dec; vm_compute; reflexivity)) as (b & E & Hb). vm_compute in E. injection E as <-. intros H. apply Hb in H. discriminate.
  - apply clearly_short; [discriminate|vm_compute; reflexivity|apply bytes_dec; vm_compute; reflexivity|]. intros []; vm_compute; reflexivity.
  - exact one_mol_listing.
  - discriminate.
  - vm_compute. lia.
Qed.
