(** C53: the listing of a file, from its bytes. *)
From Coq Require Import Permutation.
From Verif Require Import Base StreamSpec P_Stream ArchiveSpec KmpSpec M_StringStream P_StringStream BufferedSpec M_Text TextSpec InflateSpec M_Inflate LzmaSpec M_Lzma DetectSpec P_Detect CacheSpec M_Cache P_Cache
  T_MailList M_Open OpenSpec P_Open T_Open M_Listing ListingSpec P_Listing M_ListReal ListRealSpec P_ListReal1 P_ListReal2 P_ListReal3 P_ListReal4.

(** A file whose bytes hold, by the file formats, the tree [s] of archives (tar, ar, zip, rpm and mail, in layers of compression, archives within archives):
    the listing of the library, reading the file with its own readers, ends and is that tree.  Only sizes that the archive does not announce
    may differ from those in [s]; what they can be is said by [holds] ([s']).  At most 9 levels (C40).  Not sdf; within archives no archives whose
    outermost layer is lzma; the parts of a mail that are not encoded are plain data. [gas], [fuel] only bound loop unrolling in the model. *)
Theorem C53_listing_partial : forall (Dz Dg Db Dl P : Type) (cz : codec Dz) (cg : codec Dg) (cb : codec Db) (cl : lzcodec Dl) fz fg fb fl DIz DIg DIb DIl
    bufsize gas fuel lim big mktime subs (par : ops P Z) I p v c s root,
  codec_ok fz cz DIz -> codec_ok fg cg DIg -> codec_ok fb cb DIb -> lzma_ok fl cl DIl -> 1 <= bufsize <= BUF_LIM -> maxline + 1024 <= lim <= BUF_LIM ->
  Permutation subs (reader_subs cg cb cl bufsize gas true cz big mktime maxline fuel) -> Z.of_nat gas + 1 < Z.of_nat fuel ->
  repeatable par I -> I p -> Conforms par c False lim p v -> v_pos v = 0 ->
  holds fz fg fb fl (dos2unixtime mktime) lim (Z.of_nat gas) true c s -> (levels s <= 9)%nat ->
  exists st' s', (let* (st, d) := rlist_new cg cb cl bufsize gas true subs lim root par p in rlist_all cg cb cl bufsize gas true subs lim fuel (count s + 2) (levels s + 1) st d) = Ret st' /\
    holds fz fg fb fl (dos2unixtime mktime) lim (Z.of_nat gas) true c s' /\ same s s' /\ rlist_root lim st' = Some (build (listed_root root s')).
Proof.
  intros Dz Dg Db Dl P cz cg cb cl fz fg fb fl DIz DIg DIb DIl bufsize gas fuel lim big mktime subs par I p v c s root Hcz Hcg Hcb Hcl Hb HL Hperm Hfuel HG HI HC Hv Hh Hlv.
  assert (good true lim par p c) as Hg by (exists v; eauto 7).
  destruct s as [|e es].
  - inversion Hh as [t0 c0 x HU Hno| |]; subst. destruct HU as (ls & Hc & Hls & _).
    destruct (open_none (hist 0 lim) Dz Dg Db Dl P cz cg cb cl fg fb fl DIg DIb DIl bufsize gas fuel lim big mktime subs ls c x par p (fun _ => hist0) true) as (r & Eo); try assumption; try lia; try (left; reflexivity).
    unfold rlist_new. rewrite Eo. cbn [bind]. eexists _, Plain. split; [reflexivity|]. split; [exact Hh|]. split; [constructor|]. reflexivity.
  - destruct (open_arch cz cg cb cl fz fg fb fl DIz DIg DIb DIl Hcz Hcg Hcb Hcl bufsize gas fuel lim big mktime subs Hb HL Hperm Hfuel (hist 0 lim) P par p (fun _ => hist0) true true c e es Hh Hg ltac:(left; reflexivity))
      as (St & pv & st0 & i & inp & us & Eo & Hat & Hr & HU & Hback).
    destruct us as [|u us]; [destruct Hat|].
    unfold rlist_new. rewrite Eo. cbn [bind]. rewrite count_arch, levels_arch in *.
    set (st := rput lim (repeat (rframe0 lim) 10) 0 _).
    destruct (rrun_frame cz cg cb cl fz fg fb fl DIz DIg DIb DIl Hcz Hcg Hcb Hcl bufsize gas fuel lim big mktime subs Hb HL Hperm Hfuel
      (cnt_l (e :: es)) u us e es 0 0 St pv st0 i inp (T (or_dir root) []) st (S (lev_l (e :: es)) + 1)) as (st' & l' & h & E & G & HU' & Hs & L & _); try assumption; try lia; try reflexivity.
    { change (zlen st) with 10. lia. }
    destruct l' as [|e' es']; [inversion Hs|].
    exists st', (Arch e' es'). split; [|split; [apply Hback; exact HU'|split; [constructor; exact Hs|]]].
    + rewrite E. cbn [rlist_all]. destruct (Z.ltb_spec 0 0); [lia|]. cbn [Nat.add rnext_entry].
      change (zlen st) with 10 in L. destruct (Z.ltb_spec (zlen st') (0 + 1)); [lia|]. unfold rat. rewrite G. cbn [bind].
      destruct (zget_some st' (0 + 1)) as (f1 & ->); [lia|]. reflexivity.
    + unfold rlist_root. rewrite G. cbn [r_entry]. f_equal. cbn [listed_root build map fold_left]. unfold added. cbn [fold_left].
      apply fold_listed.
Qed.

(** ** A zip archive with two members: a gzip file with a zip archive, and a file whose size is not announced *)
From Verif Require Import T_Inflate P_MagicCodec P_LzCopy M_Zip ZipSpec T_Zip.
Definition zip_two : list Z :=
  zip_h 0 0 (zlen in_gzip) (zlen in_gzip) [98] [] ++ in_gzip ++
  zip_h 8 8 0 0 [99] [] ++ [5;1;2;3;4;5] ++ ([80;75;7;8] ++ [0;0;0;0;6;0;0;0;5;0;0;0]) ++ 80 :: 75 :: 1 :: 2 :: repeat 0 64.
Definition tree_two : M_Listing.stream :=
  Arch (Entry (mkInfo [98] (zlen in_gzip) 77 2) 0 (Arch (Entry (mkInfo [97] 3 77 2) 0 Plain) [])) [Entry (mkInfo [99] (-1) 77 2) 5 Plain].
Lemma no_archive_short x : zlen x < 1024 -> KmpSpec.bytes x -> (forall k, su_check (sub_of toy_codec gzc bzc cp_codec 1 0 0 false (fun _ => 0) k) x = Ret false) -> no_archive x.
Proof.
  intros Hl HB Hck h (n & -> & Hn & H1) k. assert (n = zlen x) as -> by lia. rewrite slice_all. intros Hk.
  destruct (sub_check toy_codec gzc bzc cp_codec 1 0 0 false (fun _ => 0) k x HB) as (b & E & H). apply H in Hk. rewrite Hck in E. injection E as <-. discriminate.
Qed.
Lemma plain_first c t : c <> 66 -> c <> 31 -> c <> 93 -> plain (c :: t).
Proof.
  intros H1 H2 H3. split; [|split].
  - intros (h & lv & r & _ & E). injection E as -> _. congruence.
  - intros (r & E). injection E as -> _. congruence.
  - intros (d & s & _ & _ & (r & E) & _). injection E as -> _. congruence.
Qed.
Notation gzf := (magic_format [31;139] toy_format).
Notation bzf := (magic_format [66;90;104;57;49;65;89;38;83;89] toy_format).
Example C53_case_holds : holds toy_format gzf bzf cp_format (dos2unixtime mk0) BUF_LIM 1000 true zip_two tree_two.
Proof.
  assert (KmpSpec.bytes zip_one /\ KmpSpec.bytes in_gzip /\ KmpSpec.bytes zip_two /\ KmpSpec.bytes [1;2;3] /\ KmpSpec.bytes [1;2;3;4;5]) as (B1 & B2 & B3 & B4 & B5)
    by (split; [|split; [|split; [|split]]]; apply bytes_dec; vm_compute; reflexivity).
  assert (forall top x, plain x -> KmpSpec.bytes x -> zlen x <= 1000 -> unpacked gzf bzf cp_format 1000 top x x) as HP.
  { intros top x H1 H2 H3. exists []. split; [apply cmp_plain; assumption|]. split; [cbn; lia|right; discriminate]. }
  apply ho_archive with (x := zip_two) (k := AZip) (ms := [mkMember (mkInfo [98] (zlen in_gzip) 77 2) in_gzip; mkMember (mkInfo [99] (-1) 77 2) [1;2;3;4;5]]).
  - apply HP; [apply plain_first; lia|exact B3|vm_compute; discriminate].
  - apply clearly_short; [discriminate|vm_compute; reflexivity|exact B3|]. intros []; vm_compute; reflexivity.
  - apply ao_zip; [|repeat constructor; vm_compute; discriminate].
    apply (zip_stored (dos2unixtime mk0) toy_format 0 67305985 [98] (zip_h 0 0 (zlen in_gzip) (zlen in_gzip) [98] []) in_gzip); [| | | |].
    + apply zip_h_ok; try reflexivity; vm_compute; try split; discriminate.
    + reflexivity.
    + discriminate.
    + vm_compute; discriminate.
    + apply (zip_streamed (dos2unixtime mk0) toy_format 8 67305985 0 0 [99] (zip_h 8 8 0 0 [99] []) [5;1;2;3;4;5] [1;2;3;4;5]).
      * apply zip_h_ok; try reflexivity; vm_compute; try split; discriminate.
      * reflexivity.
      * discriminate.
      * vm_compute; discriminate.
      * eexists. split; [reflexivity|]. split; [reflexivity|vm_compute; split; discriminate].
      * right. eexists; split; reflexivity.
      * apply zip_end; try lia; try discriminate; vm_compute; discriminate.
  - constructor; [|intros H; vm_compute in H; discriminate H|].
    + apply ho_archive with (x := zip_one) (k := AZip) (ms := [mkMember (mkInfo [97] 3 77 2) [1;2;3]]).
      * exists [LGzip]. split; [|split; [cbn; lia|right; discriminate]].
        change (compressed bzf gzf cp_format 1000 [LGzip] in_gzip zip_one). rewrite <- (app_nil_r in_gzip) at 1. apply cmp_gzip with (y := zip_one); [|eexists; reflexivity|rewrite app_nil_r; exact B2|vm_compute; discriminate|].
        { eexists. split; [reflexivity|]. eexists; split; [reflexivity|]. split; [reflexivity|vm_compute; split; discriminate]. }
        apply cmp_plain; [apply plain_first; lia|exact B1|vm_compute; discriminate].
      * apply clearly_short; [discriminate|vm_compute; reflexivity|exact B1|]. intros []; vm_compute; reflexivity.
      * apply ao_zip; [|repeat constructor; vm_compute; discriminate].
        apply (zip_stored (dos2unixtime mk0) toy_format 0 67305985 [97] (zip_h 0 0 3 3 [97] []) [1;2;3] (80 :: 75 :: 1 :: 2 :: repeat 0 64) []).
        -- apply zip_h_ok; try reflexivity; vm_compute; try split; discriminate.
        -- reflexivity.
        -- discriminate.
        -- vm_compute; discriminate.
        -- apply zip_end; try lia; try discriminate; vm_compute; discriminate.
      * constructor; [|intros H; vm_compute in H; discriminate H|constructor].
        apply ho_plain with (x := [1;2;3]); [apply HP; [apply plain_first; lia|exact B4|vm_compute; discriminate]|].
        apply no_archive_short; [reflexivity|exact B4|]. intros []; vm_compute; reflexivity.
    + constructor; [|intros _ _ _ _; left; reflexivity|constructor].
      apply ho_plain with (x := [1;2;3;4;5]); [apply HP; [apply plain_first; lia|exact B5|vm_compute; discriminate]|].
      apply no_archive_short; [reflexivity|exact B5|]. intros []; vm_compute; reflexivity.
Qed.
(** what the theorem says of its listing *)
Definition subs_two := reader_subs gzc bzc cp_codec 262144 1000 true toy_codec false mk0 maxline 1002.
Definition ss_two : sstream Z := mkSS zip_two (zlen zip_two) 0 Ok.
Definition root_two : info := mkInfo [122] (zlen zip_two) 5 2.
Example C53_case : exists st' s', (let* (st, d) := rlist_new gzc bzc cp_codec 262144 1000 true subs_two BUF_LIM root_two ss_ops ss_two in rlist_all gzc bzc cp_codec 262144 1000 true subs_two BUF_LIM 1002 5 3 st d) = Ret st' /\
  holds toy_format gzf bzf cp_format (dos2unixtime mk0) BUF_LIM 1000 true zip_two s' /\ same tree_two s' /\ rlist_root BUF_LIM st' = Some (build (listed_root root_two s')).
Proof.
  apply (C53_listing_partial _ _ _ _ _ toy_codec gzc bzc cp_codec toy_format gzf bzf cp_format toy_DI (magic_DI [31;139] toy_DI) (magic_DI [66;90;104;57;49;65;89;38;83;89] toy_DI) cp_DI
    262144 1000 1002 BUF_LIM false mk0 subs_two ss_ops (fun s => ss_pos s <= ss_size s <= INT32_MAX) ss_two view0 zip_two tree_two root_two).
  - exact toy_ok.
  - apply magic_ok_codec; [discriminate|exact toy_ok].
  - apply magic_ok_codec; [discriminate|exact toy_ok].
  - exact cp_ok.
  - unfold BUF_LIM; lia.
  - unfold maxline, BUF_LIM; lia.
  - apply Permutation_refl.
  - lia.
  - exact ss_repeatable.
  - vm_compute. split; discriminate.
  - eapply conforms_lim; [|apply ss_conforms; vm_compute; discriminate]. unfold BUF_LIM, INT32_MAX; lia.
  - reflexivity.
  - exact C53_case_holds.
  - cbn; lia.
Qed.
