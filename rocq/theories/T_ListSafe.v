(** C55: going through all the files in a file ends, whatever its bytes are. *)
From Verif Require Import Base StreamSpec P_Stream M_StringStream P_StringStream M_Buffered BufferedSpec P_Buffered M_Sub ArchiveSpec M_Inflate InflateSpec T_Inflate M_Lzma LzmaSpec P_LzCopy
  M_Text M_Detect M_Ar M_Tar M_Zip M_Sdf M_Rpm T_Zip M_MailList T_MailList CacheSpec M_Cache M_Listing M_Open T_Open M_ListReal.
From Verif Require Import P_Tame P_TameBuf P_SafeST P_SafeSdf P_EntrySafe T_Safe P_OpenSafe T_OpenSafe P_ListSafe1 P_ListSafe2 P_ListSafe3.

Lemma openable_less {P} (par : ops P Z) content B I hi : openable True par content B I hi -> openable False par content B I hi.
Proof. intros (H1 & H2 & _ & H4 & H5). split; [eapply tame_neg; [exact H1|tauto]|]. split; [exact H2|]. split; [intros []|]. auto. Qed.

Lemma list_level Dg Db Dl Dz (cg : codec Dg) (cb : codec Db) (cl : lzcodec Dl) (cz : codec Dz) X DIg DIb DIl DIz bufsize alloc_ok mktime gas fuel subs k Bl Bf R (x : anystream R) :
  sane_codec cg X DIg -> sane_codec cb X DIb -> sane_lzcodec cl X DIl -> sane_codec cz X DIz -> 0 <= X -> 0 <= bufsize <= BUF_LIM ->
  incl subs [sub_ar fuel; sub_zip bufsize gas cz mktime fuel; sub_tar fuel; sub_sdf fuel] -> 0 <= Bf -> Z.max Bf (nx X Bf) + 2 < Z.of_nat gas -> Z.max Bf (nx X Bf) + 2 < Z.of_nat fuel -> Z.max Bf (nx X Bf) + 2 < Z.of_nat k ->
  ok_any False Bl x -> layers (nx X) 99 Bl <= Bf -> safe True (open_archive cg cb cl bufsize gas alloc_ok subs x) (opened_good (Z.max Bf (nx X Bf)) k).
Proof.
  intros Hg Hb Hl Hz HX Hbuf Hsubs HBf Hgas Hfuel Hk Hx HB. unfold nx in Hgas, Hfuel, Hk.
  apply (open_good cg cb cl X DIg DIb DIl Hg Hb Hl HX bufsize gas alloc_ok fuel k Hbuf Bf) with (B := Bl); [lia| |exact Hx|exact HB].
  apply Forall_forall. intros sb Hin. apply Hsubs in Hin. destruct Hin as [<-|[<-|[<-|[<-|[]]]]].
  - eapply (ar_good X bufsize gas); try assumption; lia.
  - apply (zip_good cz X DIz Hz); try assumption; lia.
  - eapply (tar_good X bufsize gas); try assumption; lia.
  - eapply (sdf_good X bufsize gas); try assumption; lia.
Qed.
(** the sizes of the levels, [c]: the layers of one level *)
Lemma sizes X full c levels : 0 <= X -> 0 <= full -> exists (B Bf : nat -> Z) M, B O = full /\ 0 <= M /\
  forall l, (l < levels)%nat -> 0 <= Bf l /\ B l <= M /\ layers (nx X) c (B l) <= Bf l /\ B (S l) = Z.max (Bf l) (nx X (Bf l)) /\ B (S l) <= M.
Proof.
  intros HX Hf. set (B := fun l => layers (nx X) ((c + 1) * l) full). exists B, (fun l => layers (nx X) c (B l)), (B levels).
  assert (forall l, (l <= levels)%nat -> B l <= B levels) as HM.
  { intros l Hl. unfold B. replace ((c + 1) * levels)%nat with ((c + 1) * l + (c + 1) * (levels - l))%nat by nia. rewrite layers_plus. apply layers_ge. }
  assert (forall l, full <= B l) as H0 by (intros l; apply layers_ge).
  split; [unfold B; rewrite Nat.mul_0_r; reflexivity|]. split; [specialize (H0 levels); lia|].
  intros l Hl. pose proof (layers_ge (nx X) c (B l)). specialize (H0 l). pose proof (HM l ltac:(lia)). pose proof (HM (S l) ltac:(lia)).
  split; [lia|]. split; [lia|]. split; [lia|]. split; [|lia]. unfold B. replace ((c + 1) * S l)%nat with ((c + 1) * l + (c + 1))%nat by lia. rewrite !layers_plus. cbn [layers]. reflexivity.
Qed.
(** * C55 *)
(** A listing (listinginprogress.cpp:160-272): the file is opened, then nextEntry(int) is called until it is done.  Whatever the bytes of the file are,
    whether they come from memory or piecewise from a source that may fail, for every list of the formats ar, zip, tar and sdf in any order:
    there is a number [n] such that no loop and no recursion takes [n] steps, and the listing returns with an entry for the file.
    Decompressors as in C26.  Undefined behaviour and failed assertions count as an end, as in C26: they exist (e.g. C40, C08).
    Not included: mail and rpm. *)
Theorem C55_list_ends_partial : forall Dg Db Dl Dz (cg : codec Dg) (cb : codec Db) (cl : lzcodec Dl) (cz : codec Dz) X DIg DIb DIl DIz bufsize alloc_ok mktime root full,
  sane_codec cg X DIg -> sane_codec cb X DIb -> sane_lzcodec cl X DIl -> sane_codec cz X DIz -> 0 <= X -> octets full -> 0 <= bufsize <= BUF_LIM ->
  exists n, forall gas fuel rec calls subs, (n <= gas)%nat -> (n <= fuel)%nat -> (n <= rec)%nat -> (n <= calls)%nat ->
  incl subs [sub_ar fuel; sub_zip bufsize gas cz mktime fuel; sub_tar fuel; sub_sdf fuel] ->
  let new := fun P => rlist_new cg cb cl bufsize gas alloc_ok subs INT32_MAX (P := P) root in
  let go := rlist_all cg cb cl bufsize gas alloc_ok subs INT32_MAX fuel calls rec in
  let listed := fun st => exists t, rlist_root INT32_MAX st = Some t in
  (zlen full <= INT32_MAX -> safe True (let* (st, d) := new _ ss_ops (memory full) in go st d) listed) /\
  (forall S (src : source S Z) fails SR SE s, SrcOK src full fails SR SE -> SR s 0 -> safe True (let* (st, d) := new _ (bs_ops src) (bs_new s) in go st d) listed).
Proof.
  intros Dg Db Dl Dz cg cb cl cz X DIg DIb DIl DIz bufsize alloc_ok mktime root full Hg Hb Hl Hz HX Ho Hbuf.
  destruct (sizes X (zlen full) 99 10 HX (zlen_nonneg full)) as (B & Bf & M & HB0 & HM0 & HB).
  assert (exists k, Z.of_nat k = M + 3) as (k & Hk) by (exists (Z.to_nat (M + 3)); lia).
  assert (exists W, W = (Z.of_nat k + 2) * w k O /\ 0 <= W) as (W & EW & HW) by (eexists; split; [reflexivity|]; pose proof (w_pos k O ltac:(lia)); nia).
  exists (Z.to_nat (M + 3 + W + 2)). intros gas fuel rec calls subs Hgas Hfuel Hrec Hcalls Hsubs new go listed.
  assert (forall P (par : ops P Z) p, ok_stream False (zlen full) par p -> safe True (let* (st, d) := new _ par p in go st d) listed) as Hgo.
  { intros P par p Hp. apply (rlist_safe cg cb cl bufsize gas alloc_ok subs fuel B k).
    - intros l Hl10. destruct l as [|l]; [destruct (HB O ltac:(lia)) as (_ & A & _); lia|]. destruct (HB l ltac:(lia)) as (_ & _ & _ & _ & A). lia.
    - intros l R x Hl9 Hx. destruct (HB l ltac:(lia)) as (A1 & A2 & A3 & A4 & A5). rewrite A4 in *.
      apply (list_level _ _ _ _ cg cb cl cz X DIg DIb DIl DIz bufsize alloc_ok mktime gas fuel subs k (B l) (Bf l)); try assumption; lia.
    - rewrite HB0. exact Hp.
    - rewrite <- EW. lia.
    - rewrite <- EW. lia. }
  split.
  - intros Hlen. apply Hgo. exists (Some full), (zlen full), (ss_I full), (fun _ => zlen full). split; [apply openable_less, memory_openable; assumption|]. split; [lia|apply ss_init_I].
  - intros S src fails SR SE s HS Hs0. apply Hgo. do 4 eexists. split; [apply openable_less, (source_openable src full fails SR SE HS Ho)|]. split; [lia|apply (source_start src full fails SR SE s HS Hs0 Ho)].
Qed.
(** a zip archive with a cut zip archive inside of gzip, and a second, compressed entry without announced size, cut; the same bytes cut inside of the first entry *)
Notation gz0 := (after 2 masked).
Notation bz0 := (after 10 masked).
Definition four_subs : list sub_type := [sub_tar 150; sub_sdf 150; sub_ar 150; sub_zip 262144 150 masked mk0 150].
Definition cut_nested : list Z := zip_h 0 0 (zlen cut_zip) (zlen cut_zip) [98] [] ++ cut_zip ++ zip_h 8 8 0 0 [99] [] ++ [5;1;2;3;4;5;9].
Definition listing_of (full : list Z) : out (option tree) :=
  let* (st, d) := rlist_new gz0 bz0 masked_lz 262144 150 true four_subs INT32_MAX (mkInfo [122] 7 5 2) ss_ops (memory full) in
  let* st := rlist_all gz0 bz0 masked_lz 262144 150 true four_subs INT32_MAX 150 20 20 st d in Ret (rlist_root INT32_MAX st).
Example C55_case : octets cut_nested /\ (exists DI, sane_codec gz0 1 DI) /\ (exists DI, sane_codec bz0 1 DI) /\ (exists DI, sane_lzcodec masked_lz 1 DI) /\ (exists DI, sane_codec masked 1 DI) /\
  incl four_subs [sub_ar 150; sub_zip 262144 150 masked mk0 150; sub_tar 150; sub_sdf 150] /\
  listing_of cut_nested = Ret (Some (T (mkInfo [122] 7 5 3) [([98], T (mkInfo [98] 65 77 3) [([97], T (mkInfo [97] 3 77 2) [])]); ([99], T (mkInfo [99] 5 77 2) [])])) /\
  listing_of (firstn 60 cut_nested) = Ret (Some (T (mkInfo [122] 7 5 3) [([98], T (mkInfo [98] 65 77 2) [])])).
Proof.
  split; [apply bytes_dec; vm_compute; reflexivity|].
  split; [eexists; apply after_sane; [lia|lia|apply C26_codec_case]|]. split; [eexists; apply after_sane; [lia|lia|apply C26_codec_case]|]. split; [eexists; apply C26_lzcodec_case|]. split; [eexists; apply C26_codec_case|].
  split; [intros sb H; cbn [four_subs In] in *; tauto|]. split; vm_compute; reflexivity.
Qed.
