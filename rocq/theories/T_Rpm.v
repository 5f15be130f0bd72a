(** C37: RpmInputStream finds the payload of every RPM file, and lists its members. *)
From Verif Require Import Base StreamSpec P_Stream M_StringStream P_StringStream M_Buffered BufferedSpec P_Buffered M_Inflate InflateSpec P_Inflate T_Inflate ArchiveSpec M_Cpio CpioSpec P_Cpio T_Cpio M_Detect DetectSpec M_Rpm RpmSpec P_Rpm P_MagicCodec M_Lzma LzmaSpec T_Lzma P_LzCopy KmpSpec TextSpec.

(** The constructor, over any conforming input in front of an RPM file: the payload format is
    recognised and the decompressor is created on an input that is exactly at the start of the
    payload. *)
Theorem C37_payload_found : forall (P : Type) (par : ops P Z) big full lim p v pre bytes payload k,
  Conforms par full False lim p v -> 96 <= lim -> full = pre ++ bytes -> v_pos v = zlen pre ->
  rpm_file lim bytes payload -> 16 <= zlen payload -> starts_with k payload ->
  exists p' v', rpm_open par big p = Ret (p', Some (kind_of k)) /\ Conforms par full False lim p' v' /\
    skipn (Z.to_nat (v_pos v')) full = payload.
Proof. intros. eapply rpm_open_ok; eassumption. Qed.

Section Lists.
Context {P Dg Db Dl : Type}.
Variables (par : ops P Z) (cg : codec Dg) (cb : codec Db) (cl : lzcodec Dl) (fuel : nat) (lim : Z).
Lemma gz_lists ms : forall c, lists (cpio_provider (gz_ops par cg) fuel) lim ms c -> lists (rpm_provider par cg cb cl fuel) lim ms (mkRpm (PGz c) Ok).
Proof.
  induction ms as [|m ms IH]; intros c H; cbn [lists_end] in *.
  - destruct H as (c' & E & Hf). cbn [pv_next pv_status cpio_provider rpm_provider] in *. unfold rpm_next. cbn [rp_st rp_pay]. rewrite E; cbn [bind]. eexists; split; [reflexivity|exact Hf].
  - destruct H as (c' & E & Hf & H). cbn [pv_next pv_entry pv_status cpio_provider rpm_provider] in *. unfold rpm_next. cbn [rp_st rp_pay]. rewrite E; cbn [bind]. eexists; split; [reflexivity|]. split; [exact Hf|].
    intros h Hh. destruct (H h Hh) as (c2 & obs & E2 & Ha & Hl). unfold rpm_entry. cbn [rp_st rp_pay]. rewrite E2; cbn [bind]. do 2 eexists. split; [reflexivity|]. split; [exact Ha|]. rewrite Hf. apply IH. exact Hl.
Qed.
Lemma bz_lists ms : forall c, lists (cpio_provider (bz_ops par cb) fuel) lim ms c -> lists (rpm_provider par cg cb cl fuel) lim ms (mkRpm (PBz c) Ok).
Proof.
  induction ms as [|m ms IH]; intros c H; cbn [lists_end] in *.
  - destruct H as (c' & E & Hf). cbn [pv_next pv_status cpio_provider rpm_provider] in *. unfold rpm_next. cbn [rp_st rp_pay]. rewrite E; cbn [bind]. eexists; split; [reflexivity|exact Hf].
  - destruct H as (c' & E & Hf & H). cbn [pv_next pv_entry pv_status cpio_provider rpm_provider] in *. unfold rpm_next. cbn [rp_st rp_pay]. rewrite E; cbn [bind]. eexists; split; [reflexivity|]. split; [exact Hf|].
    intros h Hh. destruct (H h Hh) as (c2 & obs & E2 & Ha & Hl). unfold rpm_entry. cbn [rp_st rp_pay]. rewrite E2; cbn [bind]. do 2 eexists. split; [reflexivity|]. split; [exact Ha|]. rewrite Hf. apply IH. exact Hl.
Qed.
Lemma lz_lists ms : forall c, lists (cpio_provider (lz_ops par cl) fuel) lim ms c -> lists (rpm_provider par cg cb cl fuel) lim ms (mkRpm (PLz c) Ok).
Proof.
  induction ms as [|m ms IH]; intros c H; cbn [lists_end] in *.
  - destruct H as (c' & E & Hf). cbn [pv_next pv_status cpio_provider rpm_provider] in *. unfold rpm_next. cbn [rp_st rp_pay]. rewrite E; cbn [bind]. eexists; split; [reflexivity|exact Hf].
  - destruct H as (c' & E & Hf & H). cbn [pv_next pv_entry pv_status cpio_provider rpm_provider] in *. unfold rpm_next. cbn [rp_st rp_pay]. rewrite E; cbn [bind]. eexists; split; [reflexivity|]. split; [exact Hf|].
    intros h Hh. destruct (H h Hh) as (c2 & obs & E2 & Ha & Hl). unfold rpm_entry. cbn [rp_st rp_pay]. rewrite E2; cbn [bind]. do 2 eexists. split; [reflexivity|]. split; [exact Ha|]. rewrite Hf. apply IH. exact Hl.
Qed.
End Lists.

Lemma starts_lzma payload h t : starts_with Lzmaed payload -> payload = h ++ t -> zlen h = 13 -> lzma_header h (-1).
Proof.
  intros (d & t' & E & Hd) -> Hh.
  do 13 (destruct h as [|? h]; [unfold zlen in Hh; cbn in Hh; lia|]). destruct h; [|unfold zlen in Hh; cbn [length] in Hh; lia].
  cbn [app] in E. injection E as -> -> -> -> -> -> -> -> -> -> -> -> -> _.
  split; [reflexivity|]. split; [repeat (apply Forall_cons; [lia|]); apply Forall_nil|]. split; [|reflexivity].
  exists [0;0;d;0], [255;255;255;255;255;255;255;255]. split; [reflexivity|]. split; [reflexivity|]. split; [exists []; reflexivity|]. split; [exists [0;d;0]; reflexivity|].
  cbv zeta. split; [|left; reflexivity]. cbn [le_value]. change (2 ^ 25) with 33554432. lia.
Qed.

(** End to end: the provider lists exactly the members of the cpio
    archive in the payload, whatever the consumer does with each entry. *)
Theorem C37_rpm_lists_members : forall (P Dg Db Dl : Type) (par : ops P Z) (cg : codec Dg) (cb : codec Db) (cl : lzcodec Dl) fg fb fl DIg DIb DIl
    big full lim p v pre bytes comp rest content ms k bufsize gas fuel,
  codec_ok fg cg DIg -> codec_ok fb cb DIb -> lzma_ok fl cl DIl ->
  Conforms par full False lim p v -> 96 <= lim -> full = pre ++ bytes -> v_pos v = zlen pre ->
  rpm_file lim bytes (comp ++ rest) -> 16 <= zlen (comp ++ rest) -> starts_with k (comp ++ rest) ->
  match k with Gzipped => fmt fg comp content | Bzip2ed => fmt fb comp content | Lzmaed => exists h c, comp = h ++ c /\ zlen h = 13 /\ lz_marked fl c content end ->
  cpio_archive BUF_LIM content ms ->
  1 <= bufsize <= BUF_LIM -> zlen full <= Z.of_nat gas -> (2 <= fuel)%nat ->
  exists a, rpm_new par big cg cb cl bufsize gas true p = Ret a /\ rp_st a = Ok /\ lists (rpm_provider par cg cb cl fuel) BUF_LIM ms a.
Proof.
  intros P Dg Db Dl par cg cb cl fg fb fl DIg DIb DIl big full lim p v pre bytes comp rest content ms k bufsize gas fuel Hcg Hcb Hcl HC Hlim Hfull Hv Hr H16 Hk Hx Ha Hb Hg Hf.
  destruct (C37_payload_found P par big full lim p v pre bytes (comp ++ rest) k HC Hlim Hfull Hv Hr H16 Hk) as (p' & v' & E & HC' & Hs).
  unfold rpm_new. rewrite E; cbn [bind].
  destruct k; cbn [kind_of] in *.
  - destruct Hk as (h & lv & t & Hh & Ht).
    assert (magic_ok Bzip2 False lim (comp ++ rest)) as Hm by (cbn [magic_ok]; split; [tauto|]; split; [lia|]; exists h, lv, t; split; [exact Hh|exact Ht]).
    destruct (C29_intact cb fb DIb par Bzip2 full False lim p' v' bufsize gas comp content rest) as (x & Ex & HX & _); try eassumption; [lia|].
    rewrite <- Hs in Hm. destruct (z_new_ok cb fb DIb par Bzip2 full False lim p' v' bufsize gas [] False) as (x' & Ex' & _ & Hi); try eassumption.
    cbn [z_new] in *. rewrite Ex in *. injection Ex' as <-. cbn [bind]. assert (bs_st x = Ok) as -> by apply Hi.
    eexists; split; [reflexivity|]. split; [reflexivity|]. apply bz_lists.
    apply (C23_cpio_lists_members _ _ content BUF_LIM x view0 [] content ms); [exact HX|unfold BUF_LIM; lia|reflexivity|reflexivity|exact Ha|exact Hf].
  - destruct Hx as (h & c & -> & Hh & Hm). pose proof (starts_lzma _ h (c ++ rest) Hk ltac:(rewrite <- app_assoc; reflexivity) Hh) as Hhd.
    destruct (C48_marked cl fl DIl par full False lim p' v' bufsize gas h c content rest) as (x & Ex & HX & [[]|(Hs1 & _)]); try eassumption; [lia|rewrite Hs, <- app_assoc; reflexivity|].
    rewrite Ex; cbn [bind]. rewrite Hs1. eexists; split; [reflexivity|]. split; [reflexivity|]. apply lz_lists.
    apply (C23_cpio_lists_members _ _ content BUF_LIM x view0 [] content ms); [exact HX|unfold BUF_LIM; lia|reflexivity|reflexivity|exact Ha|exact Hf].
  - destruct Hk as (t & Ht).
    assert (magic_ok Gzip False lim (comp ++ rest)) as Hm by (cbn [magic_ok]; split; [tauto|]; split; [lia|]; exists t; exact Ht).
    destruct (C29_intact cg fg DIg par Gzip full False lim p' v' bufsize gas comp content rest) as (x & Ex & HX & _); try eassumption; [lia|].
    rewrite <- Hs in Hm. destruct (z_new_ok cg fg DIg par Gzip full False lim p' v' bufsize gas [] False) as (x' & Ex' & _ & Hi); try eassumption.
    cbn [z_new] in *. rewrite Ex in *. injection Ex' as <-. cbn [bind]. assert (bs_st x = Ok) as -> by apply Hi.
    eexists; split; [reflexivity|]. split; [reflexivity|]. apply gz_lists.
    apply (C23_cpio_lists_members _ _ content BUF_LIM x view0 [] content ms); [exact HX|unfold BUF_LIM; lia|reflexivity|reflexivity|exact Ha|exact Hf].
Qed.

(** ** A file: two structures with one and two index entries, and a gzip payload for the library "magic, then length, then bytes" *)
Definition rpm_lead : list Z := [237;171;238;219;3;0] ++ repeat 0 90.
Definition rpm_sig : list Z := [142;173;232;1;0;0;0;0; 0;0;0;1; 0;0;0;5] ++ [0;0;3;232;0;0;0;4;0;0;0;1;0;0;0;1] ++ [1;2;3;4;5].
Definition rpm_hdr : list Z := [142;173;232;1;0;0;0;0; 0;0;0;2; 0;0;0;6] ++ [0;0;3;232;0;0;0;6;0;0;0;0;0;0;0;1; 0;0;3;233;0;0;0;6;0;0;0;3;0;0;0;1] ++ [97;98;0;99;100;0].
Definition rpm_cpio : list Z := cpio_h 1234567890 5 4 ++ [46;47;97] ++ [0] ++ [0;0] ++ [1;2;3;4;5] ++ [0;0;0].
Definition rpm_members : list member := [mkMember (mkInfo [97] 5 1234567890 2) [1;2;3;4;5]].
Definition gz_payload : list Z := [31;139] ++ 124 :: rpm_cpio.
Definition bz_payload : list Z := [66;90;104;57;49;65;89;38;83;89] ++ 124 :: rpm_cpio.
Definition lz_head : list Z := [93; 0; 0; 1; 0; 255;255;255;255;255;255;255;255].
Definition lz_payload : list Z := lz_head ++ lit rpm_cpio ++ [0].
Definition rpm_sample (pay : list Z) : list Z := rpm_lead ++ rpm_sig ++ [0;0;0] ++ rpm_hdr ++ pay.
Lemma sample_cpio : cpio_archive BUF_LIM rpm_cpio rpm_members.
Proof.
  apply (cp_file _ (cpio_h 1234567890 5 4 ++ [46;47;97] ++ [0] ++ [0;0]) [46;47;97] 1234567890 [1;2;3;4;5] [0;0;0] [] []); [|discriminate|unfold zlen; cbn; lia|reflexivity|constructor].
  exists (cpio_h 1234567890 5 4), [0;0]. split; [apply cpio_h_ok; unfold zlen, INT32_MAX; cbn; lia|]. split; [reflexivity|]. split; [unfold zlen; cbn; lia|]. split; [reflexivity|]. split; [unfold zlen, BUF_LIM; cbn; lia|]. split; [unfold zlen, INT32_MAX; cbn; lia|].
  repeat (apply Forall_cons; [lia|]); apply Forall_nil.
Qed.
Ltac big4_lit := do 4 eexists; split; [reflexivity|]; unfold zlen; cbn; lia.
Ltac ientry a b c o d := exists a, b, c, o, d; split; [reflexivity|]; split; [reflexivity|]; split; [reflexivity|]; split; [reflexivity|]; split; [big4_lit|unfold zlen; cbn; lia].
Lemma sample_file pay : rpm_file INT32_MAX (rpm_sample pay) pay.
Proof.
  exists rpm_lead, rpm_sig, [0;0;0], rpm_hdr, 21, 38. split; [reflexivity|]. split; [reflexivity|]. split; [|split; [unfold zlen; cbn; lia|split; [reflexivity|split; [|unfold INT32_MAX; lia]]]].
  - exists [0;0;0;0], [0;0;0;1], [0;0;0;5], [[0;0;3;232;0;0;0;4;0;0;0;1;0;0;0;1]], [1;2;3;4;5]. split; [reflexivity|]. split; [reflexivity|]. split; [big4_lit|]. split; [big4_lit|]. split; [|split; [reflexivity|lia]].
    apply Forall_cons; [|apply Forall_nil]. ientry [0;0;3;232] [0;0;0;4] [0;0;0;1] 1 [0;0;0;1].
  - exists [0;0;0;0], [0;0;0;2], [0;0;0;6], [[0;0;3;232;0;0;0;6;0;0;0;0;0;0;0;1]; [0;0;3;233;0;0;0;6;0;0;0;3;0;0;0;1]], [97;98;0;99;100;0]. split; [reflexivity|]. split; [reflexivity|]. split; [big4_lit|]. split; [big4_lit|]. split; [|split; [reflexivity|lia]].
    apply Forall_cons; [|apply Forall_cons; [|apply Forall_nil]]; [ientry [0;0;3;232] [0;0;0;6] [0;0;0;0] 0 [0;0;0;1]|ientry [0;0;3;233] [0;0;0;6] [0;0;0;3] 3 [0;0;0;1]].
Qed.
Example C37_case_gzip : forall big, exists a,
  rpm_new ss_ops big (magic_codec [31;139] toy_codec) (magic_codec [66;90;104;57;49;65;89;38;83;89] toy_codec) cp_codec 262144 1000 true
    (mkSS (rpm_sample gz_payload) (zlen (rpm_sample gz_payload)) 0 Ok) = Ret a /\ rp_st a = Ok /\
  lists (rpm_provider ss_ops (magic_codec [31;139] toy_codec) (magic_codec [66;90;104;57;49;65;89;38;83;89] toy_codec) cp_codec 2) BUF_LIM rpm_members a.
Proof.
  intros big. apply (C37_rpm_lists_members _ _ _ _ ss_ops _ _ _ (magic_format [31;139] toy_format) (magic_format [66;90;104;57;49;65;89;38;83;89] toy_format) cp_format
    (magic_DI [31;139] toy_DI) (magic_DI [66;90;104;57;49;65;89;38;83;89] toy_DI) cp_DI big (rpm_sample gz_payload) INT32_MAX _ view0 [] (rpm_sample gz_payload) gz_payload [] rpm_cpio rpm_members Gzipped).
  - apply magic_ok_codec; [discriminate|exact toy_ok].
  - apply magic_ok_codec; [discriminate|exact toy_ok].
  - exact cp_ok.
  - apply ss_conforms. vm_compute. discriminate.
  - unfold INT32_MAX; lia.
  - reflexivity.
  - reflexivity.
  - rewrite app_nil_r. apply sample_file.
  - vm_compute. discriminate.
  - eexists. reflexivity.
  - exists (124 :: rpm_cpio). split; [reflexivity|]. exists 124. split; [reflexivity|]. split; [reflexivity|lia].
  - exact sample_cpio.
  - unfold BUF_LIM; lia.
  - vm_compute. discriminate.
  - lia.
Qed.
Example C37_case_bzip2 : forall big, exists a,
  rpm_new ss_ops big (magic_codec [31;139] toy_codec) (magic_codec [66;90;104;57;49;65;89;38;83;89] toy_codec) cp_codec 262144 1000 true
    (mkSS (rpm_sample bz_payload) (zlen (rpm_sample bz_payload)) 0 Ok) = Ret a /\ rp_st a = Ok /\
  lists (rpm_provider ss_ops (magic_codec [31;139] toy_codec) (magic_codec [66;90;104;57;49;65;89;38;83;89] toy_codec) cp_codec 2) BUF_LIM rpm_members a.
Proof.
  intros big. apply (C37_rpm_lists_members _ _ _ _ ss_ops _ _ _ (magic_format [31;139] toy_format) (magic_format [66;90;104;57;49;65;89;38;83;89] toy_format) cp_format
    (magic_DI [31;139] toy_DI) (magic_DI [66;90;104;57;49;65;89;38;83;89] toy_DI) cp_DI big (rpm_sample bz_payload) INT32_MAX _ view0 [] (rpm_sample bz_payload) bz_payload [] rpm_cpio rpm_members Bzip2ed).
  - apply magic_ok_codec; [discriminate|exact toy_ok].
  - apply magic_ok_codec; [discriminate|exact toy_ok].
  - exact cp_ok.
  - apply ss_conforms. vm_compute. discriminate.
  - unfold INT32_MAX; lia.
  - reflexivity.
  - reflexivity.
  - rewrite app_nil_r. apply sample_file.
  - vm_compute. discriminate.
  - exists 104, 57. eexists. split; [left; reflexivity|reflexivity].
  - exists (124 :: rpm_cpio). split; [reflexivity|]. exists 124. split; [reflexivity|]. split; [reflexivity|lia].
  - exact sample_cpio.
  - unfold BUF_LIM; lia.
  - vm_compute. discriminate.
  - lia.
Qed.

Example C37_case_lzma : forall big, exists a,
  rpm_new ss_ops big (magic_codec [31;139] toy_codec) (magic_codec [66;90;104;57;49;65;89;38;83;89] toy_codec) cp_codec 262144 1000 true
    (mkSS (rpm_sample lz_payload) (zlen (rpm_sample lz_payload)) 0 Ok) = Ret a /\ rp_st a = Ok /\
  lists (rpm_provider ss_ops (magic_codec [31;139] toy_codec) (magic_codec [66;90;104;57;49;65;89;38;83;89] toy_codec) cp_codec 2) BUF_LIM rpm_members a.
Proof.
  intros big. apply (C37_rpm_lists_members _ _ _ _ ss_ops _ _ _ (magic_format [31;139] toy_format) (magic_format [66;90;104;57;49;65;89;38;83;89] toy_format) cp_format
    (magic_DI [31;139] toy_DI) (magic_DI [66;90;104;57;49;65;89;38;83;89] toy_DI) cp_DI big (rpm_sample lz_payload) INT32_MAX _ view0 [] (rpm_sample lz_payload) lz_payload [] rpm_cpio rpm_members Lzmaed).
  - apply magic_ok_codec; [discriminate|exact toy_ok].
  - apply magic_ok_codec; [discriminate|exact toy_ok].
  - exact cp_ok.
  - apply ss_conforms. vm_compute. discriminate.
  - unfold INT32_MAX; lia.
  - reflexivity.
  - reflexivity.
  - rewrite app_nil_r. apply sample_file.
  - vm_compute. discriminate.
  - exists 1. eexists. split; [reflexivity|lia].
  - exists lz_head, (lit rpm_cpio ++ [0]). split; [reflexivity|]. split; reflexivity.
  - exact sample_cpio.
  - unfold BUF_LIM; lia.
  - vm_compute. discriminate.
  - lia.
Qed.

(** ** Not every input is handled.  A signature with an empty index and an empty store is well formed,
    but the request for its 0 bytes is answered with everything that is left, and the file is refused. *)
Definition rpm_empty_sig : list Z := rpm_lead ++ [142;173;232;1;0;0;0;0; 0;0;0;0; 0;0;0;0] ++ rpm_hdr ++ gz_payload.
Theorem C37_empty_signature_refuted : exists s p, ss_new (Z.eqb 0) rpm_empty_sig (zlen rpm_empty_sig) = Ret s /\ rpm_open ss_ops false s = Ret (p, None).
Proof. do 2 eexists. split; [vm_compute; reflexivity|vm_compute; reflexivity]. Qed.
(** A header with one index entry and a store of -15 bytes: one byte is read, the offset of the entry
    is read 8 bytes behind it. *)
Definition rpm_bad_store : list Z := rpm_lead ++ rpm_sig ++ [0;0;0] ++ [142;173;232;1;0;0;0;0; 0;0;0;1; 255;255;255;241] ++ [0].
Theorem C37_negative_store_refuted : exists s, ss_new (Z.eqb 0) rpm_bad_store (zlen rpm_bad_store) = Ret s /\ rpm_open ss_ops false s = UB.
Proof. eexists. split; [vm_compute; reflexivity|vm_compute; reflexivity]. Qed.
