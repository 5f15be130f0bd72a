(** C26 and C27: archives of arbitrary bytes. Vocabulary: [ends], [within], [any_call] in ArchiveSpec.v. *)
From Verif Require Import Base StreamSpec P_Stream M_StringStream P_StringStream M_Buffered BufferedSpec P_Buffered M_File P_File T_Streams M_Sub ArchiveSpec.
From Verif Require Import M_Inflate InflateSpec T_Inflate TextSpec M_Text M_Ar T_Ar M_Cpio CpioSpec T_Cpio M_Tar TarSpec T_Tar M_Zip T_Zip.
From Verif Require Import OleSpec M_Ole T_Ole KmpSpec SdfSpec M_Sdf T_Sdf.
From Verif Require Import M_Lzma LzmaSpec P_LzCopy M_Rpm T_Rpm.
From Verif Require Import P_Tame P_TameBuf P_TameZ P_SafeAr P_SafeTar P_SafeCpio P_SafeZip P_SafeRpm P_SafeST P_SafeMail P_SafeSdf P_EntrySafe P_SafeOle.
From Verif Require Import M_MailList T_MailList.

(** a StringStream on the bytes [full] *)
Definition memory (full : list Z) : sstream Z := mkSS full (zlen full) 0 Ok.
Definition octets (full : list Z) : Prop := Forall (fun c => 0 <= c < 256) full.

Lemma bs_new_tI {S} (src : source S Z) full fails SR SE (cr : Prop) s : SrcOK src full fails SR SE -> SR s 0 -> octets full ->
  tI (Some full) (zlen full) (srcok_J src full SR) (fun _ => True) (bs_new s).
Proof.
  intros HS Hs Hb. destruct (tI_init src (Some full) (zlen full) cr (srcok_J src full SR) (fun _ => True) (srcok_tame src full fails SR SE cr HS Hb) s (mu src s) (-1) 0) as (b & E & HI).
  - split; [pose proof (zlen_nonneg full); lia|]. left. auto.
  - apply zlen_nonneg.
  - unfold BUF_LIM; lia.
  - vm_compute in E. injection E as <-. exact HI.
Qed.
Lemma bs_new_tame {S} (src : source S Z) full fails SR SE (cr : Prop) lim : SrcOK src full fails SR SE -> octets full -> 1 <= lim <= INT32_MAX -> lim <= BUF_LIM \/ cr ->
  Tame (bs_ops src) (Some full) lim cr (zlen full <= INT64_MAX) (tI (Some full) (zlen full) (srcok_J src full SR) (fun _ => True)).
Proof. intros HS Hb Hl Hc. apply (bs_tame src (Some full) (zlen full) cr); [apply (srcok_tame src full fails SR SE); assumption|split; [lia|exact Hc]|lia|tauto]. Qed.

(** * C26 *)
(** Whatever the bytes are, whatever the consumer does with the entries: nextEntry() returns null after
    fewer than size + 1 entries, and every call in between returns.  [ends True]: undefined behaviour or a
    failed assertion count as returning (they are C27). The input is a StringStream or any BufferedStream
    whose fillBuffer delivers the bytes piecewise, possibly failing. *)
Theorem C26_ar_ends : forall full fuel k, octets full -> zlen full < 60 * Z.of_nat fuel -> zlen full < Z.of_nat k ->
  (zlen full <= INT32_MAX -> safe True (ar_new ss_ops (memory full)) (ends True (ar_provider ss_ops fuel) (within INT32_MAX) k)) /\
  (forall S (src : source S Z) fails SR SE s, SrcOK src full fails SR SE -> SR s 0 ->
     safe True (ar_new (bs_ops src) (bs_new s)) (ends True (ar_provider (bs_ops src) fuel) (within INT32_MAX) k)).
Proof.
  intros full fuel k Hb Hf Hk. split.
  - intros Hl. apply (ar_safe ss_ops full True True (ss_I full) (ss_tame full Hl Hb True)); [apply ss_init_I|exact Hf|exact Hk].
  - intros S src fails SR SE s HS Hs. eapply (ar_safe (bs_ops src) full True _ _ (bs_new_tame src full fails SR SE True INT32_MAX HS Hb ltac:(unfold INT32_MAX; lia) (or_intror I))); [|exact Hf|exact Hk].
    apply (bs_new_tI src full fails SR SE True s HS Hs Hb).
Qed.
Theorem C26_tar_ends : forall full fuel k, octets full -> zlen full < 512 * Z.of_nat fuel -> zlen full < Z.of_nat k ->
  (zlen full <= INT32_MAX -> ends True (tar_provider ss_ops fuel) (within INT32_MAX) k (tar_new (memory full))) /\
  (forall S (src : source S Z) fails SR SE s, SrcOK src full fails SR SE -> SR s 0 ->
     ends True (tar_provider (bs_ops src) fuel) (within INT32_MAX) k (tar_new (bs_new s))).
Proof.
  intros full fuel k Hb Hf Hk. split.
  - intros Hl. apply (tar_safe ss_ops full INT32_MAX True True (ss_I full) (ss_tame full Hl Hb True)); [unfold INT32_MAX; lia|right; split; [exact I|reflexivity]|apply ss_init_I|exact Hf|exact Hk].
  - intros S src fails SR SE s HS Hs. eapply (tar_safe (bs_ops src) full INT32_MAX True _ _ (bs_new_tame src full fails SR SE True INT32_MAX HS Hb ltac:(unfold INT32_MAX; lia) (or_intror I)));
      [unfold INT32_MAX; lia|right; split; [exact I|reflexivity]| |exact Hf|exact Hk]. apply (bs_new_tI src full fails SR SE True s HS Hs Hb).
Qed.
(** cpio; on a BufferedStream of at most INT64_MAX bytes, the largest number a stream can count *)
Theorem C26_cpio_ends : forall full fuel k, octets full -> zlen full < Z.of_nat fuel -> zlen full < Z.of_nat k ->
  (zlen full <= INT32_MAX -> ends True (cpio_provider ss_ops fuel) (within INT32_MAX) k (cpio_new (memory full))) /\
  (forall S (src : source S Z) fails SR SE s, SrcOK src full fails SR SE -> SR s 0 -> zlen full <= INT64_MAX ->
     ends True (cpio_provider (bs_ops src) fuel) (within INT32_MAX) k (cpio_new (bs_new s))).
Proof.
  intros full fuel k Hb Hf Hk. split.
  - intros Hl. apply (cpio_safe_content ss_ops full INT32_MAX True True (ss_I full) (ss_tame full Hl Hb True)); [unfold INT32_MAX; lia|left; auto|apply ss_init_I|exact Hf|exact Hk].
  - intros S src fails SR SE s HS Hs Hz. eapply (cpio_safe_content (bs_ops src) full INT32_MAX True _ _ (bs_new_tame src full fails SR SE True INT32_MAX HS Hb ltac:(unfold INT32_MAX; lia) (or_intror I)));
      [unfold INT32_MAX; lia|left; auto| |exact Hf|exact Hk]. apply (bs_new_tI src full fails SR SE True s HS Hs Hb).
Qed.
(** zip: the decompressor is any library that consumes and writes no more than offered and whose
    output is bounded by [X] times its input *)
Theorem C26_zip_ends : forall D (cd : codec D) X DI full mktime bufsize gas fuel k, sane_codec cd X DI -> 0 <= X -> octets full ->
  0 <= bufsize <= BUF_LIM -> zlen full <= Z.of_nat gas -> zlen full < Z.of_nat fuel -> X * (zlen full + 1) < Z.of_nat fuel -> zlen full < Z.of_nat k ->
  (zlen full <= INT32_MAX -> ends True (zip_provider cd ss_ops mktime bufsize gas fuel) (within INT32_MAX) k (zip_new (memory full))) /\
  (forall S (src : source S Z) fails SR SE s, SrcOK src full fails SR SE -> SR s 0 ->
     ends True (zip_provider cd (bs_ops src) mktime bufsize gas fuel) (within INT32_MAX) k (zip_new (bs_new s))).
Proof.
  intros D cd X DI full mktime bufsize gas fuel k Hcd HX Hb Hbuf Hg Hf1 Hf2 Hk. split.
  - intros Hl. apply (zip_safe cd X DI Hcd HX ss_ops full INT32_MAX True True (ss_I full) (ss_tame full Hl Hb True)); auto; [unfold INT32_MAX; split; [lia|auto]|apply ss_init_I].
  - intros S src fails SR SE s HS Hs. eapply (zip_safe cd X DI Hcd HX (bs_ops src) full INT32_MAX True _ _ (bs_new_tame src full fails SR SE True INT32_MAX HS Hb ltac:(unfold INT32_MAX; lia) (or_intror I)));
      auto; [unfold INT32_MAX; split; [lia|auto]|]. apply (bs_new_tI src full fails SR SE True s HS Hs Hb).
Qed.
(** rpm: the number of entries is bounded by the size of the decompressed payload *)
Theorem C26_rpm_ends : forall Dg Db Dl (cg : codec Dg) (cb : codec Db) (cl : lzcodec Dl) X DIg DIb DIl big full bufsize gas fuel alloc_ok k,
  sane_codec cg X DIg -> sane_codec cb X DIb -> sane_lzcodec cl X DIl -> 0 <= X -> octets full ->
  0 <= bufsize <= BUF_LIM -> zlen full <= Z.of_nat gas -> X * (zlen full + 1) <= INT64_MAX -> X * (zlen full + 1) < Z.of_nat fuel -> X * (zlen full + 1) < Z.of_nat k ->
  (zlen full <= INT32_MAX -> safe True (rpm_new ss_ops big cg cb cl bufsize gas alloc_ok (memory full)) (ends True (rpm_provider ss_ops cg cb cl fuel) (within INT32_MAX) k)) /\
  (forall S (src : source S Z) fails SR SE s, SrcOK src full fails SR SE -> SR s 0 ->
     safe True (rpm_new (bs_ops src) big cg cb cl bufsize gas alloc_ok (bs_new s)) (ends True (rpm_provider (bs_ops src) cg cb cl fuel) (within INT32_MAX) k)).
Proof.
  intros Dg Db Dl cg cb cl X DIg DIb DIl big full bufsize gas fuel alloc_ok k Hg Hb Hl HX Ho Hbuf Hgas Hcap Hf Hk. split.
  - intros Hz. exact (rpm_safe ss_ops big cg cb cl X DIg DIb DIl Hg Hb Hl HX full True (ss_I full) (ss_tame full Hz Ho True) Hcap bufsize gas fuel alloc_ok Hbuf Hgas Hf _ k (ss_init_I full) Hk).
  - intros S src fails SR SE s HS Hs.
    exact (rpm_safe (bs_ops src) big cg cb cl X DIg DIb DIl Hg Hb Hl HX full _ _ (bs_new_tame src full fails SR SE True INT32_MAX HS Ho ltac:(unfold INT32_MAX; lia) (or_intror I)) Hcap bufsize gas fuel alloc_ok Hbuf Hgas Hf _ k
      (bs_new_tI src full fails SR SE True s HS Hs Ho) Hk).
Qed.
(** sdf: as many entries as the (unique) listing has *)
Lemma lists_ends {St} (pv : provider St) lim ms : forall st, lists pv lim ms st ->
  forall C : info -> call -> Prop, (forall i m c, In m ms -> i = m_info m -> C i c -> call_ok (m_data m) lim c) -> ends False pv C (S (length ms)) st.
Proof.
  induction ms as [|m ms IH]; intros st H C HC; cbn [length].
  - destruct H as (st' & E & _). cbn [ends]. rewrite E. exact I.
  - destruct H as (st1 & E & _ & Hh). cbn [ends]. rewrite E. cbn [safe]. intros h Hf. destruct (Hh h) as (st2 & obs & E2 & _ & Hl).
    { eapply Forall_impl; [|exact Hf]. intros c Hc. apply (HC (m_info m) m c); [left; reflexivity|reflexivity|exact Hc]. }
    rewrite E2. cbn [safe]. apply IH; [exact Hl|]. intros i m' c Hi. apply HC. right; exact Hi.
Qed.
Lemma ends_more {St} cr (pv : provider St) C k : forall st, ends cr pv C k st -> ends cr pv C (S k) st.
Proof.
  induction k as [|k IH]; intros st H; [destruct H|]. cbn [ends] in H. change (safe cr (pv_next pv st) (fun '(st1, r) => match r with None => True | Some i => forall h, Forall (C i) h -> safe cr (pv_entry pv st1 h) (fun '(st2, _) => ends cr pv C (S k) st2) end)).
  eapply safe_impl; [exact H|tauto|]. intros (st1 & [i|]); [|auto]. intros Hc h Hh. eapply safe_impl; [apply Hc; exact Hh|tauto|]. intros (st2 & o) H2. apply IH; exact H2.
Qed.
Lemma ends_le {St} cr (pv : provider St) C k k' st : ends cr pv C k st -> (k <= k')%nat -> ends cr pv C k' st.
Proof. intros H. induction 1; [exact H|apply ends_more; assumption]. Qed.
Lemma listing_size k b ms : sdf_listing k b ms -> (length ms <= length b)%nat /\ Forall (fun m => i_size (m_info m) = zlen (m_data m)) ms.
Proof.
  induction 1 as [| |k b rec nl rest name ms (E & _) Hr Hnl Hc Hn _ (IH1 & IH2)]; [split; [cbn; lia|constructor]|split; [cbn; lia|constructor]|].
  split; [|constructor; [reflexivity|exact IH2]]. rewrite E, !app_length. cbn [length delim]. destruct rest; cbn [tl length] in *; lia.
Qed.
(** ... for calls that do not ask for less than the minimum *)
(** mail: entries can be read, skipped and reset within the data read last (mail_provider) or anywhere (mail_provider_any) *)
Theorem C26_mail_ends : forall full maxl fuel k, octets full -> zlen full <= INT32_MAX -> 1 <= maxl <= 2 ^ 28 -> zlen full + 2 < Z.of_nat fuel -> zlen full + 1 < Z.of_nat k ->
  safe True (mail_new ss_ops maxl fuel (memory full)) (fun a =>
    ends True (mail_provider ss_ops maxl fuel) (within_max INT32_MAX) k a /\ ends True (mail_provider_any ss_ops maxl fuel) (within_max INT32_MAX) k a) /\
  (forall S (src : source S Z) fails SR SE s, SrcOK src full fails SR SE -> SR s 0 ->
     safe True (mail_new (bs_ops src) maxl fuel (bs_new s)) (fun a =>
       ends True (mail_provider (bs_ops src) maxl fuel) (within_max INT32_MAX) k a /\ ends True (mail_provider_any (bs_ops src) maxl fuel) (within_max INT32_MAX) k a)).
Proof.
  intros full maxl fuel k Hb Hl Hm Hf Hk. split.
  - eapply safe_impl; [apply (mail_safe ss_ops full True (ss_I full) (fun _ => zlen full) (ss_tame full Hl Hb True) (ss_seek full Hl Hb) I Hl maxl fuel Hm Hf); apply ss_init_I|tauto|].
    intros a H. exact (H k Hk).
  - intros S src fails SR SE s HS Hs. pose proof (srcok_tame src full fails SR SE True HS Hb) as TS.
    eapply safe_impl; [apply (mail_safe (bs_ops src) full True _ bs_hi (bs_tame_bI src (Some full) (zlen full) _ _ TS True ltac:(unfold INT32_MAX, INT64_MAX in *; lia)) (bs_seek src (Some full) (zlen full) _ _ TS) I Hl maxl fuel Hm Hf)|tauto|].
    + split; [apply (bs_new_tI src full fails SR SE True s HS Hs Hb)|]. cbn. discriminate.
    + intros a H. exact (H k Hk).
Qed.
(** a mail whose last part is cut off *)
Definition cut_mail : list Z := firstn (length mail_text - 10) mail_text.
Example C26_mail_case : octets cut_mail /\ exists a st l, mail_new ss_ops maxline 900 (memory cut_mail) = Ret a /\
  iterate (mail_provider_any ss_ops maxline 900) [[Read 1 3; Reset 0; Skip 2]; [Reset 7]; []; [Read 1 0; Read 1 0]] a = Ret (st, l) /\ length l = 2%nat.
Proof.
  split; [unfold octets; let l := eval vm_compute in cut_mail in change cut_mail with l; repeat (apply Forall_cons; [lia|]); apply Forall_nil|].
  destruct (mail_new ss_ops maxline 900 (memory cut_mail)) as [a| | |] eqn:E; [|vm_compute in E; discriminate..].
  vm_compute in E. injection E as <-. do 3 eexists. split; [reflexivity|]. split; [vm_compute; reflexivity|reflexivity].
Qed.
Theorem C26_sdf_ends : forall full, octets full -> zlen full <= INT32_MAX ->
  exists a, sdf_new (memory full) = Ret a /\
    ends False (sdf_provider ss_ops (length full + 1)) (fun i c => within INT32_MAX i c /\ match c with Read mn mx => mn <= mx \/ mx <= 0 | _ => True end) (length full + 1) a.
Proof.
  intros full Hb Hl. destruct (C31_every_file full Hl Hb) as (ms & Hm). destruct (C31_listing_partial full ms Hl Hb Hm) as (a & E & H). exists a. split; [exact E|].
  destruct (listing_size _ _ _ Hm) as (L1 & L2). eapply ends_le; [|instantiate (1 := S (length ms)); lia].
  eapply lists_ends; [exact H|]. intros i m c Hi -> ((H1 & H2) & H3). rewrite Forall_forall in L2. specialize (L2 m Hi). pose proof (zlen_nonneg (m_data m)).
  destruct c as [mn mx|n|p]; cbn [any_call call_ok] in *; lia.
Qed.
(** ... and of every BufferedStream input, for every consumer that stays within the announced size *)
Theorem C26_sdf_stream_ends : forall full fuel k, octets full -> zlen full <= INT64_MAX -> zlen full + 1 < Z.of_nat fuel -> zlen full + 2 < Z.of_nat k ->
  (zlen full <= INT32_MAX -> exists a, sdf_new (memory full) = Ret a /\ ends True (sdf_provider ss_ops fuel) (within INT32_MAX) k a) /\
  (forall S (src : source S Z) fails SR SE s, SrcOK src full fails SR SE -> SR s 0 ->
     exists a, sdf_new (bs_new s) = Ret a /\ ends True (sdf_provider (bs_ops src) fuel) (within INT32_MAX) k a).
Proof.
  intros full fuel k Hb Hl Hf Hk. split.
  - intros Hl'. apply (sdf_safe ss_ops full True (ss_I full) (ss_tame full Hl' Hb True) (ss_firm full Hl' Hb) fuel k _ Hf Hk). apply ss_init_I.
  - intros S src fails SR SE s HS Hs.
    apply (sdf_safe (bs_ops src) full _ _ (bs_new_tame src full fails SR SE True INT32_MAX HS Hb ltac:(unfold INT32_MAX; lia) (or_intror I)) (bs_firm src (Some full) (zlen full) _ _ True I (srcok_tame src full fails SR SE True HS Hb)) fuel k _ Hf Hk).
    apply (bs_new_tI src full fails SR SE True s HS Hs Hb).
Qed.
(** ole: whatever the tables contain *)
Theorem C26_ole_ends : forall big full fuel k, octets full -> zlen full + 3 < Z.of_nat fuel -> zlen full + 3 < Z.of_nat k ->
  (zlen full <= INT32_MAX -> safe True (ole_new big ss_ops (memory full)) (fun a => ends True (ole_provider big fuel) (fun _ => any_call INT32_MAX) k a)) /\
  (forall S (src : source S Z) fails SR SE s, SrcOK src full fails SR SE -> SR s 0 ->
     safe True (ole_new big (bs_ops src) (bs_new s)) (fun a => ends True (ole_provider big fuel) (fun _ => any_call INT32_MAX) k a)).
Proof.
  intros big full fuel k Hb Hf Hk. split.
  - intros Hl. apply (ole_safe big ss_ops full True (ss_I full) (ss_tame full Hl Hb True) _ fuel k (ss_init_I full) Hf Hk).
  - intros S src fails SR SE s HS Hs.
    apply (ole_safe big (bs_ops src) full _ _ (bs_new_tame src full fails SR SE True INT32_MAX HS Hb ltac:(unfold INT32_MAX; lia) (or_intror I)) _ fuel k (bs_new_tI src full fails SR SE True s HS Hs Hb) Hf Hk).
Qed.
(** a cyclic directory and a cyclic stream *)
Example C26_ole_case : octets cyclic /\ exists a st l, ole_new false ss_ops (memory cyclic) = Ret a /\ ol_st a = Ok /\
  iterate (ole_provider false 900) [[Read 1 0; Read 1 0; Skip 200]; []; []] a = Ret (st, l) /\ length l = 2%nat.
Proof.
  split; [apply bytes_dec; vm_compute; reflexivity|].
  destruct (ole_new false ss_ops (memory cyclic)) as [a| | |] eqn:E; [|vm_compute in E; discriminate..].
  vm_compute in E. injection E as <-. do 3 eexists. split; [reflexivity|]. split; [reflexivity|]. split; [vm_compute; reflexivity|reflexivity].
Qed.
(** without undefined behaviour or failed assertions if the table entries are moderate *)
Theorem C27_ole_partial : forall big full, octets full -> zlen full <= INT32_MAX -> tables_moderate full ->
  exists a, ole_new big ss_ops (memory full) = Ret a /\ ends False (ole_provider big (length full + 4)) (fun _ => any_call BUF_LIM) (length full + 4) a.
Proof.
  intros big full Hb Hl Ht. destruct (C28_memory_partial big full Hb Hl Ht) as (a & E & H). exists a. split; [exact E|]. eapply bounded_ends; exact H.
Qed.

(** * C27 *)
(** Reading an ar archive of arbitrary bytes from memory never reads out of bounds, fails an assertion or overflows *)
Theorem C27_ar : forall full fuel k, octets full -> zlen full <= INT32_MAX -> zlen full < 60 * Z.of_nat fuel -> zlen full < Z.of_nat k ->
  exists a, ar_new ss_ops (memory full) = Ret a /\ ends False (ar_provider ss_ops fuel) (within INT32_MAX) k a.
Proof.
  intros full fuel k Hb Hl Hf Hk. pose proof (ar_safe ss_ops full False True (ss_I full) (ss_tame full Hl Hb False) (memory full) fuel k (ss_init_I full) Hf Hk) as H.
  apply safe_ret in H; [exact H|tauto].
Qed.
(** tar: if no 13 bytes of the file spell the magic name of GNU long names *)
Definition no_longlink (full : list Z) : Prop := forall q, 0 <= q -> slice full q 13 <> longlink_name.
Theorem C27_tar_partial : forall full fuel k, octets full -> no_longlink full -> zlen full < 512 * Z.of_nat fuel -> zlen full < Z.of_nat k ->
  (zlen full <= INT32_MAX -> ends False (tar_provider ss_ops fuel) (within INT32_MAX) k (tar_new (memory full))) /\
  (forall S (src : source S Z) fails SR SE s, SrcOK src full fails SR SE -> SR s 0 ->
     ends False (tar_provider (bs_ops src) fuel) (within BUF_LIM) k (tar_new (bs_new s))).
Proof.
  intros full fuel k Hb Hn Hf Hk. split.
  - intros Hl. apply (tar_safe ss_ops full INT32_MAX False True (ss_I full) (ss_tame full Hl Hb False)); [unfold INT32_MAX; lia|left; exact Hn|apply ss_init_I|exact Hf|exact Hk].
  - intros S src fails SR SE s HS Hs. eapply (tar_safe (bs_ops src) full BUF_LIM False _ _ (bs_new_tame src full fails SR SE False BUF_LIM HS Hb ltac:(unfold BUF_LIM, INT32_MAX; lia) (or_introl (Z.le_refl _))));
      [unfold BUF_LIM, INT32_MAX; lia|left; exact Hn| |exact Hf|exact Hk]. apply (bs_new_tI src full fails SR SE False s HS Hs Hb).
Qed.
(** cpio: if wherever a header may be its numbers and its name are readable (CpioSpec.cpio_sane) *)
Theorem C27_cpio_partial : forall full fuel k, octets full -> zlen full < Z.of_nat fuel -> zlen full < Z.of_nat k ->
  (zlen full <= INT32_MAX -> cpio_sane INT32_MAX full -> ends False (cpio_provider ss_ops fuel) (within INT32_MAX) k (cpio_new (memory full))) /\
  (forall S (src : source S Z) fails SR SE s, SrcOK src full fails SR SE -> SR s 0 -> cpio_sane BUF_LIM full ->
     ends False (cpio_provider (bs_ops src) fuel) (within BUF_LIM) k (cpio_new (bs_new s))).
Proof.
  intros full fuel k Hb Hf Hk. split.
  - intros Hl Hs. apply (cpio_safe_content ss_ops full INT32_MAX False True (ss_I full) (ss_tame full Hl Hb False)); [unfold INT32_MAX; lia|right; exact Hs|apply ss_init_I|exact Hf|exact Hk].
  - intros S src fails SR SE s HS Hs Hz. eapply (cpio_safe_content (bs_ops src) full BUF_LIM False _ _ (bs_new_tame src full fails SR SE False BUF_LIM HS Hb ltac:(unfold BUF_LIM, INT32_MAX; lia) (or_introl (Z.le_refl _))));
      [unfold BUF_LIM, INT32_MAX; lia|right; exact Hz| |exact Hf|exact Hk]. apply (bs_new_tI src full fails SR SE False s HS Hs Hb).
Qed.
(** zip from memory; an entry is read with at most 2^30 bytes at a time *)
Theorem C27_zip : forall D (cd : codec D) X DI full mktime bufsize gas fuel k, sane_codec cd X DI -> 0 <= X -> octets full -> zlen full <= INT32_MAX ->
  0 <= bufsize <= BUF_LIM -> zlen full <= Z.of_nat gas -> zlen full < Z.of_nat fuel -> X * (zlen full + 1) < Z.of_nat fuel -> zlen full < Z.of_nat k ->
  ends False (zip_provider cd ss_ops mktime bufsize gas fuel) (within BUF_LIM) k (zip_new (memory full)).
Proof.
  intros D cd X DI full mktime bufsize gas fuel k Hcd HX Hb Hl Hbuf Hg Hf1 Hf2 Hk.
  assert (Tame ss_ops (Some full) BUF_LIM False True (ss_I full)) as HT.
  { destruct (ss_tame full Hl Hb False) as [T1 T2 T3 T4]. split; try assumption. intros p mn mx HI H1 H2 H3. apply T2; try assumption. unfold BUF_LIM, INT32_MAX in *; lia. }
  apply (zip_safe cd X DI Hcd HX ss_ops full BUF_LIM False True (ss_I full) HT); auto; [unfold BUF_LIM, INT32_MAX; split; [lia|left; lia]| |apply ss_init_I].
  right. intros p p' n d HI E. cbn [ss_ops o_read] in E. exact (ss_nonzero full Hl Hb p p' n d HI E).
Qed.

(** ** Concrete cases: a cut archive of each kind, used in different ways *)
Definition cut_ar : list Z := firstn 229 ar_sample.
Example C26_ar_case : octets cut_ar /\ exists st a obs, ar_new ss_ops (memory cut_ar) = Ret a /\
  iterate (ar_provider ss_ops 10) [[Read 2 2; Reset 0; Skip 1]; []] a = Ret (st, [(mkInfo [97;95;108;111;110;103;95;102;105;108;101;95;110;97;109;101;46;99] 3 99 2, obs)]) /\ length obs = 3%nat.
Proof.
  split; [unfold octets; vm_compute cut_ar; repeat (apply Forall_cons; [lia|]); apply Forall_nil|].
  do 3 eexists. split; [vm_compute; reflexivity|]. split; [vm_compute; reflexivity|reflexivity].
Qed.
Example C26_zip_case : octets (firstn 90 zip_sample) /\ exists st l,
  iterate (zip_provider toy_codec ss_ops mk0 16 1000 1000) [[Read 1 0; Reset 0]; []; []; []] (zip_new (memory (firstn 90 zip_sample))) = Ret (st, l) /\ zi_st st = Error /\ length l = 2%nat.
Proof.
  split; [unfold octets; let l := eval vm_compute in (firstn 90 zip_sample) in change (firstn 90 zip_sample) with l; repeat (apply Forall_cons; [lia|]); apply Forall_nil|].
  do 2 eexists. split; [vm_compute; reflexivity|]. split; reflexivity.
Qed.
(** a library as assumed *)
Definition masked : codec toy := mkCodec _ TStart (fun d w space => let '(d, k, y, r) := toy_step d w space in (d, k, map (fun c => c mod 256) y, r)).
Example C26_codec_case : sane_codec masked 1 (fun d u o => o <= u /\ match d with TRest n => 0 <= n | _ => True end).
Proof.
  split.
  - cbn. lia.
  - intros d u o (H & _). lia.
  - assert (forall n w space d k y r, 0 <= n -> 1 <= space -> toy_copy n w space = (d, k, y, r) -> 0 <= k <= zlen w /\ zlen y = k /\ k <= space /\ match d with TRest n => 0 <= n | _ => True end) as Hc.
    { intros n w space d k y r Hn Hs E. unfold toy_copy in E. injection E as <- <- <- _. pose proof (zlen_nonneg w).
      set (m := Z.min n (Z.min space (zlen w))). assert (0 <= m <= n /\ m <= space /\ m <= zlen w) by lia. clearbody m. rewrite zlen_slice by lia. lia. }
    assert (forall y, Forall (fun c => 0 <= c < 256) (map (fun c => c mod 256) y)) as Hb.
    { intros y. apply Forall_forall. intros c Hi. apply in_map_iff in Hi as (z & <- & _). apply Z.mod_pos_bound. lia. }
    intros d u o w space d' k y r (H1 & H2) Hs E. cbn [c_step masked] in E.
    destruct (toy_step d w space) as [[[d1 k1] y1] r1] eqn:Et. injection E as <- <- <- _.
    assert (0 <= k1 <= zlen w /\ zlen y1 <= k1 /\ zlen y1 <= space /\ match d1 with TRest n => 0 <= n | _ => True end) as (G1 & G2 & G3 & G4).
    { pose proof (zlen_nonneg w). destruct d as [|n|]; cbn [toy_step] in Et.
      - destruct w as [|c w]; [injection Et as <- <- <- _; change (zlen (@nil Z)) with 0; split; [lia|]; split; [lia|]; split; [lia|exact I]|].
        destruct (Z.leb_spec 0 c); cbn [andb] in Et; [|injection Et as <- <- <- _; change (zlen (@nil Z)) with 0; split; [lia|]; split; [lia|]; split; [lia|exact I]].
        destruct (c <? 200); [|injection Et as <- <- <- _; change (zlen (@nil Z)) with 0; split; [lia|]; split; [lia|]; split; [lia|exact I]].
        destruct (toy_copy c w space) as [[[d2 k2] y2] r2] eqn:E2. injection Et as <- <- <- _. destruct (Hc c w space d2 k2 y2 r2 ltac:(lia) Hs E2) as (G1 & G2 & G3 & G4). rewrite zlen_cons. split; [lia|]. split; [lia|]. split; [lia|exact G4].
      - destruct (Hc _ _ _ _ _ _ _ H2 Hs Et) as (G1 & G2 & G3 & G4). split; [lia|]. split; [lia|]. split; [lia|exact G4].
      - injection Et as <- <- <- _. change (zlen (@nil Z)) with 0. split; [lia|]; split; [lia|]; split; [lia|exact I]. }
    unfold zlen in *. rewrite map_length. split; [lia|]. split; [lia|]. split; [apply Hb|]. split; [lia|exact G4].
Qed.
Definition masked_lz : lzcodec bool := mkLzcodec _ false (fun d w space fin => let '(d, k, y, r) := cp_step d w space fin in (d, k, map (fun c => c mod 256) y, r)).
Example C26_lzcodec_case : sane_lzcodec masked_lz 1 (fun d u o => o <= u).
Proof.
  split.
  - cbn. lia.
  - intros d u o H. lia.
  - intros d u o w space fin d' k y r H Hs E. cbn [l_step masked_lz] in E. destruct (cp_step d w space fin) as [[[d1 k1] y1] r1] eqn:Et. injection E as <- <- <- <-.
    assert (forall y, Forall (fun c => 0 <= c < 256) (map (fun c => c mod 256) y)) as Hb.
    { intros y. apply Forall_forall. intros c Hi. apply in_map_iff in Hi as (z & <- & _). apply Z.mod_pos_bound. lia. }
    assert (0 <= k1 <= zlen w /\ zlen y1 <= k1 /\ zlen y1 <= space) as (G1 & G2 & G3).
    { unfold cp_step in Et. destruct d, w as [|c w]; [injection Et as _ <- <- _|injection Et as _ <- <- _|injection Et as _ <- <- _|destruct (c =? 1); [injection Et as _ <- <- _|destruct (c =? 0); injection Et as _ <- <- _]];
        rewrite ?zlen_cons; try pose proof (zlen_nonneg w); change (zlen (@nil Z)) with 0; lia. }
    unfold zlen in *. rewrite map_length. split; [lia|]. split; [lia|]. destruct r1; [split; [apply Hb|lia]|exact Logic.I].
Qed.
(** an rpm file whose payload is cut off inside the data of a member *)
Definition cut_rpm : list Z := firstn (length (rpm_sample lz_payload) - 13) (rpm_sample lz_payload).
Example C26_rpm_case : octets cut_rpm /\ exists a st l, rpm_new ss_ops false masked masked masked_lz 16 1000 true (memory cut_rpm) = Ret a /\ rp_st a = Ok /\
  iterate (rpm_provider ss_ops masked masked masked_lz 500) [[Read 1 0; Reset 0]; []; []] a = Ret (st, l) /\ rp_st st = Error /\ length l = 1%nat.
Proof.
  split; [unfold octets; let l := eval vm_compute in cut_rpm in change cut_rpm with l; repeat (apply Forall_cons; [lia|]); apply Forall_nil|].
  destruct (rpm_new ss_ops false masked masked masked_lz 16 1000 true (memory cut_rpm)) as [a| | |] eqn:E; [|vm_compute in E; discriminate..].
  vm_compute in E. injection E as <-. do 3 eexists. split; [reflexivity|]. split; [reflexivity|]. split; [vm_compute; reflexivity|]. split; reflexivity.
Qed.
Example C26_tar_case : forall k, tar_new (memory (firstn 1100 (tar_sample k))) = tar_new (memory (firstn 1100 (tar_sample 0))) /\
  exists st l, iterate (tar_provider ss_ops 10) [[Read 1 0]; []] (tar_new (memory (firstn 1100 (tar_sample 0)))) = Ret (st, l) /\ length l = 1%nat /\ t_st st <> Ok.
Proof.
  intros k. split.
  - reflexivity.
  - do 2 eexists. split; [vm_compute; reflexivity|]. split; [reflexivity|discriminate].
Qed.

(** ** What C27 does not hold for *)
Definition as_file (full : list Z) : bstream fstate Z := bs_new (mkF true 0).
Definition of_file (full : list Z) : ops (bstream fstate Z) Z := bs_ops (file_src full (fun _ _ => false)).
(** ar from a file: the size of the name table is used as a minimum for read(); BufferedStream then
    computes size + needed, which overflows *)
Theorem C27_ar_file_refuted : exists full a, octets full /\ ar_new (of_file full) (as_file full) = Ret a /\ pv_next (ar_provider (of_file full) 10) a = UB.
Proof.
  exists (firstn 8 ar_sample ++ ar_h [47;47] [48] [50;49;52;55;52;56;51;54;52;55]).
  eexists. split; [unfold octets; match goal with |- Forall _ ?l => let l' := eval vm_compute in l in change l with l' end; repeat (apply Forall_cons; [lia|]); apply Forall_nil|].
  split; [vm_compute; reflexivity|lazy; reflexivity].
Qed.
(** zip from a file: with a name of length 0, filename[-1] is read *)
Theorem C27_zip_file_refuted : exists full, octets full /\
  pv_next (zip_provider toy_codec (of_file full) mk0 16 1000 1000) (zip_new (as_file full)) = UB.
Proof.
  exists (zip_h 0 0 1 1 [] [] ++ [1]).
  split; [unfold octets; match goal with |- Forall _ ?l => let l' := eval vm_compute in l in change l with l' end; repeat (apply Forall_cons; [lia|]); apply Forall_nil|].
  vm_compute; reflexivity.
Qed.
(** cpio, from memory: a size of -2 violates the assertion of SubInputStream *)
Theorem C27_cpio_size_refuted : exists full, octets full /\ pv_next (cpio_provider ss_ops 10) (cpio_new (memory full)) = Abort.
Proof.
  exists (cpio_h 0 4294967294 6 ++ [97;98;99;100;101;0]).
  split; [unfold octets; match goal with |- Forall _ ?l => let l' := eval vm_compute in l in change l with l' end; repeat (apply Forall_cons; [lia|]); apply Forall_nil|].
  vm_compute; reflexivity.
Qed.
(** ... a name length of 2^31 - 1 overflows *)
Theorem C27_cpio_namesize_refuted : exists full, octets full /\ pv_next (cpio_provider ss_ops 10) (cpio_new (memory full)) = UB.
Proof.
  exists (cpio_h 0 0 2147483647 ++ [97;98;99;100;101;0]).
  split; [unfold octets; match goal with |- Forall _ ?l => let l' := eval vm_compute in l in change l with l' end; repeat (apply Forall_cons; [lia|]); apply Forall_nil|].
  vm_compute; reflexivity.
Qed.
(** ... a name "./aaaa" of 6 bytes without a NUL is read up to 2 bytes too far *)
Theorem C27_cpio_name_refuted : exists full, octets full /\ pv_next (cpio_provider ss_ops 10) (cpio_new (memory full)) = UB.
Proof.
  exists (cpio_h 0 0 6 ++ [46;47;97;97;97;97]).
  split; [unfold octets; match goal with |- Forall _ ?l => let l' := eval vm_compute in l in change l with l' end; repeat (apply Forall_cons; [lia|]); apply Forall_nil|].
  vm_compute; reflexivity.
Qed.
(** tar, from memory: the header behind a long name is not checked, its numbers may not end *)
Theorem C27_tar_second_header_refuted : exists full, octets full /\ pv_next (tar_provider ss_ops 10) (tar_new (memory full)) = UB.
Proof.
  exists (tar_h longlink_name 3 0 76 ++ pad512 [97;98;0] 509 ++ repeat 48 512 ++ [0]).
  split; [unfold octets; match goal with |- Forall _ ?l => let l' := eval vm_compute in l in change l with l' end; repeat (apply Forall_cons; [lia|]); apply Forall_nil|].
  vm_compute; reflexivity.
Qed.
(** ... from a file: a long name of length 0 *)
Theorem C27_tar_empty_name_refuted : exists full, octets full /\ pv_next (tar_provider (of_file full) 10) (tar_new (as_file full)) = UB.
Proof.
  exists (tar_h longlink_name 0 0 76 ++ tar_h [97] 0 0 48 ++ [0]).
  split; [unfold octets; match goal with |- Forall _ ?l => let l' := eval vm_compute in l in change l with l' end; repeat (apply Forall_cons; [lia|]); apply Forall_nil|].
  vm_compute; reflexivity.
Qed.
(** C26 needs the consumer not to reset beyond the announced size: a substream then fails an assertion *)
Theorem C27_reset_beyond_refuted : exists a st1 i, ar_new ss_ops (memory ar_sample) = Ret a /\ pv_next (ar_provider ss_ops 10) a = Ret (st1, Some i) /\
  pv_entry (ar_provider ss_ops 10) st1 [Reset 10; Read 1 0] = Abort.
Proof. do 3 eexists. split; [vm_compute; reflexivity|]. split; [vm_compute; reflexivity|vm_compute; reflexivity]. Qed.
