(** C54: opening a file ends, whatever its bytes are. *)
From Coq Require Import Permutation.
From Verif Require Import Base StreamSpec P_Stream M_StringStream P_StringStream M_Buffered BufferedSpec P_Buffered M_Sub ArchiveSpec M_Inflate InflateSpec T_Inflate M_Lzma LzmaSpec P_LzCopy
  M_Text M_Detect M_Ar M_Tar M_Zip M_Sdf M_Rpm T_Zip M_MailList T_MailList M_Open OpenEndsSpec T_Open.
From Verif Require Import P_Tame P_TameBuf P_SafeST P_SafeSdf P_EntrySafe T_Safe P_OpenSafe.

Lemma memory_openable full : octets full -> zlen full <= INT32_MAX -> openable True ss_ops (Some full) (zlen full) (ss_I full) (fun _ => zlen full).
Proof.
  intros Hb Hl. split; [eapply tame_neg; [apply (ss_tame full Hl Hb True)|tauto]|]. split; [intros p (H1 & H2 & H3 & _); cbn; lia|]. split; [intros _; split; [intros q Hq; exact Hq|apply (ss_seek full Hl Hb)]|]. split; [apply (ss_firm full Hl Hb)|apply zlen_nonneg].
Qed.
Lemma source_openable {S} (src : source S Z) full fails SR SE : SrcOK src full fails SR SE -> octets full ->
  openable True (bs_ops src) (Some full) (zlen full) (bI (Some full) (zlen full) (srcok_J src full SR) (fun _ => True)) bs_hi.
Proof.
  intros HS Hb. pose proof (srcok_tame src full fails SR SE True HS Hb) as TS.
  split; [apply (bs_tame_bI src _ _ _ _ TS); tauto|]. split; [intros p H; pose proof (sk_pos _ _ _ _ (bs_seek src _ _ _ _ TS) p H); lia|]. split; [intros _; split; [intros q Hq; exact Hq|apply (bs_seek src _ _ _ _ TS)]|]. split; [|apply zlen_nonneg].
  eapply firm_sub; [apply (bs_firm src _ _ _ _ True I TS)|]. intros p H; apply H.
Qed.
Lemma source_start {S} (src : source S Z) full fails SR SE s : SrcOK src full fails SR SE -> SR s 0 -> octets full -> bI (Some full) (zlen full) (srcok_J src full SR) (fun _ => True) (bs_new s).
Proof. intros HS Hs Hb. split; [apply (bs_new_tI src full fails SR SE True s HS Hs Hb)|]. cbn. discriminate. Qed.
Lemma layers_const M n : forall B, layers (fun _ => M) (S n) B = Z.max B M.
Proof. induction n as [|n IH]; intros B; [reflexivity|]. change (layers (fun _ => M) (S (S n)) B) with (layers (fun _ => M) (S n) (Z.max B M)). rewrite IH. lia. Qed.

(** * C54 *)
(** Whatever the bytes of a file are, whether they come from memory or piecewise from a source that may fail, and in whatever
    order the formats are tried: the search for an archive in it ends, and if one is found, so does going through its entries.
    Decompressors as in C26 (at most what is offered is consumed and written, at most [X] times as much as is read);
    here they moreover write at most [M] bytes, and neither the file nor the data of a layer is longer than INT32_MAX.
    As in C26, undefined behaviour and failed assertions count as an end. *)
Theorem C54_open_ends_partial : forall R Dg Db Dl Dz (cg : codec Dg) (cb : codec Db) (cl : lzcodec Dl) (cz : codec Dz) X M DIg DIb DIl DIz bufsize gas alloc_ok big mktime maxl fuel k subs full,
  sane_codec cg X DIg -> sane_codec cb X DIb -> sane_lzcodec cl X DIl -> sane_codec cz X DIz ->
  limited M DIg -> limited M DIb -> limited M DIl ->
  0 <= X <= INT32_MAX -> 0 <= M <= INT32_MAX -> octets full -> zlen full <= INT32_MAX ->
  0 <= bufsize <= BUF_LIM -> 1 <= maxl <= 2 ^ 28 ->
  (let B := Z.max (zlen full) M in B <= Z.of_nat gas /\ (X + 1) * (B + 3) < Z.of_nat fuel /\ (X + 1) * (B + 3) < Z.of_nat k) ->
  Permutation subs (reader_subs cg cb cl bufsize gas alloc_ok cz big mktime maxl fuel) ->
  (forall inp : sstream Z -> R, safe True (open_archive cg cb cl bufsize gas alloc_ok subs (Any ss_ops (memory full) inp)) (opened_ends k)) /\
  (forall S (src : source S Z) fails SR SE s (inp : bstream S Z -> R), SrcOK src full fails SR SE -> SR s 0 ->
     safe True (open_archive cg cb cl bufsize gas alloc_ok subs (Any (bs_ops src) (bs_new s) inp)) (opened_ends k)).
Proof.
  intros R Dg Db Dl Dz cg cb cl cz X M DIg DIb DIl DIz bufsize gas alloc_ok big mktime maxl fuel k subs full Hg Hb Hl Hz Mg Mb Ml HX HM Ho Hlen Hbuf Hmaxl HB Hp. cbv zeta in HB.
  pose proof (zlen_nonneg full) as Hf0. set (B := Z.max (zlen full) M) in *. assert (0 <= B <= INT32_MAX) as HB0 by lia. destruct HB as (HBg & HBf & HBk).
  assert ((X + 1) * (B + 3) = X * (B + 1) + 2 * X + B + 3) as EX by ring.
  assert (0 <= X * (B + 1) <= INT64_MAX) as HXB.
  { split; [apply Z.mul_nonneg_nonneg; lia|]. transitivity (INT32_MAX * (INT32_MAX + 1)); [apply Z.mul_le_mono_nonneg; lia|vm_compute; discriminate]. }
  assert (Forall (sub_ok True k B) subs) as Hs.
  { eapply Permutation_Forall; [apply Permutation_sym; exact Hp|]. apply (reader_subs_ok True cg cb cl X DIg DIb DIl Hg Hb Hl ltac:(lia) bufsize gas alloc_ok Hbuf cz DIz Hz); try assumption; lia. }
  assert (forall x : anystream R, ok_any True (zlen full) x -> safe True (open_archive cg cb cl bufsize gas alloc_ok subs x) (opened_ends k)) as Hgo.
  { intros x Hx. apply (open_safe True cg cb cl X DIg DIb DIl Hg Hb Hl ltac:(lia) bufsize gas alloc_ok Hbuf (fun _ => M) ltac:(intros; cbv beta; lia) ltac:(intros; cbv beta; lia) ltac:(intros d u o b H _; exact (Mg d u o H)) ltac:(intros d u o b H _; exact (Mb d u o H)) ltac:(intros d u o b H _; exact (Ml d u o H))
      fuel k B HBg subs (zlen full) x Hs Hx). rewrite (layers_const M 98). unfold B. lia. }
  split.
  - intros inp. apply Hgo. exists (Some full), (zlen full), (ss_I full), (fun _ => zlen full). split; [apply memory_openable; assumption|]. split; [lia|apply ss_init_I].
  - intros S src fails SR SE s inp HS Hs0. apply Hgo. do 4 eexists. split; [apply (source_openable src full fails SR SE HS Ho)|]. split; [lia|apply (source_start src full fails SR SE s HS Hs0 Ho)].
Qed.
(** Without the limits on the sizes: the layers of compression are always peeled off in finitely many steps ([gas]: the bound for the loops of the model) ... *)
Theorem C54_unwrap_ends : forall R Dg Db Dl (cg : codec Dg) (cb : codec Db) (cl : lzcodec Dl) X DIg DIb DIl bufsize alloc_ok full,
  sane_codec cg X DIg -> sane_codec cb X DIb -> sane_lzcodec cl X DIl -> 0 <= X -> octets full -> 0 <= bufsize <= BUF_LIM ->
  exists n, forall gas, (n <= gas)%nat ->
  (forall inp : sstream Z -> R, zlen full <= INT32_MAX -> safe True (unwrap cg cb cl bufsize gas alloc_ok 32 (Any ss_ops (memory full) inp)) (fun _ => True)) /\
  (forall S (src : source S Z) fails SR SE s (inp : bstream S Z -> R), SrcOK src full fails SR SE -> SR s 0 ->
     safe True (unwrap cg cb cl bufsize gas alloc_ok 32 (Any (bs_ops src) (bs_new s) inp)) (fun _ => True)).
Proof.
  intros R Dg Db Dl cg cb cl X DIg DIb DIl bufsize alloc_ok full Hg Hb Hl HX Ho Hbuf. set (nx := fun B => X * (B + 1)).
  exists (Z.to_nat (layers nx 99 (zlen full))). intros gas Hgas.
  assert (forall x : anystream R, ok_any True (zlen full) x -> safe True (unwrap cg cb cl bufsize gas alloc_ok 32 x) (fun _ => True)) as Hgo.
  { intros x Hx. eapply safe_impl; [apply (unwrap_safe True cg cb cl X DIg DIb DIl Hg Hb Hl HX bufsize gas alloc_ok Hbuf nx) with (B := zlen full)|tauto|auto].
    - intros B HB. unfold nx. apply Z.mul_nonneg_nonneg; lia.
    - intros B B' HB. unfold nx. apply Z.mul_le_mono_nonneg_l; lia.
    - intros d u o B HD Hu. transitivity (X * (u + 1)); [exact (sc_bound _ _ _ Hg _ _ _ HD)|apply Z.mul_le_mono_nonneg_l; lia].
    - intros d u o B HD Hu. transitivity (X * (u + 1)); [exact (sc_bound _ _ _ Hb _ _ _ HD)|apply Z.mul_le_mono_nonneg_l; lia].
    - intros d u o B HD Hu. transitivity (X * (u + 1)); [exact (sl_bound _ _ _ Hl _ _ _ HD)|apply Z.mul_le_mono_nonneg_l; lia].
    - exact Hx.
    - change (3 * 33)%nat with 99%nat. lia. }
  split.
  - intros inp Hlen. apply Hgo. exists (Some full), (zlen full), (ss_I full), (fun _ => zlen full). split; [apply memory_openable; assumption|]. split; [lia|apply ss_init_I].
  - intros S src fails SR SE s inp HS Hs0. apply Hgo. do 4 eexists. split; [apply (source_openable src full fails SR SE HS Ho)|]. split; [lia|apply (source_start src full fails SR SE s HS Hs0 Ho)].
Qed.
(** ... and for the formats ar, zip, tar and sdf nothing else is needed *)
Theorem C54_open_ends_any_size : forall R Dg Db Dl Dz (cg : codec Dg) (cb : codec Db) (cl : lzcodec Dl) (cz : codec Dz) X DIg DIb DIl DIz bufsize alloc_ok mktime full,
  sane_codec cg X DIg -> sane_codec cb X DIb -> sane_lzcodec cl X DIl -> sane_codec cz X DIz -> 0 <= X -> octets full -> 0 <= bufsize <= BUF_LIM ->
  exists n, forall gas fuel k subs, (n <= gas)%nat -> (n <= fuel)%nat -> (n <= k)%nat ->
  Permutation subs [sub_ar fuel; sub_zip bufsize gas cz mktime fuel; sub_tar fuel; sub_sdf fuel] ->
  (forall inp : sstream Z -> R, zlen full <= INT32_MAX -> safe True (open_archive cg cb cl bufsize gas alloc_ok subs (Any ss_ops (memory full) inp)) (opened_ends k)) /\
  (forall S (src : source S Z) fails SR SE s (inp : bstream S Z -> R), SrcOK src full fails SR SE -> SR s 0 ->
     safe True (open_archive cg cb cl bufsize gas alloc_ok subs (Any (bs_ops src) (bs_new s) inp)) (opened_ends k)).
Proof.
  intros R Dg Db Dl Dz cg cb cl cz X DIg DIb DIl DIz bufsize alloc_ok mktime full Hg Hb Hl Hz HX Ho Hbuf. set (nx := fun B => X * (B + 1)). set (Bf := layers nx 99 (zlen full)).
  assert (0 <= Bf) as HBf by (unfold Bf; pose proof (layers_ge nx 99 (zlen full)); pose proof (zlen_nonneg full); lia).
  assert (0 <= X * (Bf + 1)) as HXB by (apply Z.mul_nonneg_nonneg; lia).
  exists (Z.to_nat (Bf + X * (Bf + 1) + 3)). intros gas fuel k subs Hgas Hfuel Hk Hp.
  assert (Forall (sub_ok True k Bf) subs) as Hs.
  { eapply Permutation_Forall; [apply Permutation_sym; exact Hp|]. repeat apply Forall_cons; [eapply (ar_sub True X bufsize gas)|eapply (zip_sub True X)|eapply (tar_sub True X bufsize gas)|eapply (sdf_sub True X bufsize gas)|apply Forall_nil]; try eassumption; lia. }
  assert (forall x : anystream R, ok_any True (zlen full) x -> safe True (open_archive cg cb cl bufsize gas alloc_ok subs x) (opened_ends k)) as Hgo.
  { intros x Hx. apply (open_safe True cg cb cl X DIg DIb DIl Hg Hb Hl HX bufsize gas alloc_ok Hbuf nx) with (Bf := Bf) (B := zlen full).
    - intros B HB. unfold nx. apply Z.mul_nonneg_nonneg; lia.
    - intros B B' HB. unfold nx. apply Z.mul_le_mono_nonneg_l; lia.
    - intros d u o B HD Hu. transitivity (X * (u + 1)); [exact (sc_bound _ _ _ Hg _ _ _ HD)|apply Z.mul_le_mono_nonneg_l; lia].
    - intros d u o B HD Hu. transitivity (X * (u + 1)); [exact (sc_bound _ _ _ Hb _ _ _ HD)|apply Z.mul_le_mono_nonneg_l; lia].
    - intros d u o B HD Hu. transitivity (X * (u + 1)); [exact (sl_bound _ _ _ Hl _ _ _ HD)|apply Z.mul_le_mono_nonneg_l; lia].
    - exact fuel.
    - lia.
    - exact Hs.
    - exact Hx.
    - unfold Bf. lia. }
  split.
  - intros inp Hlen. apply Hgo. exists (Some full), (zlen full), (ss_I full), (fun _ => zlen full). split; [apply memory_openable; assumption|]. split; [lia|apply ss_init_I].
  - intros S src fails SR SE s inp HS Hs0. apply Hgo. do 4 eexists. split; [apply (source_openable src full fails SR SE HS Ho)|]. split; [lia|apply (source_start src full fails SR SE s HS Hs0 Ho)].
Qed.

(** ** Libraries as assumed *)
(** the library [cd], given up after [M] bytes of output *)
Definition capped {D} (M : Z) (cd : codec D) : codec (D * Z) := mkCodec _ (c_init cd, 0) (fun '(d, n) w space =>
  if n <? M then let '(d, k, y, r) := c_step cd d w (Z.min space (M - n)) in ((d, n + zlen y), k, y, r) else ((d, n), 0, [], Bad)).
Definition capped_DI {D} (M : Z) (DI : D -> Z -> Z -> Prop) : D * Z -> Z -> Z -> Prop := fun '(d, n) u o => DI d u o /\ n = o /\ o <= M.
Lemma capped_sane {D} M (cd : codec D) X DI : 0 <= M -> sane_codec cd X DI -> sane_codec (capped M cd) X (capped_DI M DI) /\ limited M (capped_DI M DI).
Proof.
  intros HM [H1 H2 H3]. split; [split|].
  - split; [exact H1|]. split; [reflexivity|exact HM].
  - intros (d & n) u o (H & _). exact (H2 _ _ _ H).
  - intros (d & n) u o w space d' k y r (HD & -> & HoM) Hs E. cbn [capped c_step] in E. destruct (Z.ltb_spec o M).
    + destruct (c_step cd d w (Z.min space (M - o))) as (((d1 & k1) & y1) & r1) eqn:Ec. injection E as <- <- <- <-. destruct (H3 d u o w (Z.min space (M - o)) _ _ _ _ HD ltac:(lia) Ec) as (A1 & A2 & A3 & A4).
      split; [exact A1|]. split; [lia|]. split; [exact A3|]. cbn. split; [exact A4|]. split; [reflexivity|lia].
    + injection E as <- <- <- <-. change (zlen (@nil Z)) with 0. pose proof (zlen_nonneg w). split; [lia|]. split; [lia|]. split; [constructor|]. cbn. rewrite !Z.add_0_r. auto.
  - intros (d & n) u o (_ & _ & H). exact H.
Qed.
Definition lcapped {D} (M : Z) (cd : lzcodec D) : lzcodec (D * Z) := mkLzcodec _ (l_init cd, 0) (fun '(d, n) w space fin =>
  if n <? M then let '(d, k, y, r) := l_step cd d w (Z.min space (M - n)) fin in ((d, n + zlen y), k, y, r) else ((d, n), 0, [], LBad)).
Lemma lcapped_sane {D} M (cd : lzcodec D) X DI : 0 <= M -> sane_lzcodec cd X DI -> sane_lzcodec (lcapped M cd) X (capped_DI M DI) /\ limited M (capped_DI M DI).
Proof.
  intros HM [H1 H2 H3]. split; [split|].
  - split; [exact H1|]. split; [reflexivity|exact HM].
  - intros (d & n) u o (H & _). exact (H2 _ _ _ H).
  - intros (d & n) u o w space fin d' k y r (HD & -> & HoM) Hs E. cbn [lcapped l_step] in E. destruct (Z.ltb_spec o M).
    + destruct (l_step cd d w (Z.min space (M - o)) fin) as (((d1 & k1) & y1) & r1) eqn:Ec. injection E as <- <- <- <-. destruct (H3 d u o w (Z.min space (M - o)) fin _ _ _ _ HD ltac:(lia) Ec) as (A1 & A2 & A3).
      split; [exact A1|]. split; [lia|]. destruct r1; [|exact I]. destruct A3 as (A3 & A4). split; [exact A3|]. cbn. split; [exact A4|]. split; [reflexivity|lia].
    + injection E as <- <- <- <-. change (zlen (@nil Z)) with 0. pose proof (zlen_nonneg w). split; [lia|]. split; [lia|]. exact I.
  - intros (d & n) u o (_ & _ & H). exact H.
Qed.
(** the library [cd] behind a header of [n] bytes *)
Definition after {D} (n : Z) (cd : codec D) : codec (D * Z) := mkCodec _ (c_init cd, n) (fun '(d, n) w space =>
  let m := Z.min n (zlen w) in let '(d, k, y, r) := c_step cd d (slice w m (zlen w - m)) space in ((d, n - m), m + k, y, r)).
Definition after_DI {D} (DI : D -> Z -> Z -> Prop) : D * Z -> Z -> Z -> Prop := fun '(d, n) u o => 0 <= n /\ exists v, v <= u /\ DI d v o.
Lemma after_sane {D} n (cd : codec D) X DI : 0 <= X -> 0 <= n -> sane_codec cd X DI -> sane_codec (after n cd) X (after_DI DI).
Proof.
  intros HX Hn [H1 H2 H3]. split.
  - split; [exact Hn|]. exists 0. split; [lia|exact H1].
  - intros (d & m) u o (_ & v & Hv & H). specialize (H2 _ _ _ H). transitivity (X * (v + 1)); [exact H2|apply Z.mul_le_mono_nonneg_l; lia].
  - intros (d & m) u o w space d' k y r (Hm & v & Hv & HD) Hs E. cbn [after c_step] in E. pose proof (zlen_nonneg w). set (q := Z.min m (zlen w)) in *.
    destruct (c_step cd d (slice w q (zlen w - q)) space) as (((d1 & k1) & y1) & r1) eqn:Ec. injection E as <- <- <- <-. destruct (H3 _ _ _ _ _ _ _ _ _ HD Hs Ec) as (A1 & A2 & A3 & A4).
    rewrite zlen_slice in A1 by lia. split; [lia|]. split; [exact A2|]. split; [exact A3|]. cbn. split; [lia|]. exists (v + k1). split; [lia|exact A4].
Qed.
Notation gzs := (capped 200 (after 2 masked)).
Notation bzs := (capped 200 (after 10 masked)).
Notation lzs := (lcapped 200 masked_lz).
(** a zip archive inside of gzip, cut off in its directory, is found and gone through; in a gzip file that is cut off nothing is found *)
Definition cut_zip : list Z := 31 :: 139 :: 60 :: firstn 60 zip_one ++ [9;9].
Definition opened_200 (full : list Z) : out (opened (sstream Z)) :=
  open_archive gzs bzs lzs 262144 300 true (reader_subs gzs bzs lzs 262144 300 true masked false mk0 maxline 500) (Any ss_ops (memory full) (fun p => p)).
Example C54_case : octets cut_zip /\ (exists DI, sane_codec gzs 1 DI /\ limited 200 DI) /\ (exists DI, sane_codec bzs 1 DI /\ limited 200 DI) /\ (exists DI, sane_lzcodec lzs 1 DI /\ limited 200 DI) /\
  (let B := Z.max (zlen cut_zip) 200 in B <= Z.of_nat 300 /\ (1 + 1) * (B + 3) < Z.of_nat 500) /\
  match opened_200 cut_zip with
  | Ret (Found pv st i _) => i_name i = [97] /\ match pv_entry pv st [Read 1 2; Reset 0] with Ret (st, obs) => length obs = 2%nat /\ match pv_next pv st with Ret (_, None) => True | _ => False end | _ => False end
  | _ => False end /\
  match opened_200 (firstn 60 in_gzip) with Ret (NoArchive _) => True | _ => False end.
Proof.
  split; [unfold octets; let l := eval vm_compute in cut_zip in change cut_zip with l; repeat (apply Forall_cons; [lia|]); apply Forall_nil|].
  split; [eexists; apply capped_sane; [lia|]; apply after_sane; [lia|lia|apply C26_codec_case]|].
  split; [eexists; apply capped_sane; [lia|]; apply after_sane; [lia|lia|apply C26_codec_case]|].
  split; [eexists; apply lcapped_sane; [lia|]; apply C26_lzcodec_case|].
  split; [vm_compute; split; [discriminate|reflexivity]|]. split; [vm_compute; auto|vm_compute; exact I].
Qed.
(** A library for which every file is the compressed form of itself: 33 layers of gzip are removed, then there is no archive.
    (Such files exist for the real gzip format.) *)
Definition itself : codec unit := mkCodec _ tt (fun _ w space => let k := Z.min (zlen w) space in (tt, k, map (fun c => c mod 256) (slice w 0 k), if k <? space then End else More)).
Lemma itself_sane : sane_codec itself 1 (fun _ u o => o <= u).
Proof.
  split; [lia|intros; lia|]. intros d u o w space d' k y r H Hs E. cbn [itself c_step] in E. injection E as _ <- <- _. pose proof (zlen_nonneg w).
  assert (zlen (map (fun c => c mod 256) (slice w 0 (Z.min (zlen w) space))) = Z.min (zlen w) space) as -> by (unfold zlen; rewrite map_length; apply zlen_slice; fold (zlen w); lia).
  split; [lia|]. split; [lia|]. split; [|lia]. apply Forall_forall. intros c Hi. apply in_map_iff in Hi as (z & <- & _). apply Z.mod_pos_bound. lia.
Qed.
Fixpoint depth {R} (k : nat) (x : anystream R) : nat :=
  match k with O => O | S k => match try_gzip (capped 200 itself) 8 300 x with Ret (y, true) => S (depth k y) | _ => O end end.
Example C54_case_itself : octets [31;139;5] /\ (exists DI, sane_codec (capped 200 itself) 1 DI /\ limited 200 DI) /\
  depth 50 (Any ss_ops (memory [31;139;5]) (fun p => p)) = 50%nat /\
  match open_archive (capped 200 itself) bzs lzs 8 300 true (reader_subs (capped 200 itself) bzs lzs 8 300 true masked false mk0 maxline 500) (Any ss_ops (memory [31;139;5]) (fun p => p)) with Ret (NoArchive _) => True | _ => False end.
Proof.
  split; [unfold octets; repeat (apply Forall_cons; [lia|]); apply Forall_nil|]. split; [eexists; apply capped_sane; [lia|apply itself_sane]|].
  split; vm_compute; [reflexivity|exact I].
Qed.
