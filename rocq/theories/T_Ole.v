(** OLE compound files: C28 (every file) and C41 (well-formed files). *)
From Verif Require Import Base StreamSpec P_Stream M_StringStream P_StringStream M_Kmp M_Buffered BufferedSpec P_Buffered M_File T_Streams ArchiveSpec.
From Verif Require Import B64Spec TextSpec T_Text M_Text M_Detect DetectSpec P_Detect OleSpec M_Ole P_Ole P_Ole4 P_OleV3.

(** * C28 *)
(** For every byte string whose table entries are moderate, over every conforming input: opening returns; iterating
    ends after fewer than size + 4 entries; every read, skip and reset on an entry returns (no access out of
    bounds, no failed assertion, no endless loop); and an entry delivers at most size + 64 bytes. *)
Theorem C28_every_file_partial : forall (P : Type) (big : bool) (par : ops P Z) (D : list Z) (lim : Z) (p : P) fuel,
  Forall (fun c => 0 <= c < 256) D -> zlen D <= INT32_MAX -> zlen D <= lim -> 10000000 <= lim ->
  Conforms par D False lim p view0 -> tables_moderate D ->
  ((exists k, zlen D = 512 * k) \/ (forall h q obs, run par p h = Ret (q, obs) -> o_size par q = zlen D)) ->
  (length D + 4 <= fuel)%nat ->
  exists a, ole_new big par p = Ret a /\ bounded (ole_provider big fuel) BUF_LIM (zlen D + 64) (length D + 4) a.
Proof. intros P big par D lim p fuel HB HL H1 H2 HC HT HS Hf. apply (ole_new_ok big par D lim p HB HL); auto. Qed.

(** A stream that is not an OLE file: the provider has status Error and there is no entry (whatever the bytes are: the header is not
    looked at any further).  nextEntry() then reports the end, not the error. *)
Theorem C28_not_ole : forall (P : Type) (big : bool) (par : ops P Z) (D : list Z) (lim : Z) (p : P) fuel,
  Forall (fun c => 0 <= c < 256) D -> zlen D <= lim -> 10000000 <= lim -> Conforms par D False lim p view0 ->
  ~ is_ole D \/ zlen D < 512 ->
  exists a a', ole_new big par p = Ret a /\ pv_status (ole_provider big fuel) a = Error /\
    pv_next (ole_provider big fuel) a = Ret (a', None) /\ pv_status (ole_provider big fuel) a' = Eof.
Proof.
  intros P big par D lim p fuel HB Hl1 Hl2 HC Hno. pose proof (conj Hl1 Hl2) as Hlim.
  assert (ole_load big par p = Ret None) as EL.
  { unfold ole_load. destruct (rd par D lim Hlim p view0 512 512 HC) as (p1 & n1 & d1 & v1 & E1 & R1 & Hd1 & Hn1 & Hlo1 & Hs1); [lia|unfold INT32_MAX; lia|].
    rewrite E1. cbn [bind]. cbn [view0 v_pos] in *. destruct (Z.eqb_spec n1 512) as [->|Hne]; cbn [negb]; [|reflexivity].
    destruct (Hd1 eq_refl) as (Hlo & Hhi & ->). assert (512 <= zlen D) as H5 by lia.
    destruct (rs par D lim Hlim p1 v1 R1 Hlo) as (p2 & r2 & v2 & E2 & R2 & Hp2 & Hlo2 & Hs2). rewrite E2. cbn [bind].
    assert (HBh : Forall byte (slice D 0 512)) by (apply Forall_slice; exact HB).
    assert (HLh : zlen (slice D 0 512) = 512) by (apply zlen_slice; lia).
    rewrite !le32_ok by (assumption || lia). cbn [bind].
    destruct (ole_check_ok (slice D 0 512)) as (ok & -> & Hok). cbn [bind].
    assert (ok = false) as ->.
    { destruct ok; [exfalso|reflexivity]. destruct Hno as [Hno|Hno]; [|lia]. apply Hno. destruct (proj1 Hok eq_refl) as (M1 & M2). split; [|lia].
      apply starts_slice in M1 as (_ & M1). apply starts_slice. change (zlen [208;207;17;224;161;177;26;225]) with 8 in *. split; [lia|].
      rewrite slice_slice in M1 by lia. exact M1. }
    reflexivity. }
  unfold ole_new. rewrite EL. cbn [bind].
  destruct (new_buf ole_dead) as (x & Ex & E1 & _). rewrite Ex. cbn [bind]. do 2 eexists. split; [reflexivity|]. split; [reflexivity|].
  cbn [ole_provider pv_next pv_status]. unfold ole_next. cbn [ol_str]. rewrite E1. split; reflexivity.
Qed.
Example C28_not_ole_case : ~ is_ole (repeat 7 600) /\ exists a a', ole_new false ss_ops (mkSS (repeat 7 600) 600 0 Ok) = Ret a /\ ol_st a = Error /\ pv_next (ole_provider false 5) a = Ret (a', None).
Proof.
  assert (~ is_ole (repeat 7 600)) as Hn by (intros (M & _); apply starts_slice in M as (_ & M); vm_compute in M; discriminate).
  split; [exact Hn|].
  destruct (C28_not_ole _ false ss_ops (repeat 7 600) INT32_MAX (mkSS (repeat 7 600) 600 0 Ok) 5) as (a & a' & E1 & E2 & E3 & _).
  - apply Forall_forall. intros c Hc. apply repeat_spec in Hc. subst. lia.
  - vm_compute. discriminate.
  - vm_compute. discriminate.
  - apply (ss_conforms (repeat 7 600)). vm_compute. discriminate.
  - left. exact Hn.
  - exists a, a'. auto.
Qed.

(** StringStreams announce their size *)
Lemma ss_size_exec : forall (q q' : sstream Z) c ob, exec ss_ops q c = Ret (q', ob) -> ss_size q' = ss_size q.
Proof.
  assert (forall (q : sstream Z) mn mx q' n d, ss_read q mn mx = Ret (q', n, d) -> ss_size q' = ss_size q) as Hr.
  { intros q mn mx q' n d. unfold ss_read. destruct (_ =? 0); [intros H; injection H as <- _ _; reflexivity|].
    cbv zeta. match goal with |- (if ?c then _ else _) = _ -> _ => destruct c end; [|discriminate]. intros H; injection H as <- _ _; reflexivity. }
  intros q q' [mn mx|n|p] ob; cbn [exec ss_ops o_read o_skip o_reset].
  - destruct (ss_read q mn mx) as [[[q1 n] d]| | |] eqn:E; cbn [bind]; try discriminate. intros H; injection H as <- _. eapply Hr; exact E.
  - unfold ss_skip. destruct (n =? 0); [intros H; injection H as <- _; reflexivity|].
    destruct (ss_read q _ _) as [[[q1 k] d]| | |] eqn:E; cbn [bind]; try discriminate. intros H; injection H as <- _. eapply Hr; exact E.
  - unfold ss_reset. cbn [bind]. intros H; injection H as <- _. destruct (p <? 0); [reflexivity|]. destruct (p <? ss_size q); reflexivity.
Qed.
Lemma ss_size_run : forall h (q q' : sstream Z) obs, run ss_ops q h = Ret (q', obs) -> ss_size q' = ss_size q.
Proof.
  induction h as [|c h IH]; intros q q' obs H; cbn [run] in H; [injection H as <- _; reflexivity|].
  destruct (exec ss_ops q c) as [[q1 ob]| | |] eqn:E; cbn [bind] in H; try discriminate. apply ss_size_exec in E.
  destruct (is_error (ob_st ob)); [injection H as <- _; exact E|].
  destruct (run ss_ops q1 h) as [[q2 obs2]| | |] eqn:E2; cbn [bind] in H; try discriminate. injection H as <- _. rewrite <- E. eapply IH; exact E2.
Qed.
Definition in_memory (D : list Z) : sstream Z := mkSS D (zlen D) 0 Ok.
(** ... so for a file in memory (or mapped) only the tables matter *)
Theorem C28_memory_partial : forall big D, Forall (fun c => 0 <= c < 256) D -> zlen D <= INT32_MAX -> tables_moderate D ->
  exists a, ole_new big ss_ops (in_memory D) = Ret a /\ bounded (ole_provider big (length D + 4)) BUF_LIM (zlen D + 64) (length D + 4) a.
Proof.
  intros big D HB HL HT. apply (C28_every_file_partial (sstream Z) big ss_ops D INT32_MAX (in_memory D)); auto.
  - unfold INT32_MAX. lia.
  - apply ss_conforms. exact HL.
  - right. intros h q obs Hr. cbn [ss_ops o_size]. apply ss_size_run in Hr. exact Hr.
Qed.

(** ** files *)
Definition le4 (n : Z) : list Z := [n mod 256; n / 256 mod 256; n / 65536 mod 256; n / 16777216 mod 256].
Definition pad (n : nat) (c : Z) (l : list Z) : list Z := firstn n (l ++ repeat c n).
Definition hdr (nbat dir sbat xbat nxbat : Z) (bats : list Z) : list Z :=
  pad 512 255 ([208;207;17;224;161;177;26;225] ++ repeat 0 36 ++ le4 nbat ++ le4 dir ++ repeat 0 8 ++ le4 sbat ++ repeat 0 4 ++ le4 xbat ++ le4 nxbat ++ concat (map le4 bats)).
Definition words (l : list Z) : list Z := pad 512 255 (concat (map le4 l)).
Definition dirent (name : list Z) (type start size : Z) : list Z :=
  pad 64 0 (concat (map (fun c => [c; 0]) name)) ++ [2 * (zlen name + 1); 0; type] ++ repeat 0 49 ++ le4 start ++ le4 size ++ repeat 0 4.
Definition some_data (k : Z) (n : nat) : list Z := map (fun i => (Z.of_nat i + k) mod 251) (seq 0 n).

(** both the directory and the only stream are cyclic chains of sectors, the stream pretends to have 100000 bytes *)
Definition cyclic : list Z :=
  hdr 1 1 (-2) (-2) 0 [0] ++ words [-3; 1; 3; 2] ++
  (dirent [82] 5 (-2) 0 ++ dirent [97] 2 2 100000 ++ dirent [98] 1 0 0 ++ dirent [] 0 0 0) ++ some_data 1 512 ++ some_data 7 512.
Lemma bytes_dec l : forallb (fun c => (0 <=? c) && (c <? 256)) l = true -> Forall (fun c => 0 <= c < 256) l.
Proof. rewrite forallb_forall, Forall_forall. intros H x Hx. apply H in Hx. rewrite andb_true_iff, Z.leb_le, Z.ltb_lt in Hx. lia. Qed.
Example C28_case : Forall (fun c => 0 <= c < 256) cyclic /\ tables_moderate cyclic /\ zlen cyclic = 2560.
Proof.
  split; [apply bytes_dec; vm_compute; reflexivity|]. split; [|vm_compute; reflexivity].
  assert (h_nbat cyclic = 1) as E1 by (vm_compute; reflexivity). assert (h_nxbat cyclic = 0) as E2 by (vm_compute; reflexivity).
  assert (h_dir cyclic = 1) as E3 by (vm_compute; reflexivity). assert (h_sbat cyclic = -2) as E4 by (vm_compute; reflexivity).
  assert (h_xbat cyclic = -2) as E5 by (vm_compute; reflexivity). assert (sec_word cyclic 1 29 = -2) as E6 by (vm_compute; reflexivity).
  assert (h_bat cyclic 0 = 0) as E7 by (vm_compute; reflexivity).
  split; rewrite ?E1, ?E2, ?E3, ?E4, ?E5, ?E6; unfold moderate; try lia.
  - intros i H1 H2. assert (i = 0) as -> by lia. rewrite E7. lia.
  - cbn [Z.to_nat xbat_moderate]. unfold moderate. lia.
Qed.

(** ** outside of these hypotheses *)
(** 128 * (number of extra blocks) overflows *)
Theorem C28_count_overflow_refuted : exists D, Forall (fun c => 0 <= c < 256) D /\ zlen D = 512 /\ ole_new false ss_ops (in_memory D) = UB.
Proof. exists (hdr 1 0 0 0 16777216 [0]). split; [apply bytes_dec; vm_compute; reflexivity|]. split; vm_compute; reflexivity. Qed.
(** ... also if it is negative and going to be rejected *)
Theorem C28_negative_count_refuted : exists D, Forall (fun c => 0 <= c < 256) D /\ zlen D = 512 /\ h_nxbat D < 0 /\ ole_new false ss_ops (in_memory D) = UB.
Proof. exists (hdr 1 0 0 0 (-16777217) [0]). split; [apply bytes_dec; vm_compute; reflexivity|]. split; [|split]; vm_compute; reflexivity. Qed.
(** the offset of the directory sector overflows *)
Theorem C28_directory_overflow_refuted : exists D, Forall (fun c => 0 <= c < 256) D /\ zlen D = 512 /\ ole_new false ss_ops (in_memory D) = UB.
Proof. exists (hdr 1 4194302 0 0 0 [0]). split; [apply bytes_dec; vm_compute; reflexivity|]. split; vm_compute; reflexivity. Qed.
(** the offset of a table sector overflows: only noticed when the chain of the small block table is followed *)
Theorem C28_table_overflow_refuted : exists D, Forall (fun c => 0 <= c < 256) D /\ zlen D = 1024 /\ ole_new false ss_ops (in_memory D) = UB.
Proof. exists (hdr 1 0 0 0 0 [-4194306] ++ repeat 0 512). split; [apply bytes_dec; vm_compute; reflexivity|]. split; vm_compute; reflexivity. Qed.
(** the input does not know its size and the directory sector is cut: read out of bounds; the tables are moderate *)
Definition cut : list Z := firstn 633 (hdr 0 0 (-2) (-2) 0 [] ++ dirent [82] 5 (-2) 0 ++ repeat 0 384).
Theorem C28_cut_directory_refuted : Forall (fun c => 0 <= c < 256) cut /\ tables_moderate cut /\ exists (src : source fstate Z) s a,
  Conforms (bs_ops src) cut False BUF_LIM s view0 /\ ole_new false (bs_ops src) s = Ret a /\ pv_next (ole_provider false 100) a = UB.
Proof.
  split; [apply bytes_dec; vm_compute; reflexivity|]. split.
  { assert (h_nbat cut = 0) as E1 by (vm_compute; reflexivity). assert (h_nxbat cut = 0) as E2 by (vm_compute; reflexivity).
    assert (h_dir cut = 0) as E3 by (vm_compute; reflexivity). assert (h_sbat cut = -2) as E4 by (vm_compute; reflexivity).
    assert (h_xbat cut = -2) as E5 by (vm_compute; reflexivity). assert (sec_word cut 0 29 = -2) as E6 by (vm_compute; reflexivity).
    split; rewrite ?E1, ?E2, ?E3, ?E4, ?E5, ?E6; unfold moderate; try lia. cbn [Z.to_nat xbat_moderate]. unfold moderate. lia. }
  exists (file_src cut (fun _ _ => false)), (bs_new (mkF true 0)).
  assert (match ole_new false (bs_ops (file_src cut (fun _ _ => false))) (bs_new (mkF true 0)) with
          | Ret a => match ole_next false 100 a with UB => true | _ => false end | _ => false end = true) as E by (vm_compute; reflexivity).
  destruct (ole_new false (bs_ops (file_src cut (fun _ _ => false))) (bs_new (mkF true 0))) as [a| | |]; try discriminate E.
  exists a. split; [|split; [reflexivity|]].
  { eapply C02_buffered_contract; [apply (proj1 (C02_case cut))|]. apply C02_case. apply zlen_nonneg. }
  cbn [ole_provider pv_next]. destruct (ole_next false 100 a) as [r| | |]; try discriminate E. reflexivity.
Qed.
(** the first block of a chain is not marked as used: it can be visited twice, here 0, 1, 0, without an error *)
Definition twice : list Z :=
  hdr 1 1 2 (-2) 0 [0] ++ words [-3; -2; -2; -2] ++
  (dirent [82] 5 3 512 ++ dirent [97] 2 0 140 ++ dirent [] 0 0 0 ++ dirent [] 0 0 0) ++ words [1; 0] ++ some_data 7 512.
Theorem C28_first_block_twice_refuted : Forall (fun c => 0 <= c < 256) twice /\ tables_moderate twice /\
  exists a a1 i a2 o1 o2, ole_new false ss_ops (in_memory twice) = Ret a /\ pv_next (ole_provider false 100) a = Ret (a1, Some i) /\
    pv_entry (ole_provider false 100) a1 [Read 140 140; Read 1 1] = Ret (a2, [o1; o2]) /\
    ob_data o1 = minisector twice [3] 0 ++ minisector twice [3] 1 ++ firstn 12 (minisector twice [3] 0) /\ ob_ret o1 = 140 /\ ob_ret o2 = -1 /\ ob_st o2 = Eof.
Proof.
  split; [apply bytes_dec; vm_compute; reflexivity|]. split.
  { assert (h_nbat twice = 1) as E1 by (vm_compute; reflexivity). assert (h_nxbat twice = 0) as E2 by (vm_compute; reflexivity).
    assert (h_dir twice = 1) as E3 by (vm_compute; reflexivity). assert (h_sbat twice = 2) as E4 by (vm_compute; reflexivity).
    assert (h_xbat twice = -2) as E5 by (vm_compute; reflexivity). assert (sec_word twice 1 29 = 3) as E6 by (vm_compute; reflexivity).
    assert (h_bat twice 0 = 0) as E7 by (vm_compute; reflexivity).
    split; rewrite ?E1, ?E2, ?E3, ?E4, ?E5, ?E6; unfold moderate; try lia.
    - intros i H1 H2. assert (i = 0) as -> by lia. rewrite E7. lia.
    - cbn [Z.to_nat xbat_moderate]. unfold moderate. lia. }
  destruct (ole_new false ss_ops (in_memory twice)) as [a| | |] eqn:Ea; [|vm_compute in Ea; discriminate Ea..]. exists a.
  destruct (pv_next (ole_provider false 100) a) as [[a1 [i|]]| | |] eqn:E1; [|exfalso; vm_compute in Ea; injection Ea as <-; vm_compute in E1; discriminate E1..].
  exists a1, i. 
  destruct (pv_entry (ole_provider false 100) a1 [Read 140 140; Read 1 1]) as [[a2 obs]| | |] eqn:E2;
    [|exfalso; vm_compute in Ea; injection Ea as <-; vm_compute in E1; injection E1 as <- <-; vm_compute in E2; discriminate E2..].
  vm_compute in Ea; injection Ea as <-; vm_compute in E1; injection E1 as <- <-; vm_compute in E2; injection E2 as <- <-.
  do 3 eexists. split; [reflexivity|]. split; [reflexivity|]. split; [reflexivity|]. split; [vm_compute; reflexivity|]. split; [reflexivity|]. split; reflexivity.
Qed.

(** * C41 *)
(** Every well-formed file (with extra table sectors or without, all sectors complete) whose small blocks are not numbered
    beyond the number of sectors and whose last sector is not an extra table sector: the streams of the directory are listed, each with its name, size and contents, whatever
    the consumer does with them, and the iteration ends with Eof. *)
Theorem C41_listing_partial : forall (P : Type) (big : bool) (par : ops P Z) (D xb bt dirs sb ms : list Z) (l : list member) (B S : list Z) (lim : Z) (p : P) fuel,
  ole_file D xb bt dirs sb ms l B S -> Forall (fun x => x <= zlen D / 512 - 2) S -> Forall (fun x => 512 * (x + 2) < zlen D) xb ->
  zlen D <= INT32_MAX -> zlen D <= lim -> 10000000 <= lim ->
  Conforms par D False lim p view0 -> (forall h q obs, run par p h = Ret (q, obs) -> o_size par q = zlen D) ->
  (length D <= fuel)%nat ->
  exists a, ole_new big par p = Ret a /\ lists (ole_provider big fuel) BUF_LIM l a.
Proof. intros P big par D xb bt dirs sb ms l B S lim p fuel HF HS HX HL H1 H2 HC Hsz Hf. apply (ole_new_val big D xb bt dirs sb ms l B S HF HL HS HX par lim p); auto. Qed.
Theorem C41_memory_partial : forall big D xb bt dirs sb ms l B S, ole_file D xb bt dirs sb ms l B S -> Forall (fun x => x <= zlen D / 512 - 2) S ->
  Forall (fun x => 512 * (x + 2) < zlen D) xb -> zlen D <= INT32_MAX ->
  exists a, ole_new big ss_ops (in_memory D) = Ret a /\ lists (ole_provider big (length D)) BUF_LIM l a.
Proof.
  intros big D xb bt dirs sb ms l B S HF HS HX HL. apply (C41_listing_partial (sstream Z) big ss_ops D xb bt dirs sb ms l B S INT32_MAX (in_memory D)); auto.
  - unfold INT32_MAX. lia.
  - apply ss_conforms. exact HL.
  - intros h q obs Hr. cbn [ss_ops o_size]. apply ss_size_run in Hr. exact Hr.
Qed.

(** a file with a small stream "a" in the small blocks 1 and 3, and a stream "big" in nine sectors *)
Definition small_content : list Z := some_data 3 100.
Definition big_content : list Z := some_data 11 4100.
Definition good : list Z :=
  hdr 1 1 2 (-2) 0 [0] ++ words [-3; -2; -2; 4; -2; 7; 9; 8; 6; 10; 11; 12; 13; -2] ++
  (dirent [82] 5 3 1024 ++ dirent [97] 2 1 100 ++ dirent [83] 1 0 0 ++ dirent [98; 105; 103] 2 5 4100) ++
  words [-1; 3; -1; -2] ++
  (repeat 1 64 ++ firstn 64 small_content ++ repeat 2 64 ++ pad 64 0 (skipn 64 small_content) ++ repeat 3 256) ++ repeat 4 512 ++
  slice big_content 0 512 ++ slice big_content 1536 512 ++ slice big_content 512 512 ++ slice big_content 1024 512 ++
  pad 2560 0 (slice big_content 2048 2052).
Ltac dec_forall := repeat (apply Forall_cons; [cbn; lia|]); apply Forall_nil.
Example C41_case : ole_file good [] [0] [1] [2] [3; 4] [mkMember (mkInfo [97] 100 0 0) small_content; mkMember (mkInfo [98; 105; 103] 4100 0 0) big_content]
    [5; 7; 8; 6; 9; 10; 11; 12; 13] [1; 3] /\ zlen good = 7680 /\ Forall (fun x => x <= zlen good / 512 - 2) [1; 3].
Proof.
  assert (zlen good = 7680) as EL by (vm_compute; reflexivity).
  assert (zlen small_content = 100) as Ls by (vm_compute; reflexivity). assert (zlen big_content = 4100) as Lb by (vm_compute; reflexivity).
  split; [|split; [exact EL|rewrite EL; change (7680 / 512) with 15; dec_forall]].
  assert (h_nbat good = 1) as E1 by (vm_compute; reflexivity). assert (h_nxbat good = 0) as E2 by (vm_compute; reflexivity).
  assert (h_dir good = 1) as E3 by (vm_compute; reflexivity). assert (h_sbat good = 2) as E4 by (vm_compute; reflexivity).
  assert (h_xbat good = -2) as E5 by (vm_compute; reflexivity). assert (sec_word good 1 29 = 3) as E6 by (vm_compute; reflexivity).
  assert (h_bat good 0 = 0) as E7 by (vm_compute; reflexivity).
  split; rewrite ?EL, ?E1, ?E2, ?E3, ?E4, ?E5, ?E6.
  - unfold is_ole. rewrite EL. split; [|lia]. exists (skipn 8 good). vm_compute; reflexivity.
  - apply bytes_dec. vm_compute; reflexivity.
  - exists 15. reflexivity.
  - split; [reflexivity|]. split; [unfold moderate; lia|]. split; [congruence|]. split; [constructor|constructor].
  - change (zlen (@nil Z)) with 0. lia.
  - vm_compute; reflexivity.
  - dec_forall.
  - split; [|discriminate]. cbn [chain]. split; [reflexivity|vm_compute; reflexivity].
  - split; [|vm_compute; discriminate]. cbn [chain]. split; [reflexivity|vm_compute; reflexivity].
  - split; [|vm_compute; discriminate]. cbn [chain]. split; [reflexivity|]. split; vm_compute; reflexivity.
  - cbn [app]. repeat (apply Forall_cons; [split; [lia|split; [vm_compute; reflexivity|lia]]|]). apply Forall_nil.
  - repeat (apply Forall_cons; [split; [lia|split; vm_compute; reflexivity]|]). apply Forall_nil.
  - cbn [app]. split; repeat (constructor; [cbn; lia|]); constructor.
  - cbn [map concat app skipn entry_offsets]. 
    apply (sts_stream good [0] [2] [3; 4] _ [512 * (1 + 1) + 128 * 2; 512 * (1 + 1) + 128 * 3] _ [mkMember (mkInfo [98; 105; 103] 4100 0 0) big_content] [] [5; 7; 8; 6; 9; 10; 11; 12; 13] [1; 3] []).
    { split; cbn [m_info m_data i_name]; rewrite ?Ls.
      - vm_compute; reflexivity.
      - split; [vm_compute; discriminate|]. split; [vm_compute; reflexivity|]. intros i Hi. change (zlen [97]) with 1 in Hi. assert (i = 0) as -> by lia. split; vm_compute; reflexivity.
      - split; [vm_compute; reflexivity|lia].
      - reflexivity.
      - change (100 <? 4096) with true. cbv iota. split; [reflexivity|]. split; [cbn [chain]; split; [vm_compute; reflexivity|split; vm_compute; reflexivity]|].
        split; vm_compute; reflexivity. }
    apply sts_other; [left; vm_compute; discriminate|].
    apply (sts_stream good [0] [2] [3; 4] _ [] _ [] [5; 7; 8; 6; 9; 10; 11; 12; 13] [] [] []); [|apply sts_end].
    split; cbn [m_info m_data i_name]; rewrite ?Lb.
      + vm_compute; reflexivity.
      + split; [vm_compute; discriminate|]. split; [vm_compute; reflexivity|]. intros i Hi. change (zlen [98; 105; 103]) with 3 in Hi.
        assert (i = 0 \/ i = 1 \/ i = 2) as [-> |[-> | ->]] by lia; split; vm_compute; reflexivity.
      + split; [vm_compute; reflexivity|lia].
      + reflexivity.
      + change (4100 <? 4096) with false. cbv iota. split; [reflexivity|]. split; [cbn [chain]; do 9 (split; [vm_compute; reflexivity|]); vm_compute; reflexivity|].
        split; vm_compute; reflexivity.
Qed.

(** a small stream whose first small block has a larger number than there are sectors is not listed *)
Definition six : list Z :=
  hdr 1 1 2 (-2) 0 [0] ++ words [-3; -2; -2; 4; -2] ++
  (dirent [82] 5 3 1024 ++ dirent [97] 2 5 10 ++ dirent [] 0 0 0 ++ dirent [] 0 0 0) ++
  words [-1; -1; -1; -1; -1; -2] ++ some_data 1 1024.
Theorem C41_small_start_refuted : exists bt dirs sb ms m B S, ole_file six [] bt dirs sb ms [m] B S /\
  exists a a', ole_new false ss_ops (in_memory six) = Ret a /\ pv_next (ole_provider false 100) a = Ret (a', None) /\ pv_status (ole_provider false 100) a' = Eof.
Proof.
  exists [0], [1], [2], [3; 4], (mkMember (mkInfo [97] 10 0 0) (slice (minisector six [3; 4] 5) 0 10)), [], [5]. split.
  - assert (zlen six = 3072) as EL by (vm_compute; reflexivity).
    assert (h_nbat six = 1) as E1 by (vm_compute; reflexivity). assert (h_nxbat six = 0) as E2 by (vm_compute; reflexivity).
    assert (h_dir six = 1) as E3 by (vm_compute; reflexivity). assert (h_sbat six = 2) as E4 by (vm_compute; reflexivity).
    assert (h_xbat six = -2) as E5 by (vm_compute; reflexivity). assert (sec_word six 1 29 = 3) as E6 by (vm_compute; reflexivity).
    assert (h_bat six 0 = 0) as E7 by (vm_compute; reflexivity).
    assert (zlen (slice (minisector six [3; 4] 5) 0 10) = 10) as Ls by (vm_compute; reflexivity).
    split; rewrite ?EL, ?E1, ?E2, ?E3, ?E4, ?E5, ?E6.
    + unfold is_ole. rewrite EL. split; [|lia]. exists (skipn 8 six). vm_compute; reflexivity.
    + apply bytes_dec. vm_compute; reflexivity.
    + exists 6. reflexivity.
    + split; [reflexivity|]. split; [unfold moderate; lia|]. split; [congruence|]. split; [constructor|constructor].
    + change (zlen (@nil Z)) with 0. lia.
    + vm_compute; reflexivity.
    + dec_forall.
    + split; [|discriminate]. cbn [chain]. split; [reflexivity|vm_compute; reflexivity].
    + split; [|vm_compute; discriminate]. cbn [chain]. split; [reflexivity|vm_compute; reflexivity].
    + split; [|vm_compute; discriminate]. cbn [chain]. split; [reflexivity|]. split; vm_compute; reflexivity.
    + cbn [app]. repeat (apply Forall_cons; [split; [lia|split; [vm_compute; reflexivity|lia]]|]). apply Forall_nil.
    + repeat (apply Forall_cons; [split; [lia|split; vm_compute; reflexivity]|]). apply Forall_nil.
    + cbn [app]. split; repeat (constructor; [cbn; lia|]); constructor.
    + cbn [map concat app skipn entry_offsets]. apply (sts_stream six [0] [2] [3; 4] _ [512 * (1 + 1) + 128 * 2; 512 * (1 + 1) + 128 * 3] _ [] [] [] [5] []).
      { split; cbn [m_info m_data i_name]; rewrite ?Ls.
        - vm_compute; reflexivity.
        - split; [vm_compute; discriminate|]. split; [vm_compute; reflexivity|]. intros i Hi. change (zlen [97]) with 1 in Hi. assert (i = 0) as -> by lia. split; vm_compute; reflexivity.
        - split; [vm_compute; reflexivity|lia].
        - reflexivity.
        - change (10 <? 4096) with true. cbv iota. split; [reflexivity|]. split; [cbn [chain]; split; vm_compute; reflexivity|].
          split; vm_compute; reflexivity. }
      do 2 (apply sts_other; [left; vm_compute; discriminate|]). apply sts_end.
  - destruct (ole_new false ss_ops (in_memory six)) as [a| | |] eqn:Ea; [|vm_compute in Ea; discriminate Ea..]. exists a.
    vm_compute in Ea. injection Ea as <-. eexists. split; [reflexivity|]. split; vm_compute; reflexivity.
Qed.

(** a file whose last sector is an extra table sector (here without any entry) is rejected *)
Definition last_extra : list Z :=
  hdr 1 1 (-2) 11 1 [0] ++ words [-3; -2; 3; 4; 5; 6; 7; 8; 9; 10; -2; -4] ++
  (dirent [82] 5 (-2) 0 ++ dirent [97] 2 2 4100 ++ dirent [] 0 0 0 ++ dirent [] 0 0 0) ++
  pad 4608 0 big_content ++ words (repeat (-1) 127 ++ [-2]).
Lemma one_stream D bt rest st m b : zlen (m_data m) = 4100 -> m_info m = mkInfo [97] 4100 0 0 ->
  byte_at D (st + 66) = 2 -> byte_at D (st + 64) = 4 -> byte_at D st = 97 -> byte_at D (st + 1) = 0 -> word D (st + 120) = 4100 ->
  chain (fat D bt) (word D (st + 116)) b -> zlen b = 9 -> m_data m = slice (concat (map (sector D) b)) 0 4100 ->
  streams D bt [] [] rest [] [] [] -> streams D bt [] [] (st :: rest) [m] b [].
Proof.
  intros L EI H1 H2 H3 H4 H5 H6 H7 H8 H9. rewrite <- (app_nil_r b). change (@nil Z) with (@nil Z ++ @nil Z) at 4.
  apply sts_stream; [|exact H9].
  split; rewrite ?EI, ?L; cbn [i_name].
  - exact H1.
  - split; [vm_compute; discriminate|]. split; [rewrite H2; reflexivity|]. intros i Hi. change (zlen [97]) with 1 in Hi. assert (i = 0) as -> by lia.
    rewrite Z.mul_0_r, Z.add_0_r. split; [rewrite H3; reflexivity|exact H4].
  - split; [exact H5|lia].
  - reflexivity.
  - change (4100 <? 4096) with false. cbv iota. split; [reflexivity|]. split; [exact H6|]. split; [rewrite H7; reflexivity|exact H8].
Qed.
Theorem C41_last_sector_refuted : exists xb bt dirs m B, ole_file last_extra xb bt dirs [] [] [m] B [] /\
  exists a a', ole_new false ss_ops (in_memory last_extra) = Ret a /\ pv_status (ole_provider false 100) a = Error /\
    pv_next (ole_provider false 100) a = Ret (a', None).
Proof.
  exists [11], [0], [1], (mkMember (mkInfo [97] 4100 0 0) big_content), [2; 3; 4; 5; 6; 7; 8; 9; 10]. split.
  - assert (zlen last_extra = 6656) as EL by (vm_compute; reflexivity).
    assert (h_nbat last_extra = 1) as E1 by (vm_compute; reflexivity). assert (h_nxbat last_extra = 1) as E2 by (vm_compute; reflexivity).
    assert (h_dir last_extra = 1) as E3 by (vm_compute; reflexivity). assert (h_sbat last_extra = -2) as E4 by (vm_compute; reflexivity).
    assert (h_xbat last_extra = 11) as E5 by (vm_compute; reflexivity). assert (sec_word last_extra 1 29 = -2) as E6 by (vm_compute; reflexivity).
    split; rewrite ?EL, ?E1, ?E2, ?E3, ?E4, ?E5, ?E6.
    + unfold is_ole. rewrite EL. split; [|lia]. exists (skipn 8 last_extra). vm_compute; reflexivity.
    + apply bytes_dec. vm_compute; reflexivity.
    + exists 13. reflexivity.
    + split; [reflexivity|]. split; [unfold moderate; lia|]. split; [|split; [repeat (constructor; [cbn; lia|]); constructor|dec_forall]].
      intros _. cbn [chain]. split; [reflexivity|vm_compute; reflexivity].
    + change (zlen [11]) with 1. lia.
    + vm_compute; reflexivity.
    + dec_forall.
    + split; [|discriminate]. cbn [chain]. split; [reflexivity|vm_compute; reflexivity].
    + split; [reflexivity|vm_compute; discriminate].
    + split; [reflexivity|vm_compute; discriminate].
    + cbn [app]. repeat (apply Forall_cons; [split; [lia|split; [vm_compute; reflexivity|lia]]|]). apply Forall_nil.
    + constructor.
    + cbn [app]. split; repeat (constructor; [cbn; lia|]); constructor.
    + cbn [map concat app skipn entry_offsets]. apply one_stream; try (vm_compute; reflexivity).
      * cbn [chain]. do 9 (split; [vm_compute; reflexivity|]). vm_compute; reflexivity.
      * do 2 (apply sts_other; [left; vm_compute; discriminate|]). apply sts_end.
  - destruct (ole_new false ss_ops (in_memory last_extra)) as [a| | |] eqn:Ea; [|vm_compute in Ea; discriminate Ea..]. exists a.
    vm_compute in Ea. injection Ea as <-. eexists. split; [reflexivity|]. split; vm_compute; reflexivity.
Qed.

(** a file with 110 table sectors: the number of the last one is in an extra table sector, and the stream "a" uses the part of
    the allocation table that is in this sector.  The sectors are: 0 the extra table sector, 1 the directory, 2 and 4 to 111 the first
    109 table sectors, 3 the last one, 13952 to 13960 the stream; those in between are free. *)
Definition huge_head : list Z :=
  hdr 110 1 (-2) 0 1 (2 :: map Z.of_nat (seq 4 108)) ++ words (3 :: repeat (-1) 126 ++ [-2]) ++
  (dirent [82] 5 (-2) 0 ++ dirent [97] 2 13952 4100 ++ dirent [] 0 0 0 ++ dirent [] 0 0 0) ++
  words ([-4; -2] ++ repeat (-3) 110 ++ repeat (-1) 16) ++
  words ([13953; 13954; 13955; 13956; 13957; 13958; 13959; 13960; -2] ++ repeat (-1) 119).
Definition huge_tail : list Z := pad 4608 0 big_content.
Definition huge_table : list Z := 2 :: map Z.of_nat (seq 4 108) ++ [3].
Lemma filler : exists f, zlen f = 7141376 /\ Forall (fun c => c = 255) f.
Proof.
  assert (forall n, zlen (repeat 255 n) = Z.of_nat n /\ Forall (fun c => c = 255) (repeat 255 n)) as H.
  { intros n. split; [unfold zlen; rewrite repeat_length; reflexivity|]. induction n; constructor; auto. }
  exists (repeat 255 (Z.to_nat 7141376)). destruct (H (Z.to_nat 7141376)) as (H1 & H2). split; [|exact H2]. rewrite H1. apply Z2Nat.id. lia.
Qed.
Lemma in_head f o n : 0 <= o -> 0 <= n -> o + n <= 2560 -> slice (huge_head ++ f) o n = slice huge_head o n.
Proof. intros H1 H2 H3. apply slice_app_l; [exact H1|]. assert (zlen huge_head = 2560) as -> by (vm_compute; reflexivity). lia. Qed.
Lemma word_head f o : 0 <= o <= 2556 -> word (huge_head ++ f) o = word huge_head o.
Proof. intros H. unfold word. rewrite in_head by lia. reflexivity. Qed.
Lemma sec_head f x i : 0 <= x <= 3 -> 0 <= i <= 127 -> sec_word (huge_head ++ f) x i = sec_word huge_head x i.
Proof. intros H1 H2. unfold sec_word. apply word_head. lia. Qed.
Lemma byte_head f o : 0 <= o < 2560 -> byte_at (huge_head ++ f) o = byte_at huge_head o.
Proof.
  intros H. unfold byte_at. apply app_nth1. assert (length huge_head = 2560%nat) as E by (vm_compute; reflexivity). rewrite E. lia.
Qed.
Example C41_extra_case : exists D, ole_file D [0] huge_table [1] [] [] [mkMember (mkInfo [97] 4100 0 0) big_content]
    [13952; 13953; 13954; 13955; 13956; 13957; 13958; 13959; 13960] [] /\ zlen D = 7148544 /\ Forall (fun x => 512 * (x + 2) < zlen D) [0].
Proof.
  destruct filler as (f & Lf & Hf). set (D := huge_head ++ f ++ huge_tail). exists D.
  assert (zlen huge_head = 2560) as Lh by (vm_compute; reflexivity). assert (zlen huge_tail = 4608) as Lt by (vm_compute; reflexivity).
  assert (zlen D = 7148544) as EL by (unfold D; rewrite !zlen_app, Lh, Lt, Lf; reflexivity).
  split; [|split; [exact EL|rewrite EL; constructor; [lia|constructor]]].
  assert (forall o, 0 <= o <= 2556 -> word D o = word huge_head o) as HW by (intros o Ho; apply word_head; exact Ho).
  assert (forall x i, 0 <= x <= 3 -> 0 <= i <= 127 -> sec_word D x i = sec_word huge_head x i) as HS by (intros; apply sec_head; assumption).
  assert (forall o, 0 <= o < 2560 -> byte_at D o = byte_at huge_head o) as HY by (intros; apply byte_head; assumption).
  assert (h_nbat D = 110) as E1 by (unfold h_nbat; rewrite HW by lia; vm_compute; reflexivity).
  assert (h_nxbat D = 1) as E2 by (unfold h_nxbat; rewrite HW by lia; vm_compute; reflexivity).
  assert (h_dir D = 1) as E3 by (unfold h_dir; rewrite HW by lia; vm_compute; reflexivity).
  assert (h_sbat D = -2) as E4 by (unfold h_sbat; rewrite HW by lia; vm_compute; reflexivity).
  assert (h_xbat D = 0) as E5 by (unfold h_xbat; rewrite HW by lia; vm_compute; reflexivity).
  assert (sec_word D 1 29 = -2) as E6 by (rewrite HS by lia; vm_compute; reflexivity).
  assert (forall x, In x [13952; 13953; 13954; 13955; 13956; 13957; 13958; 13959; 13960] -> sector D x = slice huge_tail (512 * (x - 13952)) 512) as HT.
  { intros x Hx. unfold sector, D. rewrite app_assoc, slice_app_r; [|rewrite zlen_app, Lh, Lf; cbn in Hx; lia]. f_equal. rewrite zlen_app, Lh, Lf. lia. }
  assert (is_ole D) as HM.
  { unfold is_ole. rewrite EL. split; [|lia]. exists (skipn 8 huge_head ++ f ++ huge_tail). unfold D. clear.
    assert (firstn 8 huge_head = [208;207;17;224;161;177;26;225]) as E by (vm_compute; reflexivity).
    transitivity (firstn 8 huge_head ++ skipn 8 huge_head ++ f ++ huge_tail); [rewrite (app_assoc (firstn 8 huge_head)), firstn_skipn; reflexivity|rewrite E; reflexivity]. }
  assert (Forall (fun c => 0 <= c < 256) D) as HB.
  { unfold D. apply Forall_app. split; [apply bytes_dec; vm_compute; reflexivity|]. apply Forall_app. split; [|apply bytes_dec; vm_compute; reflexivity].
    eapply Forall_impl; [|exact Hf]. cbn. intros; lia. }
  clearbody D.
  assert (table_entries D [0] = table_entries huge_head [0]) as ET.
  { unfold table_entries. f_equal.
    - apply map_ext_in. intros i Hi. unfold upto in Hi. apply in_map_iff in Hi as (k & <- & Hk). apply in_seq in Hk. unfold h_bat. apply HW. lia.
    - cbn [map concat]. f_equal. apply map_ext_in. intros i Hi. unfold upto in Hi. apply in_map_iff in Hi as (k & <- & Hk). apply in_seq in Hk. apply HS; lia. }
  split; rewrite ?EL, ?E1, ?E2, ?E3, ?E4, ?E5, ?E6.
  - exact HM.
  - exact HB.
  - exists 13962. reflexivity.
  - split; [reflexivity|]. split; [unfold moderate; lia|]. split; [|split; [repeat (constructor; [cbn; lia|]); constructor|dec_forall]].
    intros _. cbn [chain]. split; [reflexivity|]. rewrite HS by lia. vm_compute; reflexivity.
  - change (zlen [0]) with 1. lia.
  - rewrite ET. vm_compute; reflexivity.
  - apply Forall_forall. intros x Hx. unfold huge_table in Hx. assert (0 <= x <= 111) as Hr; [|lia].
    destruct Hx as [<-|Hx]; [lia|]. apply in_app_iff in Hx as [Hx|[<-|[]]]; [|lia]. apply in_map_iff in Hx as (k & <- & Hk). apply in_seq in Hk. lia.
  - split; [|discriminate]. cbn [chain]. split; [reflexivity|]. unfold fat. change (nthz huge_table (1 / 128)) with 2. rewrite HS by (vm_compute; split; discriminate). vm_compute; reflexivity.
  - split; [reflexivity|vm_compute; discriminate].
  - split; [reflexivity|vm_compute; discriminate].
  - cbn [app]. repeat (apply Forall_cons; [split; [lia|split; [vm_compute; reflexivity|lia]]|]). apply Forall_nil.
  - constructor.
  - cbn [app]. split; repeat (constructor; [cbn; lia|]); constructor.
  - assert (forall x, 13952 <= x <= 13960 -> fat D huge_table x = sec_word huge_head 3 (x - 13952)) as HFt.
    { intros x Hx. unfold fat. pose proof (Z.div_mod x 128). pose proof (Z.mod_pos_bound x 128). assert (x / 128 = 109) as -> by lia.
      change (nthz huge_table 109) with 3. replace (x mod 128) with (x - 13952) by lia. apply HS; lia. }
    cbn [map concat app skipn entry_offsets].
    change (512 * (1 + 1) + 128 * 1) with 1152. change (512 * (1 + 1) + 128 * 2) with 1280. change (512 * (1 + 1) + 128 * 3) with 1408.
    assert (concat (map (sector D) [13952; 13953; 13954; 13955; 13956; 13957; 13958; 13959; 13960]) = huge_tail) as HC.
    { cbn [map]. rewrite !HT by (cbn; tauto). vm_compute; reflexivity. }
    apply one_stream; cbn [m_data m_info].
    + vm_compute; reflexivity.
    + reflexivity.
    + rewrite HY by lia. vm_compute; reflexivity.
    + rewrite HY by lia. vm_compute; reflexivity.
    + rewrite HY by lia. vm_compute; reflexivity.
    + rewrite HY by lia. vm_compute; reflexivity.
    + rewrite HW by lia. vm_compute; reflexivity.
    + rewrite HW by lia. cbn [chain]. split; [vm_compute; reflexivity|]. do 8 (split; [rewrite HFt by lia; vm_compute; reflexivity|]). rewrite HFt by lia. vm_compute; reflexivity.
    + reflexivity.
    + rewrite HC. vm_compute; reflexivity.
    + do 2 (apply sts_other; [left; rewrite HY by lia; vm_compute; discriminate|]). apply sts_end.
Qed.
