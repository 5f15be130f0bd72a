(** C56: "The size of the stream is always known if the end of the stream has been reached."
    [size_known] (SizeSpec.v): after every history of documented calls, when status() is Eof then size() is
    the number of items of the stream. *)
From Verif Require Import Base StreamSpec SizeSpec P_Stream M_StringStream P_StringStream M_Buffered BufferedSpec P_Buffered P_Buffered2
  M_Sub P_Sub P_Sub2 M_File P_File M_DataEvent DataEventSpec P_DataEvent T_DataEvent M_Base64 M_Inflate InflateSpec P_Inflate T_Inflate
  M_Deflate DeflateSpec T_Deflate EncSpec M_Encoding T_Encoding B64Spec T_Base64
  M_Lzma LzmaSpec P_Lzma T_Lzma P_Sized.

Theorem C56_string_stream : forall (A : Type) (is0 : A -> bool) (value : list A) len, 0 <= len <= zlen value ->
  exists s, ss_new is0 value len = Ret s /\ size_known ss_ops (slice value 0 len) INT32_MAX s.
Proof.
  intros A is0 value len H. unfold ss_new, ss_new_len. destruct (Z.ltb_spec len 0); [lia|].
  destruct (Z.leb_spec 0 len), (Z.leb_spec len (zlen value)); try lia. cbn [andb]. eexists; split; [reflexivity|].
  apply known_const; [|cbn; rewrite zlen_slice by lia; reflexivity].
  assert (forall (t : sstream A) mn mx t' n d, ss_read t mn mx = Ret (t', n, d) -> ss_size t' = ss_size t) as HR.
  { intros t mn mx t' n d E. unfold ss_read in E. cbv zeta in E. destruct (_ =? 0) in E; [injection E as <- _ _; reflexivity|].
    destruct (_ && _) in E; [|discriminate]. injection E as <- _ _. reflexivity. }
  intros t c t' ob E. destruct c as [mn mx|n|p]; cbn [exec ss_ops o_read o_skip o_reset o_size] in *.
  - destruct (ss_read t mn mx) as [[[x m] d]| | |] eqn:Er; cbn [bind] in E; try discriminate. injection E as <- _. eapply HR; exact Er.
  - unfold ss_skip in E. destruct (n =? 0); [cbn [bind] in E; injection E as <- _; reflexivity|].
    destruct (ss_read t (wrap32 n) (wrap32 n)) as [[[x m] d]| | |] eqn:Er; cbn [bind] in E; try discriminate. injection E as <- _. eapply HR; exact Er.
  - unfold ss_reset in E. cbv zeta in E. cbn [bind] in E. injection E as <- _. destruct (p <? 0); [reflexivity|]. destruct (p <? ss_size t); reflexivity.
Qed.

(** every class built on BufferedStream that starts without an announced size, over every fillBuffer that
    hands out successive pieces of a content, also when it may fail *)
Theorem C56_buffered : forall (S A : Type) (src : source S A) (content : list A) (fails : Prop)
    (SR : S -> Z -> Prop) (SE : S -> Prop) (s : S),
  SrcOK src content fails SR SE -> SR s 0 -> size_known (bs_ops src) content BUF_LIM (bs_new s).
Proof.
  intros S A src content fails SR SE s Hsrc Hs. apply (bs_known src content fails SR SE); [exact Hsrc| |left; reflexivity].
  unfold bs_init_ok, bs_new; cbn [bs_buf bs_fin bs_src bs_pos bs_st bs_size buf0 b_off b_avail].
  repeat split; try assumption; [|tauto]. change (b_size (@buf0 A)) with 0. unfold BUF_LIM; lia.
Qed.
(** whatever such a stream delivers: at Eof some size is known, and it is the right one unless the stream may fail *)
Theorem C56_buffered_any : forall (S A : Type) (src : source S A) (content : list A) (fails : Prop) x v l x' obs,
  Conforms (bs_ops src) content fails BUF_LIM x v -> bs_st x <> Eof ->
  Forall (call_ok content BUF_LIM) l -> run (bs_ops src) x l = Ret (x', obs) -> bs_st x' = Eof ->
  bs_size x' <> -1 /\ (fails \/ bs_size x' = zlen content).
Proof. intros S A src content fails x v l x' obs. apply bs_known_any. Qed.

(** FileInputStream: every file, every pattern of read errors, whatever fseek/ftell reported (the size, 0, or failure) *)
Theorem C56_file : forall bytes fault seek bs,
  seek = zlen bytes \/ seek = 0 \/ seek = -1 -> 1 <= bs < 2 ^ 30 ->
  exists x, file_open bytes seek bs = Ret x /\ size_known (bs_ops (file_src bytes fault)) bytes BUF_LIM x.
Proof.
  intros bytes fault seek bs Hs Hb. destruct (file_open_ok bytes seek bs Hs Hb) as (x & E & HI). exists x; split; [exact E|].
  apply (bs_known _ _ _ _ _ _ (file_SrcOK bytes fault) (HI _)). destruct (HI False) as (_ & _ & _ & _ & _ & _ & _ & [[]|[Q|Q]]); tauto.
Qed.
Theorem C56_mapped_file : forall bytes, size_known mm_ops bytes INT32_MAX (mm_new bytes).
Proof.
  intros bytes. apply known_const; [|reflexivity]. intros t c t' ob E.
  destruct c as [mn mx|n|p]; cbn [exec mm_ops o_read o_skip o_reset o_size] in *.
  - destruct (mm_read t mn mx) as [[[x m] d]| | |] eqn:Er; cbn [bind] in E; try discriminate. injection E as <- _.
    unfold mm_read in Er. destruct (mm_st t); [|injection Er as <- _ _; reflexivity..]. cbv zeta in Er.
    destruct (_ <=? _) in Er; destruct (_ && _) in Er; try discriminate; injection Er as <- _ _; reflexivity.
  - destruct (mm_skip t n) as [[x m]| | |] eqn:Er; cbn [bind] in E; try discriminate. injection E as <- _.
    unfold mm_skip in Er. destruct (_ <=? _) in Er; injection Er as <- _; reflexivity.
  - destruct (mm_reset t p) as [[x m]| | |] eqn:Er; cbn [bind] in E; try discriminate. injection E as <- _.
    unfold mm_reset in Er. destruct (mm_st t); try (injection Er as <- _; reflexivity); cbv zeta in Er;
      injection Er as <- _; destruct (_ <=? p); [reflexivity| |reflexivity|]; destruct (p <? 0); reflexivity.
Qed.
(** SkippingFileInputStream on a file of known size *)
Theorem C56_skipping_file_partial : forall bytes, size_known (skf_ops bytes) bytes BUF_LIM (skf_open bytes (zlen bytes)).
Proof.
  intros bytes l s' obs _ E _. pose proof (zlen_nonneg bytes) as HL.
  assert (sk_size (skf_open bytes (zlen bytes)) = zlen bytes) as H0.
  { unfold skf_open; cbn [sk_size]. destruct (Z.eqb_spec (zlen bytes) 0) as [Q|]; [|reflexivity]. rewrite Q.
    assert (bytes = []) as -> by (destruct bytes; [reflexivity|rewrite zlen_cons in Q; pose proof (zlen_nonneg bytes); lia]). reflexivity. }
  assert (forall t p x m, skf_reset t p = Ret (x, m) -> sk_size x = sk_size t) as HR.
  { intros t p x m Er. unfold skf_reset in Er. cbv zeta in Er. match type of Er with (if ?c then _ else _) = _ => destruct c end; injection Er as <- _; reflexivity. }
  refine (run_size (skf_ops bytes) (zlen bytes) _ l _ s' obs H0 E). clear - HR. intros t c t' ob E Ht. cbn [o_size skf_ops] in *.
  pose proof (zlen_nonneg bytes) as HL.
  destruct c as [mn mx|n|p]; cbn [exec skf_ops o_read o_skip o_reset] in *.
  - destruct (skf_read bytes t mn mx) as [[[x m] d]| | |] eqn:Er; cbn [bind] in E; try discriminate. injection E as <- _.
    unfold skf_read in Er. cbv zeta in Er. destruct (if sk_bufsize t <? _ then _ else _) as [k| | |] in Er; cbn [bind] in Er; try discriminate.
    destruct ((k <? 0) || _) in Er; [discriminate|]. destruct (_ =? k) in Er; [injection Er as <- _ _; exact Ht|].
    injection Er as <- _ _. cbn [sk_size]. destruct (Z.eqb_spec (sk_size t) (-1)); lia.
  - destruct (skf_skip t n) as [[x m]| | |] eqn:Er; cbn [bind] in E; try discriminate. injection E as <- _.
    unfold skf_skip in Er. destruct (skf_reset t (sk_pos t + n)) as [[y r]| | |] eqn:E2; cbn [bind] in Er; try discriminate.
    destruct (r =? -2); injection Er as <- _; rewrite <- Ht; eapply HR; exact E2.
  - destruct (skf_reset t p) as [[x m]| | |] eqn:Er; cbn [bind] in E; try discriminate. injection E as <- _.
    rewrite <- Ht; eapply HR; exact Er.
Qed.
(** on a file whose size the file system does not tell (/proc): after a skip past the end Eof comes with a wrong size *)
Theorem C56_skipping_file_unknown_size_refuted : exists s', run (skf_ops [1;2]) (skf_open [1;2] 0) [Skip 5; Read 1 1] =
  Ret (s', [mkObs 5 [] 5 (-1) Ok; mkObs 0 [] 5 5 Eof]).
Proof. eexists; vm_compute; reflexivity. Qed.

(** a substream of given size that fits into its parent, over every parent and at every position *)
Theorem C56_substream : forall (P A : Type) (par : ops P A) (content : list A) (fails : Prop) lim p v n,
  Conforms par content fails lim p v -> 0 <= n -> v_pos v + n <= zlen content ->
  exists s, sub_new par p n = Ret s /\ size_known (sub_ops par) (slice content (v_pos v) n) lim s.
Proof.
  intros P A par content fails lim p v n (Hv & Hp & _) Hn Hfit. unfold view_ok in Hv. unfold sub_new. destruct (Z.ltb_spec n (-1)); [lia|].
  eexists; split; [reflexivity|]. intros l s' obs _ E _. rewrite zlen_slice by lia.
  refine (run_size (sub_ops par) n _ l _ s' obs _ E); [|reflexivity]. intros t c t' ob Ex Ht. cbn [o_size sub_ops] in *.
  rewrite <- Ht. eapply sub_size_const; [exact Ex|lia].
Qed.
(** streams that inspect another stream keep what it knows *)
Theorem C56_data_events : forall (P A : Type) (par : ops P A) (want : list (list A) -> bool) (content : list A) (fails : Prop) lim p,
  Conforms par content fails lim p view0 -> honest par content lim p -> 1 <= lim -> zlen content <= INT32_MAX ->
  size_known par content lim p ->
  exists s, de_new par p = Ret s /\ size_known (de_ops par want) content lim s.
Proof. intros P A par want content fails lim p HC Hh Hl Hlen Hk. exact (de_known par want content fails lim Hl Hlen p HC Hh Hk). Qed.
Theorem C56_signature : forall (P A : Type) (par : ops P A) (content : list A) lim p,
  size_known par content lim p -> size_known (sig_ops par) content lim (sig_new par p).
Proof. exact @sig_known. Qed.

(** decoding and decompressing streams over an input that does not fail; the specification of
    each is that of the property named *)
Theorem C56_base64 (* C14 *) : forall (P : Type) (par : ops P Z) (enc : list Z) lim p v fuel,
  Conforms par enc False lim p v -> 1 <= lim -> Forall byte enc -> zlen enc < Z.of_nat fuel ->
  size_known (bs_ops (b64_src par fuel)) (b64decoded (skipn (Z.to_nat (v_pos v)) enc)) BUF_LIM (bs_new (b64_new p)).
Proof.
  intros P par enc lim p v fuel HC Hl HB Hf l x' obs Hc Hrun He.
  destruct (bs_known_any _ _ _ _ _ _ _ _ (C14_stream P par enc False lim p v fuel HC Hl HB Hf) ltac:(cbn; discriminate) Hc Hrun He) as (_ & [[]|Q]). exact Q.
Qed.
Theorem C56_decompressed (* C29 *) : forall (D P : Type) (cd : codec D) (f : format) (DI : D -> list Z -> list Z -> Prop) (par : ops P Z)
    k full lim p v bufsize gas comp content rest,
  codec_ok f cd DI -> Conforms par full False lim p v -> 1 <= lim -> 1 <= bufsize <= BUF_LIM -> zlen full <= Z.of_nat gas ->
  skipn (Z.to_nat (v_pos v)) full = comp ++ rest -> fmt f comp content -> magic_ok k False lim (comp ++ rest) ->
  exists x, z_new k cd par bufsize p gas = Ret x /\ size_known (z_ops (is_bz k) cd par) content BUF_LIM x.
Proof.
  intros D P cd f DI par k full lim p v bufsize gas comp content rest Hcd HC Hl Hb Hg Hr Hx Hm.
  destruct (C29_intact cd f DI par k full False lim p v bufsize gas comp content rest Hcd HC Hl Hb Hg Hr Hx Hm) as (x & E & HX & _).
  rewrite <- Hr in Hm. destruct (z_new_ok cd f DI par k full False lim p v bufsize gas [] False Hcd HC Hb Hg Hm) as (x2 & E2 & _ & HI).
  rewrite E in E2. injection E2 as <-. exists x. split; [exact E|]. intros l x' obs Hc Hrun He.
  destruct (bs_known_any _ _ _ _ _ _ _ _ HX ltac:(destruct HI as (_ & _ & _ & _ & _ & _ & -> & _); discriminate) Hc Hrun He) as (_ & [[]|Q]). exact Q.
Qed.
Theorem C56_compressing (* C47 *) : forall (D P : Type) (cp : compressor D) (comp : list Z -> list Z) (EI : D -> list Z -> list Z -> bool -> Prop) (par : ops P Z) full lim p v gas,
  compressor_ok comp cp EI -> Conforms par full False lim p v -> 1 <= lim -> zlen full <= Z.of_nat gas ->
  size_known (q_ops cp par) (comp (skipn (Z.to_nat (v_pos v)) full)) BUF_LIM (q_new cp p gas).
Proof.
  intros D P cp comp EI par full lim p v gas Hcp HC Hl Hg l x' obs Hc Hrun He.
  destruct (C47_compressed cp comp EI par full False lim p v gas Hcp HC Hl Hg) as (HX & _).
  destruct (ce_init _ _ _ Hcp) as (d & Ed & _).
  destruct (bs_known_any _ _ _ _ _ _ _ _ HX ltac:(unfold q_new; rewrite Ed; cbn; discriminate) Hc Hrun He) as (_ & [[]|Q]). exact Q.
Qed.
Theorem C56_decoding (* C30 *) : forall (A St P : Type) (e : encoding A St) (ic : converter A St) (par : ops P Z) (c0 : St) full lim p v gas us maxin maxout,
  encoding_ok e maxin maxout -> converter_ok e maxout ic -> maxin <= 262 -> maxout <= 1 ->
  Conforms par full False lim p v -> 1 <= lim -> zlen full <= Z.of_nat gas ->
  (exists s', converts e c0 (skipn (Z.to_nat (v_pos v)) full) us s') ->
  size_known (e_ops ic par) us BUF_LIM (e_new c0 true p gas).
Proof.
  intros A St P e ic par c0 full lim p v gas us maxin maxout He Hic Hmi Hmo HC Hl Hg Hcv l x' obs Hc Hrun Heof.
  destruct (bs_known_any _ _ _ _ _ _ _ _ (C30_valid_partial e ic par c0 full False lim p v gas us maxin maxout He Hic Hmi Hmo HC Hl Hg Hcv) ltac:(cbn; discriminate) Hc Hrun Heof) as (_ & [[]|Q]). exact Q.
Qed.
Theorem C56_lzma (* C48 *) : forall (D P : Type) (cd : lzcodec D) (f : lzformat) (DI : D -> list Z -> list Z -> Prop) (par : ops P Z)
    full lim p v bufsize gas h c x rest,
  lzma_ok f cd DI -> Conforms par full False lim p v -> 13 <= lim -> 1 <= bufsize <= BUF_LIM -> zlen full <= Z.of_nat gas ->
  skipn (Z.to_nat (v_pos v)) full = h ++ c ++ rest ->
  (lzma_header h (-1) /\ lz_marked f c x \/
   lzma_header h (zlen x) /\ lz_valid f c x /\ (rest <> [] \/ (forall d o, DI d c o -> zlen x <= zlen o))) ->
  exists y, l_new cd par bufsize true p gas = Ret y /\ size_known (l_ops cd par) x BUF_LIM y.
Proof.
  intros D P cd f DI par full lim p v bufsize gas h c x rest Hcd HC Hl Hb Hg Hr Hx.
  assert (exists y, l_new cd par bufsize true p gas = Ret y /\ Conforms (l_ops cd par) x False BUF_LIM y view0 /\ bs_st y = Ok) as (y & E & HY & Hst).
  { destruct Hx as [(Hh & Hm)|(Hh & Hv & Hrest)].
    - destruct (C48_marked cd f DI par full False lim p v bufsize gas h c x rest Hcd HC Hl Hb Hg Hr Hh Hm) as (y & E & HY & [[]|(Q & _)]). exists y; auto.
    - destruct (C48_sized_partial cd f DI par full False lim p v bufsize gas h c x rest Hcd HC Hl Hb Hg Hr Hh Hv Hrest) as (y & E & HY & [[]|(Q & _)]). exists y; auto. }
  exists y. split; [exact E|]. intros l x' obs Hc Hrun He.
  destruct (l_known_any cd par x False y view0 l x' obs HY ltac:(congruence) Hc Hrun He) as (_ & [[]|Q]). exact Q.
Qed.

(** the hypotheses are met: a data event stream over a substream of a file *)
Example C56_case : forall bytes, zlen bytes <= 1000 ->
  exists x, file_open bytes 0 4096 = Ret x /\ size_known (bs_ops (file_src bytes (fun _ _ => false))) bytes BUF_LIM x /\
  size_known (sig_ops (bs_ops (file_src bytes (fun _ _ => false)))) bytes BUF_LIM (sig_new (bs_ops (file_src bytes (fun _ _ => false))) x).
Proof.
  intros bytes H. destruct (C56_file bytes (fun _ _ => false) 0 4096) as (x & E & Hk); [tauto|lia|].
  exists x. split; [exact E|]. split; [exact Hk|]. apply C56_signature. exact Hk.
Qed.
Example C56_events_case : forall (A : Type) (content : list A) want, zlen content <= INT32_MAX ->
  exists s, de_new ss_ops (mkSS content (zlen content) 0 Ok) = Ret s /\ size_known (de_ops ss_ops want) content INT32_MAX s.
Proof.
  intros A content want H. destruct (C20_over_string_stream A content H) as (H1 & H2).
  apply (C56_data_events _ _ ss_ops want content False INT32_MAX); try assumption; [unfold INT32_MAX; lia|].
  pose proof (zlen_nonneg content).
  destruct (C56_string_stream A (fun _ => false) content (zlen content)) as (s & E & Hk); [lia|].
  unfold ss_new, ss_new_len in E. destruct (Z.ltb_spec (zlen content) 0); [lia|]. rewrite Z.leb_refl in E. destruct (Z.leb_spec 0 (zlen content)); [|lia]. cbn [andb] in E.
  injection E as <-. rewrite slice_all in Hk. exact Hk.
Qed.
(** the end is reached in the middle of a history, and again after going back *)
Example C56_run_case : exists x x' obs, file_open [1;2;3] 0 4096 = Ret x /\
  run (bs_ops (file_src [1;2;3] (fun _ _ => false))) x [Read 4 4; Reset 1; Skip 9; Read 1 1] = Ret (x', obs) /\
  map ob_size obs = [3; 3; 3; 3] /\ map ob_st obs = [Eof; Ok; Eof; Eof].
Proof. do 3 eexists. split; [vm_compute; reflexivity|]. split; [vm_compute; reflexivity|]. split; reflexivity. Qed.

(** where the promise is not kept: a substream without a given size (C06_unknown_size_at_eof_refuted), a stream ended by
    a string that does not come (C12_size_at_eof_refuted), and a substream that is longer than the rest of its
    parent, where Eof after going back comes with the announced size *)
Theorem C56_truncated_substream_refuted : exists s s' obs, sub_new ss_ops (mkSS [1;2;3] 3 1 Ok) 5 = Ret s /\
  Forall (call_ok [2;3] INT32_MAX) [Read 1 2; Reset 2] /\
  run (sub_ops ss_ops) s [Read 1 2; Reset 2] = Ret (s', obs) /\ su_st s' = Eof /\ su_size s' = 5 /\ zlen [2;3] = 2.
Proof.
  do 3 eexists. split; [vm_compute; reflexivity|]. split; [repeat constructor; cbn; unfold INT32_MAX, zlen; cbn; lia|].
  split; [vm_compute; reflexivity|]. split; [reflexivity|]. split; reflexivity.
Qed.
Theorem C56_substream_unknown_size_refuted : ~ forall (P A : Type) (par : ops P A) (content : list A) lim p v s,
  Conforms par content False lim p v -> sub_new par p (-1) = Ret s -> v_pos v = 0 -> size_known (sub_ops par) content lim s.
Proof.
  intros H. specialize (H _ _ ss_ops [1;2] INT32_MAX (mkSS [1;2] 2 0 Ok) view0 _ (ss_conforms [1;2] ltac:(vm_compute; discriminate)) eq_refl eq_refl).
  specialize (H [Read 2 2; Read 1 1]). cbn [run exec] in H.
  assert (Forall (call_ok [1;2] INT32_MAX) [Read 2 2; Read 1 1]) as Hc by (repeat constructor; cbn; unfold INT32_MAX; lia).
  specialize (H _ _ Hc eq_refl eq_refl). vm_compute in H. discriminate.
Qed.
