(** C48 with the bundled decoder: nothing is assumed of it.  LzmaFormatSpec.v says what LZMA data is. *)
From Verif Require Import Base StreamSpec P_Stream M_StringStream P_StringStream M_Buffered BufferedSpec P_Buffered M_Text TextSpec KmpSpec M_Detect DetectSpec P_Detect InflateSpec P_Inflate M_Lzma LzmaSpec P_Lzma T_Lzma.
From Verif Require Import LzmaFormatSpec P_LzmaFormat P_LzmaFormat2 M_LzmaDec P_LzmaDec1 P_LzmaDec2 M_LzmaReal P_LzmaReal T_LzmaDec.

(** the format that an accepted header announces: lc = 3, lp = 0, pb = 2, and the size of the dictionary *)
Definition header_props (h : list Z) : props := mkProps 3 0 2 (Z.max 4096 (le_value (slice h 1 4))).
Definition header_format (h : list Z) : lzprops := mkLzprops 3 0 2 (Z.max 4096 (le_value (slice h 1 4))).
Lemma header_px h : px (header_props h) = header_format h. Proof. reflexivity. Qed.
Lemma header_decoded h n : lzma_header h n -> Props_Decode h = Ret (Some (header_props h)) /\ lzprops_ok (header_format h).
Proof.
  intros (L & HB & (dict & size & L1 & L2 & (t & E) & _ & Hd & _) & _). assert (bytes dict) as HBd by (rewrite E in HB; unfold bytes in *; rewrite !Forall_app in HB; apply HB).
  assert (slice h 1 4 = dict) as Es. { rewrite E, <- !app_assoc. rewrite slice_app_r by (change (zlen [93]) with 1; lia). change (zlen [93]) with 1. change (1 - 1) with 0. rewrite slice_app_l by lia. rewrite <- L1. apply slice_all. }
  assert (exists d1 d2 d3 d4, dict = [d1; d2; d3; d4]) as (d1 & d2 & d3 & d4 & ->).
  { clear -L1. unfold zlen in L1. destruct dict as [|d1 [|d2 [|d3 [|d4 [|d5 q]]]]]; cbn [length] in L1; try lia. repeat eexists. }
  unfold header_props, header_format, lzprops_ok. cbn [x_lc x_lp x_pb x_dict]. rewrite Es in *. inversion HBd as [|? ? B1 HB1]; subst. inversion HB1 as [|? ? B2 HB2]; subst. inversion HB2 as [|? ? B3 HB3]; subst. inversion HB3 as [|? ? B4 HB4]; subst.
  assert (le_value [d1; d2; d3; d4] = d1 + 256 * (d2 + 256 * (d3 + 256 * d4))) as Ev by (cbn [le_value]; lia). split.
  - unfold Props_Decode. rewrite L. change (13 <? 5) with false. cbn iota. cbn [app].
    match goal with |- context [aget ?l 0] => change (aget l 0) with (Ret (A:=Z) 93); change (aget l 1) with (Ret d1); change (aget l 2) with (Ret d2); change (aget l 3) with (Ret d3); change (aget l 4) with (Ret d4) end.
    cbn [bind]. rewrite (Z.mod_small d1), (Z.mod_small d2), (Z.mod_small d3), (Z.mod_small d4) by lia. change (93 mod 256) with 93. change (225 <=? 93) with false. cbn iota. do 3 f_equal; try reflexivity.
    rewrite Ev. match goal with |- (if ?a <? 4096 then _ else _) = _ => destruct (Z.ltb_spec a 4096) end; lia.
  - cbv zeta in Hd. change (2 ^ 25) with 33554432 in Hd. lia.
Qed.
Section Real.
Context {P : Type}.
Variable par : ops P Z.
(** the constructor is the one of C48 with this decoder *)
Lemma lzma_new_is full fails lim p v bufsize alloc gas h n r : Conforms par full fails lim p v -> 13 <= lim -> skipn (Z.to_nat (v_pos v)) full = h ++ r -> lzma_header h n ->
  lzma_new par bufsize alloc p gas = l_new (lz_real (header_props h)) par bufsize alloc p gas \/
  (fails /\ exists y, lzma_new par bufsize alloc p gas = Ret y /\ bs_st y = Error /\ bs_pos y = 0).
Proof.
  intros HC Hl Hr Hh. destruct (header_decoded _ _ Hh) as (Hp & _). destruct Hh as (Zh & _). assert (HV : view_ok full v) by apply HC. unfold view_ok in HV.
  assert (zlen full - v_pos v = 13 + zlen r) as Zr by (assert (Q := f_equal (@zlen Z) Hr); rewrite zlen_app, zlen_skipn in Q by lia; lia). pose proof (zlen_nonneg r).
  unfold lzma_new. destruct (sim_read _ _ _ _ _ p v 13 13 (conforms_sim _ _ _ _) HC) as (q & m & b & E & Hres); [cbn; unfold INT32_MIN, INT32_MAX; lia|]. rewrite E; cbn [bind].
  destruct Hres as [[G HR]|(_ & HF & G3)].
  - left. destruct G as (G1 & G2 & G3 & G4 & [(R1 & R2 & R3 & R4 & R5)|(R1 & R2 & R3 & R4)]); cbn [observe ob_ret ob_data ob_st next_view] in *; [|lia]. assert (m = 13) as -> by lia.
    assert (b = h) as ->. { rewrite R2. unfold slice. rewrite Hr. rewrite firstn_app. replace (Z.to_nat 13 - length h)%nat with 0%nat by (unfold zlen in Zh; lia). rewrite firstn_all2 by (unfold zlen in Zh; lia). cbn [firstn]. apply app_nil_r. }
    unfold lz_props. change (13 =? 13) with true. cbn iota. rewrite Hp. cbn [bind]. reflexivity.
  - right. split; [exact HF|]. cbn [observe ob_ret] in G3. subst m. unfold lz_props. change (-2 =? 13) with false. cbn iota. cbn [bind]. unfold l_new. rewrite E. cbn [bind]. change (-2 =? 13) with false. cbn iota. cbn [bind andb negb orb]. eexists. split; [reflexivity|]. split; reflexivity.
Qed.
Lemma error_conforms (content : list Z) (fails : Prop) x : fails -> bs_st x = Error -> bs_pos x = 0 -> Conforms (lzma_ops par) content fails BUF_LIM x view0.
Proof. apply l_error_conforms. Qed.

(** Known size: a header that announces [zlen x] bytes and data for [x]; the data has an end mark, or something follows it.  Without this
    the statement is false of the code: C48_real_pending_refuted. *)
Theorem C48_real_sized_partial : forall full fails lim p v bufsize gas h c x rest,
  Conforms par full fails lim p v -> 13 <= lim -> 1 <= bufsize <= BUF_LIM -> zlen full <= Z.of_nat gas ->
  skipn (Z.to_nat (v_pos v)) full = h ++ c ++ rest -> lzma_header h (zlen x) ->
  lz_marked_data (header_format h) c x \/ (lz_unmarked_data (header_format h) c x /\ rest <> []) ->
  exists y, lzma_new par bufsize true p gas = Ret y /\ Conforms (lzma_ops par) x fails BUF_LIM y view0 /\
    (fails \/ bs_st y = Ok /\ bs_size y = zlen x).
Proof.
  intros full fails lim p v bufsize gas h c x rest HC Hl Hb Hg Hr Hh Hx. destruct (header_decoded _ _ Hh) as (_ & Hok). pose proof (real_ok (header_props h)) as RO. rewrite header_px in RO. specialize (RO Hok).
  destruct (lzma_new_is full fails lim p v bufsize true gas h _ _ HC Hl Hr Hh) as [->|(HF & y & E & Q1 & Q2)].
  - apply (C48_sized_partial _ _ _ par full fails lim p v bufsize gas h c x rest RO); try assumption.
    + destruct Hx as [Hx|(Hx & _)]; [right|left]; exact Hx.
    + destruct Hx as [Hx|(_ & Hx)]; [right|left; exact Hx]. intros d o HD. exfalso. pose proof (real_unended (header_props h)) as U. rewrite header_px in U. apply (U _ _ _ _ [] _ Hok HD Hx). symmetry. apply app_nil_r.
  - exists y. split; [exact E|]. split; [apply error_conforms; assumption|left; exact HF].
Qed.
(** Unknown size: data with an end mark *)
Theorem C48_real_marked : forall full fails lim p v bufsize gas h c x rest,
  Conforms par full fails lim p v -> 13 <= lim -> 1 <= bufsize <= BUF_LIM -> zlen full <= Z.of_nat gas ->
  skipn (Z.to_nat (v_pos v)) full = h ++ c ++ rest -> lzma_header h (-1) -> lz_marked_data (header_format h) c x ->
  exists y, lzma_new par bufsize true p gas = Ret y /\ Conforms (lzma_ops par) x fails BUF_LIM y view0 /\
    (fails \/ bs_st y = Ok /\ bs_size y = -1).
Proof.
  intros full fails lim p v bufsize gas h c x rest HC Hl Hb Hg Hr Hh Hx. destruct (header_decoded _ _ Hh) as (_ & Hok). pose proof (real_ok (header_props h)) as RO. rewrite header_px in RO. specialize (RO Hok).
  destruct (lzma_new_is full fails lim p v bufsize true gas h _ _ HC Hl Hr Hh) as [->|(HF & y & E & Q1 & Q2)].
  - apply (C48_marked _ _ _ par full fails lim p v bufsize gas h c x rest RO); try assumption.
  - exists y. split; [exact E|]. split; [apply error_conforms; assumption|left; exact HF].
Qed.
(** Truncated data *)
Theorem C48_real_truncated : forall full fails lim p v bufsize gas h n r missing x,
  Conforms par full fails lim p v -> 13 <= lim -> 1 <= bufsize <= BUF_LIM -> zlen full <= Z.of_nat gas ->
  skipn (Z.to_nat (v_pos v)) full = h ++ r -> lzma_header h n ->
  (n = zlen x /\ lz_unmarked_data (header_format h) (r ++ missing) x \/ (n = -1 \/ n = zlen x) /\ lz_marked_data (header_format h) (r ++ missing) x) ->
  exists y, lzma_new par bufsize true p gas = Ret y /\ Conforms (lzma_ops par) x True BUF_LIM y view0.
Proof.
  intros full fails lim p v bufsize gas h n r missing x HC Hl Hb Hg Hr Hh Hx. destruct (header_decoded _ _ Hh) as (_ & Hok). pose proof (real_ok (header_props h)) as RO. rewrite header_px in RO. specialize (RO Hok).
  destruct (lzma_new_is full fails lim p v bufsize true gas h _ _ HC Hl Hr Hh) as [->|(HF & y & E & Q1 & Q2)].
  - apply (C48_truncated _ _ _ par full fails lim p v bufsize gas h n r missing x RO); try assumption. destruct Hx as [(-> & Hx)|([-> | ->] & Hx)]; [left|right|left]; (split; [reflexivity|]); [left; exact Hx|exact Hx|right; exact Hx].
  - exists y. split; [exact E|]. apply error_conforms; [exact Logic.I|assumption|assumption].
Qed.
(** Any bytes behind an accepted header *)
Theorem C48_real_any_data : forall full fails lim p v bufsize gas h n r,
  Conforms par full fails lim p v -> 13 <= lim -> 1 <= bufsize <= BUF_LIM -> zlen full <= Z.of_nat gas ->
  skipn (Z.to_nat (v_pos v)) full = h ++ r -> lzma_header h n ->
  exists y, lzma_new par bufsize true p gas = Ret y /\
    Conforms (lzma_ops par) (if n =? -1 then lz_output (header_format h) r else firstn (Z.to_nat n) (lz_output (header_format h) r)) True BUF_LIM y view0.
Proof.
  intros full fails lim p v bufsize gas h n r HC Hl Hb Hg Hr Hh. destruct (header_decoded _ _ Hh) as (_ & Hok). pose proof (real_ok (header_props h)) as RO. rewrite header_px in RO. specialize (RO Hok).
  destruct (lzma_new_is full fails lim p v bufsize true gas h _ _ HC Hl Hr Hh) as [->|(HF & y & E & Q1 & Q2)].
  - apply (C48_any_data _ _ _ par full fails lim p v bufsize gas h n r RO); try assumption.
  - exists y. split; [exact E|]. apply error_conforms; [exact Logic.I|assumption|assumption].
Qed.
End Real.

(** ** Examples *)
(** a file with an end mark and no announced size; T_LzmaDec.v has the proof that it is data in the format *)
Example ex_file_header : lzma_header (firstn 13 ex_file) (-1).
Proof.
  split; [reflexivity|]. split; [unfold bytes; cbn; repeat (apply Forall_cons; [lia|]); apply Forall_nil|]. split; [|vm_compute; reflexivity].
  exists [0; 16; 0; 0], (repeat 255 8). split; [reflexivity|]. split; [reflexivity|]. split; [exists []; reflexivity|].
  split; [exists [16; 0; 0]; reflexivity|]. cbv zeta. vm_compute. split; [discriminate|]. left. reflexivity.
Qed.
Example ex_file_marked : exists y, lzma_new ss_ops 262144 true (mkSS ex_file (zlen ex_file) 0 Ok) 100 = Ret y /\ Conforms (lzma_ops ss_ops) ex_x False BUF_LIM y view0.
Proof.
  destruct (C48_real_marked ss_ops ex_file False INT32_MAX (mkSS ex_file (zlen ex_file) 0 Ok) view0 262144 100 (firstn 13 ex_file) ex_c ex_x []) as (y & E & HC & _).
  - apply (ss_conforms ex_file). vm_compute. discriminate.
  - unfold INT32_MAX; lia.
  - unfold BUF_LIM; lia.
  - vm_compute. discriminate.
  - reflexivity.
  - exact ex_file_header.
  - exact ex_marked.
  - exists y. split; [exact E|exact HC].
Qed.
(** 4098 times the letter a, without an end mark: a literal, 15 matches of length 273, one of length 2 *)
Definition pend_h : list Z := [93; 0; 16; 0; 0; 2; 16; 0; 0; 0; 0; 0; 0].
Definition pend_c : list Z := [0; 48; 223; 244; 27; 255; 239; 255; 169; 1; 22; 116; 145; 207; 208; 123; 246; 145; 40; 53; 240; 11; 168; 68; 29; 231; 104; 25].
Definition pend_x : list Z := repeat 97 (Z.to_nat 4098).
Example pend_header : lzma_header pend_h (zlen pend_x).
Proof.
  split; [reflexivity|]. split; [unfold bytes, pend_h; repeat (apply Forall_cons; [lia|]); apply Forall_nil|]. split; [|vm_compute; reflexivity].
  exists [0; 16; 0; 0], [2; 16; 0; 0; 0; 0; 0; 0]. split; [reflexivity|]. split; [reflexivity|]. split; [exists []; reflexivity|].
  split; [exists [16; 0; 0]; reflexivity|]. cbv zeta. vm_compute. split; [discriminate|]. right. split; reflexivity.
Qed.
Example pend_data : lz_unmarked_data (header_format pend_h) pend_c pend_x.
Proof. apply (is_unmarked_ok _ _ _ 30). vm_compute. reflexivity. Qed.
(** with anything behind it, the data is delivered *)
Example pend_sized : exists y, lzma_new ss_ops 4097 true (mkSS (pend_h ++ pend_c ++ [0]) 42 0 Ok) 50 = Ret y /\ Conforms (lzma_ops ss_ops) pend_x False BUF_LIM y view0.
Proof.
  destruct (C48_real_sized_partial ss_ops (pend_h ++ pend_c ++ [0]) False INT32_MAX (mkSS (pend_h ++ pend_c ++ [0]) 42 0 Ok) view0 4097 50 pend_h pend_c pend_x [0]) as (y & E & HC & _).
  - apply (ss_conforms (pend_h ++ pend_c ++ [0])). vm_compute. discriminate.
  - unfold INT32_MAX; lia.
  - unfold BUF_LIM; lia.
  - vm_compute. discriminate.
  - reflexivity.
  - exact pend_header.
  - right. split; [exact pend_data|discriminate].
  - exists y. split; [exact E|exact HC].
Qed.
(** Full statement, false of the code: "complete data of the announced size is delivered completely".  When the output
    buffer is full in the middle of the last match, the decoder has consumed all input; the next call of fillBuffer asks for
    more input, and the end of the input is an Error (lzmainputstream.cpp:127-133): the last byte is lost. *)
Theorem C48_real_pending_refuted :
  ~ forall P (par : ops P Z) full lim p v bufsize gas h c x,
      Conforms par full False lim p v -> 13 <= lim -> 1 <= bufsize <= BUF_LIM -> zlen full <= Z.of_nat gas ->
      skipn (Z.to_nat (v_pos v)) full = h ++ c -> lzma_header h (zlen x) -> lz_unmarked_data (header_format h) c x ->
      exists y, lzma_new par bufsize true p gas = Ret y /\ Conforms (lzma_ops par) x False BUF_LIM y view0.
Proof.
  intros H. destruct (H (sstream Z) ss_ops (pend_h ++ pend_c) INT32_MAX (mkSS (pend_h ++ pend_c) 41 0 Ok) view0 4097 50%nat pend_h pend_c pend_x) as (y & E & HC).
  - apply (ss_conforms (pend_h ++ pend_c)). vm_compute. discriminate.
  - unfold INT32_MAX; lia.
  - unfold BUF_LIM; lia.
  - vm_compute. discriminate.
  - reflexivity.
  - exact pend_header.
  - exact pend_data.
  - destruct HC as (_ & _ & HC). destruct (HC [Read 4097 4097; Read 1 1]) as (x' & obs & Er & Ha).
    { apply Forall_cons; [cbn; unfold BUF_LIM, INT32_MAX; lia|]. apply Forall_cons; [cbn; unfold BUF_LIM, INT32_MAX; lia|apply Forall_nil]. }
    clear H HC.
    assert (match lzma_new ss_ops 4097 true (mkSS (pend_h ++ pend_c) 41 0 Ok) 50 with
            | Ret y => match run (lzma_ops ss_ops) y [Read 4097 4097; Read 1 1] with Ret (_, obs) => map ob_st obs | _ => [] end | _ => [] end = [Ok; Error]) as Q by (vm_compute; reflexivity).
    rewrite E, Er in Q. destruct obs as [|a [|b [|? ?]]]; try discriminate. injection Q as Qa Qb. cbn [accepts] in Ha. rewrite Qa, Qb in Ha. cbn [is_error] in Ha.
    destruct Ha as (_ & (_ & [] & _) & _).
Qed.
