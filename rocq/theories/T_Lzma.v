(** C48: LZMAInputStream.  LzmaSpec.v says what is assumed of the decoder, for all inputs;
    DetectSpec.v ([is_lzma]) says which headers are accepted; StreamSpec.v is the contract of a stream. *)
From Verif Require Import Base StreamSpec P_Stream M_StringStream P_StringStream M_Buffered BufferedSpec P_Buffered M_Text TextSpec KmpSpec M_Detect DetectSpec P_Detect InflateSpec P_Inflate M_Lzma LzmaSpec P_Lzma.

(** [h] is an accepted header that announces [n] bytes of data (-1: not known) *)
Definition lzma_header (h : list Z) (n : Z) : Prop :=
  zlen h = 13 /\ bytes h /\ is_lzma h /\ n = twos 8 (le_value (slice h 5 8)).

Section C48.
Context {D P : Type}.
Variables (cd : lzcodec D) (f : lzformat) (DI : D -> list Z -> list Z -> Prop) (par : ops P Z).

Lemma lzma_header_ok h n : lzma_header h n -> lzma_check h = Ret true /\ rd_size h = Ret n /\ -1 <= n /\ n <> 0.
Proof.
  intros (H1 & H2 & H3 & ->). destruct (lzma_check_ok h H2) as (b & E & Hb). rewrite E. assert (b = true) as -> by (apply Hb; exact H3). split; [reflexivity|].
  unfold rd_size. rewrite rd_le_ok by lia. cbn [bind]. change (Z.of_nat 8) with 8.
  assert (BS : Forall (fun c => 0 <= c < 256) (slice h 5 8)) by (apply bytes_slice; exact H2). pose proof (le_value_max _ BS) as M. rewrite zlen_slice in M by lia. change (256 ^ 8) with 18446744073709551616 in M.
  destruct H3 as (dict & size & L1 & L2 & (t & E3) & _ & Hc).
  assert (slice h 5 8 = size) as Es.
  { rewrite E3. rewrite <- !app_assoc. rewrite slice_app_r by (change (zlen [93]) with 1; lia). change (zlen [93]) with 1. rewrite slice_app_r by lia. rewrite L1. change (5 - 1 - 4) with 0. rewrite slice_app_l by lia. rewrite <- L2. apply slice_all. }
  rewrite Es in *. cbv zeta in Hc. destruct Hc as (Hd & Hc). assert (4096 <= Z.max 4096 (le_value dict)) by lia. set (dd := Z.max 4096 (le_value dict)) in *.
  split; [reflexivity|lia].
Qed.

Lemma l_error_conforms (content : list Z) (fails : Prop) x : fails -> bs_st x = Error -> bs_pos x = 0 -> Conforms (l_ops cd par) content fails BUF_LIM x view0.
Proof.
  intros Hf Hx Hp. pose proof (zlen_nonneg content). split; [unfold view_ok, view0; cbn; lia|]. split; [exact Hp|].
  intros [|c l] Hl; [exists x, []; split; [reflexivity|exact Logic.I]|]. assert (call_ok content BUF_LIM c) as Hc by (inversion Hl; assumption).
  assert (exists ob, exec (l_ops cd par) x c = Ret (x, ob) /\ ob_st ob = Error /\ bad_obs content fails view0 c ob) as (ob & E & H1 & H2).
  { destruct c as [mn mx|n|p]; cbn [exec l_ops o_read o_skip o_reset].
    - unfold l_read. rewrite Hx. cbn [bind]. eexists; split; [reflexivity|]. cbn. split; [exact Hx|]. split; [exact Hx|]. split; [exact Hf|reflexivity].
    - assert (exists k, l_skip cd par x n = Ret (x, k)) as (k & E).
      { unfold l_skip. cbn [call_ok] in Hc. unfold skip_rounds. destruct (Z.ltb_spec n 0); [lia|]. destruct (Z.to_nat n) as [|fu] eqn:En; cbn [l_skip_loop].
        - destruct (Z.eqb_spec n 0); [eexists; reflexivity|lia].
        - destruct (Z.eqb_spec n 0); [lia|]. unfold l_read. rewrite Hx. cbn [bind]. change (-2 <=? 0) with true. eexists; reflexivity. }
      rewrite E; cbn [bind]. eexists; split; [reflexivity|]. cbn. split; [exact Hx|]. split; [exact Hx|]. left; exact Hf.
    - cbn [call_ok] in Hc. unfold bs_reset. destruct (Z.ltb_spec p 0); [lia|]. rewrite Hx. cbn [bind]. eexists; split; [reflexivity|]. cbn. split; [exact Hx|]. split; [exact Hx|exact Hf]. }
  exists x, [ob]. cbn [run]. rewrite E; cbn [bind]. rewrite H1; cbn [is_error]. split; [reflexivity|]. cbn [accepts]. rewrite H1; cbn [is_error]. split; [exact H2|reflexivity].
Qed.

(** the constructor on a header, and everything behind it *)
Lemma l_new_ok full fails lim p v bufsize gas h n r ext (F : Prop) :
  lzma_ok f cd DI -> Conforms par full fails lim p v -> 13 <= lim -> 1 <= bufsize <= BUF_LIM -> zlen full <= Z.of_nat gas ->
  skipn (Z.to_nat (v_pos v)) full = h ++ r -> lzma_header h n ->
  (fails -> F) ->
  (forall d o, DI d r o -> n = -1 \/ zlen o < n -> F) ->
  ((forall t c b x, r ++ t = c ++ b -> lz_valid f c x -> (n = -1 -> ~ lz_marked f c x) /\ (n <> -1 -> zlen x <> n)) -> F) ->
  (n <> -1 -> zlen (lz_dec f (r ++ ext)) < n -> F) ->
  exists x, l_new cd par bufsize true p gas = Ret x /\ Conforms (l_ops cd par) (upto n (lz_dec f (r ++ ext))) F BUF_LIM x view0 /\
    (fails \/ bs_st x = Ok /\ bs_size x = n).
Proof.
  intros Hcd HC Hl Hb Hg Hr Hh HF1 HF2 HF3 HF4. destruct (lzma_header_ok h n Hh) as (Hck & Hrd & Hn1 & Hn0). destruct Hh as (Zh & _).
  set (R := Conforms par full fails lim) in *. assert (HS := conforms_sim par full fails lim : sim par full fails lim R).
  assert (HV := sim_view _ _ _ _ _ HS _ _ HC). unfold view_ok in HV. unfold l_new.
  assert (zlen full - v_pos v = 13 + zlen r) as Zr by (assert (Q := f_equal (@zlen Z) Hr); rewrite zlen_app, zlen_skipn in Q by lia; lia). pose proof (zlen_nonneg r).
  destruct (sim_read _ _ _ _ _ p v 13 13 HS HC) as (q & m & b & E & Hres); [cbn; unfold INT32_MIN, INT32_MAX; lia|]. rewrite E; cbn [bind].
  destruct Hres as [[G HR]|(_ & HF & G3)].
  - destruct G as (G1 & G2 & G3 & G4 & [(R1 & R2 & R3 & R4 & R5)|(R1 & R2 & R3 & R4)]); cbn [observe ob_ret ob_data ob_st next_view] in *; [|lia].
    assert (m = 13) as -> by lia. change (0 <? 13) with true in HR. cbn iota in HR. change (13 =? 13) with true. cbn iota.
    assert (b = h) as ->. { rewrite R2. unfold slice. rewrite Hr. rewrite firstn_app. replace (Z.to_nat 13 - length h)%nat with 0%nat by (unfold zlen in Zh; lia). rewrite firstn_all2 by (unfold zlen in Zh; lia). cbn [firstn]. apply app_nil_r. }
    rewrite Hck; cbn [bind]. rewrite Hrd; cbn [bind]. cbn [andb negb orb]. destruct (Z.ltb_spec n (-1)); [lia|].
    assert (skipn (Z.to_nat (v_pos v + 13)) full = r) as Hr'.
    { replace (Z.to_nat (v_pos v + 13)) with (13 + Z.to_nat (v_pos v))%nat by lia. rewrite <- skipn_skipn', Hr. rewrite skipn_app. rewrite skipn_all2 by (unfold zlen in Zh; lia). replace (13 - length h)%nat with 0%nat by (unfold zlen in Zh; lia). reflexivity. }
    destruct (l_ready_ok cd f DI Hcd par full fails lim R HS ltac:(lia) (v_pos v + 13) ext n F Hn1 HF1) with (bufsize := bufsize) (p := q) (v := mkView (v_pos v + 13) (v_pos v) (v_pos v + 13)) (gas := gas) as (x & E1 & E2 & E3 & E4);
      rewrite ?Hr'; try assumption; [reflexivity|].
    rewrite Hr' in E2. exists x. split; [exact E1|]. split; [exact E2|right; split; assumption].
  - cbn [observe ob_ret] in G3. subst m. change (-2 =? 13) with false. cbn iota. cbn [bind andb negb orb]. eexists; split; [reflexivity|]. split; [|left; exact HF].
    apply l_error_conforms; [apply HF1; exact HF|reflexivity|reflexivity].
Qed.

(** Known size: the input stands in front of a header that announces [zlen x] bytes, complete data for [x], and possibly
    something behind it.  The stream keeps the contract of streams with exactly [x] as content, for every chunking of the
    input and every history of calls, failing only if the input fails, and announces the right size.
    Provided that something follows, or that the decoder has no output left when it has consumed the
    last byte; without this the statement is false of the code: C48_pending_output_refuted. *)
Theorem C48_sized_partial : forall full fails lim p v bufsize gas h c x rest,
  lzma_ok f cd DI -> Conforms par full fails lim p v -> 13 <= lim -> 1 <= bufsize <= BUF_LIM -> zlen full <= Z.of_nat gas ->
  skipn (Z.to_nat (v_pos v)) full = h ++ c ++ rest -> lzma_header h (zlen x) -> lz_valid f c x ->
  rest <> [] \/ (forall d o, DI d c o -> zlen x <= zlen o) ->
  exists y, l_new cd par bufsize true p gas = Ret y /\ Conforms (l_ops cd par) x fails BUF_LIM y view0 /\
    (fails \/ bs_st y = Ok /\ bs_size y = zlen x).
Proof.
  intros full fails lim p v bufsize gas h c x rest Hcd HC Hl Hb Hg Hr Hh Hv Hrest.
  pose proof (zlen_nonneg x) as Zx. assert (prefix x (lz_dec f (c ++ rest))) as Hpx by (apply (lo_valid _ _ _ Hcd); exact Hv).
  destruct (l_new_ok full fails lim p v bufsize gas h (zlen x) (c ++ rest) [] fails Hcd HC Hl Hb Hg Hr Hh (fun q => q)) as (y & E1 & E2 & E3).
  - intros d o HD [Q|Q]; [lia|]. exfalso. destruct rest as [|b rest].
    + rewrite app_nil_r in HD. destruct Hrest as [Hrest|Hrest]; [congruence|]. specialize (Hrest d o HD). lia.
    + assert (Q2 := lo_lazy _ _ _ Hcd _ _ _ _ (b :: rest) _ HD Hv eq_refl ltac:(discriminate)). lia.
  - intros Hno. exfalso. destruct (Hno [] c rest x) as (_ & Q); [rewrite app_nil_r; reflexivity|exact Hv|]. apply Q; [lia|reflexivity].
  - intros _ Q. exfalso. rewrite app_nil_r in Q. destruct Hpx as (t & Et). rewrite Et, zlen_app in Q. pose proof (zlen_nonneg t). lia.
  - exists y. split; [exact E1|]. split; [|exact E3]. replace x with (upto (zlen x) (lz_dec f ((c ++ rest) ++ []))); [exact E2|].
    rewrite app_nil_r. destruct Hpx as (t & ->). unfold upto. destruct (Z.eqb_spec (zlen x) (-1)); [lia|]. unfold zlen. rewrite Nat2Z.id, firstn_app, firstn_all, Nat.sub_diag. apply app_nil_r.
Qed.
(** Unknown size (-1): data with an end mark. *)
Theorem C48_marked : forall full fails lim p v bufsize gas h c x rest,
  lzma_ok f cd DI -> Conforms par full fails lim p v -> 13 <= lim -> 1 <= bufsize <= BUF_LIM -> zlen full <= Z.of_nat gas ->
  skipn (Z.to_nat (v_pos v)) full = h ++ c ++ rest -> lzma_header h (-1) -> lz_marked f c x ->
  exists y, l_new cd par bufsize true p gas = Ret y /\ Conforms (l_ops cd par) x fails BUF_LIM y view0 /\
    (fails \/ bs_st y = Ok /\ bs_size y = -1).
Proof.
  intros full fails lim p v bufsize gas h c x rest Hcd HC Hl Hb Hg Hr Hh Hm.
  destruct (lo_marked _ _ _ Hcd _ _ Hm) as (Hv & Hdec).
  destruct (l_new_ok full fails lim p v bufsize gas h (-1) (c ++ rest) [] fails Hcd HC Hl Hb Hg Hr Hh (fun q => q)) as (y & E1 & E2 & E3).
  - intros d o HD _. exfalso. apply (lo_unended _ _ _ Hcd _ _ _ _ rest _ HD Hm). reflexivity.
  - intros Hno. exfalso. destruct (Hno [] c rest x) as (Q & _); [rewrite app_nil_r; reflexivity|exact Hv|]. exact (Q eq_refl Hm).
  - lia.
  - exists y. split; [exact E1|]. split; [|exact E3]. unfold upto in E2. change (-1 =? -1) with true in E2. cbn iota in E2. rewrite app_nil_r, Hdec in E2. exact E2.
Qed.
(** Truncated data: every history of calls returns, what is delivered is a part of the data, and the end (Eof) is
    never reported before all of the data was delivered. *)
Theorem C48_truncated : forall full fails lim p v bufsize gas h n r missing x,
  lzma_ok f cd DI -> Conforms par full fails lim p v -> 13 <= lim -> 1 <= bufsize <= BUF_LIM -> zlen full <= Z.of_nat gas ->
  skipn (Z.to_nat (v_pos v)) full = h ++ r -> lzma_header h n ->
  (n = zlen x /\ lz_valid f (r ++ missing) x \/ n = -1 /\ lz_marked f (r ++ missing) x) ->
  exists y, l_new cd par bufsize true p gas = Ret y /\ Conforms (l_ops cd par) x True BUF_LIM y view0.
Proof.
  intros full fails lim p v bufsize gas h n r missing x Hcd HC Hl Hb Hg Hr Hh Hx.
  destruct (l_new_ok full fails lim p v bufsize gas h n r missing True Hcd HC Hl Hb Hg Hr Hh (fun _ => Logic.I)) as (y & E1 & E2 & _); [tauto|tauto|tauto|].
  exists y. split; [exact E1|]. pose proof (zlen_nonneg x). destruct Hx as [(-> & Hv)|(-> & Hm)].
  - assert (Hpx := lo_valid _ _ _ Hcd _ _ [] Hv). rewrite app_nil_r in Hpx. destruct Hpx as (t & Et). rewrite Et in E2. unfold upto in E2. destruct (Z.eqb_spec (zlen x) (-1)); [lia|].
    unfold zlen in E2. rewrite Nat2Z.id, firstn_app, firstn_all, Nat.sub_diag in E2. cbn [firstn] in E2. rewrite app_nil_r in E2. exact E2.
  - destruct (lo_marked _ _ _ Hcd _ _ Hm) as (_ & Q). specialize (Q []). rewrite app_nil_r in Q. unfold upto in E2. change (-1 =? -1) with true in E2. cbn iota in E2. rewrite Q in E2. exact E2.
Qed.
(** Any bytes behind the header: every history of calls returns (no undefined behaviour, no endless loop) and delivers
    what can be decoded, at most as much as announced; the end is reported only behind all of that. *)
Theorem C48_any_data : forall full fails lim p v bufsize gas h n r,
  lzma_ok f cd DI -> Conforms par full fails lim p v -> 13 <= lim -> 1 <= bufsize <= BUF_LIM -> zlen full <= Z.of_nat gas ->
  skipn (Z.to_nat (v_pos v)) full = h ++ r -> lzma_header h n ->
  exists y, l_new cd par bufsize true p gas = Ret y /\
    Conforms (l_ops cd par) (if n =? -1 then lz_dec f r else firstn (Z.to_nat n) (lz_dec f r)) True BUF_LIM y view0.
Proof.
  intros full fails lim p v bufsize gas h n r Hcd HC Hl Hb Hg Hr Hh.
  destruct (l_new_ok full fails lim p v bufsize gas h n r [] True Hcd HC Hl Hb Hg Hr Hh (fun _ => Logic.I)) as (y & E1 & E2 & _); [tauto|tauto|tauto|].
  exists y. split; [exact E1|]. rewrite app_nil_r in E2. exact E2.
Qed.
(** Other input is refused by the constructor. *)
Theorem C48_refused : forall full lim p v bufsize gas, bytes full ->
  Conforms par full False lim p v -> 13 <= lim -> ~ is_lzma (skipn (Z.to_nat (v_pos v)) full) ->
  exists y, l_new cd par bufsize true p gas = Ret y /\ bs_st y = Error.
Proof.
  intros full lim p v bufsize gas HB HC Hl Hno. unfold l_new. assert (HV : view_ok full v) by apply HC. unfold view_ok in HV.
  destruct (sim_read _ _ _ _ _ p v 13 13 (conforms_sim _ _ _ _) HC) as (q & m & b & E & Hres); [cbn; unfold INT32_MIN, INT32_MAX; lia|]. rewrite E; cbn [bind].
  destruct Hres as [[G HR]|(_ & [] & _)].
  assert (exists y, (let* ok := (if m =? 13 then lzma_check b else Ret false) in Ret ok) = Ret y /\ y = false) as (y & Ey & ->).
  { destruct (Z.eqb_spec m 13) as [->|]; [|eexists; split; reflexivity].
    destruct G as (G1 & G2 & G3 & G4 & [(R1 & R2 & R3 & R4 & R5)|(R1 & R2 & R3 & R4)]); cbn [observe ob_ret ob_data ob_st next_view] in *; [|lia].
    assert (bytes b) as Bb by (rewrite R2; apply bytes_slice; exact HB). destruct (lzma_check_ok b Bb) as (ok & -> & Hok). cbn [bind]. exists ok. split; [reflexivity|].
    destruct ok; [|reflexivity]. exfalso. apply Hno. destruct (proj1 Hok eq_refl) as (di & sz & L1 & L2 & (t & Et) & Hd). exists di, sz. split; [exact L1|]. split; [exact L2|]. split; [|exact Hd].
    exists (t ++ skipn (Z.to_nat (v_pos v + 13)) full). rewrite (skipn_slice full (v_pos v) 13) by lia. rewrite <- R2, Et, <- app_assoc. reflexivity. }
  assert (exists ok, (if m =? 13 then lzma_check b else Ret false) = Ret ok /\ ok = false) as (ok & Eo & ->).
  { destruct (if m =? 13 then lzma_check b else Ret false) as [ok| | |]; cbn [bind] in Ey; try discriminate. exists ok. split; [reflexivity|congruence]. }
  rewrite Eo; cbn [bind andb negb orb]. eexists; split; reflexivity.
Qed.
(** If the dictionary cannot be allocated the stream is in error, whatever the input. *)
Theorem C48_no_memory : forall full fails lim p v bufsize gas, bytes full ->
  Conforms par full fails lim p v -> 13 <= lim ->
  exists y, l_new cd par bufsize false p gas = Ret y /\ bs_st y = Error.
Proof.
  intros full fails lim p v bufsize gas HB HC Hl. unfold l_new. assert (HV : view_ok full v) by apply HC. unfold view_ok in HV.
  destruct (sim_read _ _ _ _ _ p v 13 13 (conforms_sim _ _ _ _) HC) as (q & m & b & E & Hres); [cbn; unfold INT32_MIN, INT32_MAX; lia|]. rewrite E; cbn [bind].
  destruct Hres as [[G HR]|(_ & _ & ->)]; [|cbn [Z.eqb bind andb negb orb]; eexists; split; reflexivity].
  destruct (Z.eqb_spec m 13) as [->|]; [|cbn [bind andb negb orb]; eexists; split; reflexivity].
  destruct G as (G1 & G2 & G3 & G4 & [(R1 & R2 & R3 & R4 & R5)|(R1 & R2 & R3 & R4)]); cbn [observe ob_ret ob_data ob_st next_view] in *; [|lia].
  assert (bytes b) as Bb by (rewrite R2; apply bytes_slice; exact HB). destruct (lzma_check_ok b Bb) as (ok & -> & Hok). cbn [bind].
  assert (exists u, rd_size b = Ret u) as (u & Eu).
  { unfold rd_size. rewrite rd_le_ok by (rewrite ?R2, ?zlen_slice by lia; lia). cbn [bind]. eexists; reflexivity. }
  rewrite Eu. destruct ok; cbn [bind andb negb orb]; eexists; split; reflexivity.
Qed.
End C48.

(** ** The assumptions are satisfiable: "a, b" stands for 256*a bytes b; a byte 0 behind that is the end mark *)
Definition tl_x (a b : Z) : list Z := repeat b (Z.to_nat (256 * a)).
Definition tl_dec (r : list Z) : list Z :=
  match r with a :: b :: _ => if (1 <=? a) && (a <? 256) then tl_x a b else [] | _ => [] end.
Definition tl_marked (c x : list Z) : Prop := exists a b, 1 <= a < 256 /\ c = [a; b; 0] /\ x = tl_x a b.
Definition tl_valid (c x : list Z) : Prop := exists a b, 1 <= a < 256 /\ (c = [a; b] \/ c = [a; b; 0]) /\ x = tl_x a b.
Definition tl_format : lzformat := mkLzformat tl_dec tl_valid tl_marked.
Inductive tl := L0 | L1 (a : Z) | LRun (b m : Z).
Definition tl_step (d : tl) (w : list Z) (space : Z) (fin : bool) : tl * Z * list Z * lcode :=
  match d, w with
  | L0, a :: _ => if (1 <=? a) && (a <? 256) then (L1 a, 1, [], LOk false) else (L0, 0, [], LBad)
  | L1 a, b :: _ => let j := Z.min space (256 * a) in (LRun b (256 * a - j), 1, repeat b (Z.to_nat j), LOk false)
  | LRun b m, c :: _ =>
      if m =? 0 then if c =? 0 then (L0, 1, [], LOk true) else (L0, 0, [], LBad)
      else let j := Z.min space m in (LRun b (m - j), 0, repeat b (Z.to_nat j), LOk false)
  | _, [] => (L0, 0, [], LBad)
  end.
Definition tl_codec : lzcodec tl := mkLzcodec _ L0 tl_step.
Definition tl_DI (d : tl) (u o : list Z) : Prop :=
  match d with
  | L0 => u = [] /\ o = []
  | L1 a => u = [a] /\ o = [] /\ 1 <= a < 256
  | LRun b m => exists a, u = [a; b] /\ 1 <= a < 256 /\ 0 <= m <= 256 * a /\ o = repeat b (Z.to_nat (256 * a - m))
  end.
Lemma zlen_repeat (b : Z) n : zlen (repeat b n) = Z.of_nat n.
Proof. unfold zlen. rewrite repeat_length. reflexivity. Qed.
Lemma tl_ok : lzma_ok tl_format tl_codec tl_DI.
Proof.
  assert (forall a b t, 1 <= a < 256 -> tl_dec (a :: b :: t) = tl_x a b) as Hdec.
  { intros a b t Ha. cbn [tl_dec]. destruct (Z.leb_spec 1 a); [|lia]. destruct (Z.ltb_spec a 256); [|lia]. reflexivity. }
  split.
  - intros c x t (a & b & Ha & [-> | ->] & ->); cbn [app lz_dec tl_format]; rewrite Hdec by exact Ha; exists []; symmetry; apply app_nil_r.
  - intros c x (a & b & Ha & -> & ->). split; [exists a, b; split; [exact Ha|split; [right; reflexivity|reflexivity]]|]. intros t. cbn [app lz_dec tl_format]. apply Hdec; exact Ha.
  - split; reflexivity.
  - intros d u o c t x HD (a & b & Ha & Hc & ->) Hu Ht. exfalso. destruct t as [|t0 t]; [congruence|].
    destruct d as [|a'|b' m]; cbn [tl_DI] in HD.
    + destruct HD as (-> & _). destruct Hc as [-> | ->]; discriminate.
    + destruct HD as (-> & _). destruct Hc as [-> | ->]; discriminate.
    + destruct HD as (a' & -> & _). destruct Hc as [-> | ->]; discriminate.
  - intros d u o c t x HD (a & b & Ha & -> & ->) Hu. destruct d as [|a'|b' m]; cbn [tl_DI] in HD.
    + destruct HD as (-> & _). discriminate.
    + destruct HD as (-> & _). discriminate.
    + destruct HD as (a' & -> & _). discriminate.
  - intros d u o w space fin d' k y r HD Hw Hsp E. destruct w as [|w0 w]; [congruence|]. rewrite zlen_cons. pose proof (zlen_nonneg w).
    destruct d as [|a|b m]; cbn [tl_DI l_step tl_codec tl_step] in *.
    + destruct HD as (-> & ->). destruct ((1 <=? w0) && (w0 <? 256)) eqn:Ea; injection E as <- <- <- <-.
      * apply andb_true_iff in Ea as (E1 & E2). apply Z.leb_le in E1. apply Z.ltb_lt in E2. change (zlen (@nil Z)) with 0. split; [lia|]. split; [lia|]. split; [intros t; eexists; reflexivity|].
        split; [left; lia|]. cbn. split; [reflexivity|split; [reflexivity|lia]].
      * change (zlen (@nil Z)) with 0. split; [lia|]. split; [lia|]. split; [intros t; eexists; reflexivity|]. intros t c b x Hx (a & b' & Ha & Hc & ->). exfalso.
        assert (w0 = a) as -> by (cbn [app] in Hx; destruct Hc as [-> | ->]; cbn [app] in Hx; congruence). destruct (Z.leb_spec 1 a); [|lia]. destruct (Z.ltb_spec a 256); [|lia]. discriminate.
    + destruct HD as (-> & -> & Ha). set (j := Z.min space (256 * a)) in *. assert (1 <= j <= space /\ j <= 256 * a) as Hj by (unfold j; lia).
      assert (d' = LRun w0 (256 * a - j)) as -> by congruence. assert (k = 1) as -> by congruence. assert (y = repeat w0 (Z.to_nat j)) as -> by congruence. assert (r = LOk false) as -> by congruence.
      clearbody j. rewrite zlen_repeat. split; [lia|]. split; [lia|]. split.
      * intros t. cbn [app lz_dec tl_format]. rewrite Hdec by exact Ha. exists (repeat w0 (Z.to_nat (256 * a - j))). unfold tl_x. rewrite <- repeat_app. f_equal. lia.
      * split; [left; lia|]. cbv iota; unfold tl_DI; exists a. split; [reflexivity|]. split; [exact Ha|]. split; [lia|]. cbn [app]. f_equal. lia.
    + destruct HD as (a & -> & Ha & Hm & ->). destruct (Z.eqb_spec m 0) as [->|Hm0].
      * assert (repeat b (Z.to_nat (256 * a - 0)) = tl_x a b) as Eo by (unfold tl_x; rewrite Z.sub_0_r; reflexivity). rewrite Eo in *.
        destruct (Z.eqb_spec w0 0) as [->|Hw0]; injection E as <- <- <- <-; change (zlen (@nil Z)) with 0; rewrite ?app_nil_r.
        -- split; [lia|]. split; [lia|]. split; [intros t; cbn [app lz_dec tl_format]; rewrite Hdec by exact Ha; exists []; symmetry; apply app_nil_r|]. split; [left; lia|].
           cbn. exists a, b. split; [exact Ha|split; reflexivity].
        -- split; [lia|]. split; [lia|]. split; [intros t; cbn [app lz_dec tl_format]; rewrite Hdec by exact Ha; exists []; symmetry; apply app_nil_r|].
           intros t c b' x Hx (a' & b'' & Ha' & Hc & ->). cbn [app] in Hx.
           assert (a' = a /\ b'' = b) as (-> & ->) by (destruct Hc as [-> | ->]; cbn [app] in Hx; split; congruence).
           match goal with |- if _ then _ else ?Q /\ _ => assert Q as HQ; [|destruct fin; [lia|split; [exact HQ|lia]]] end. intros (a2 & b2 & _ & -> & _). cbn [app] in Hx. congruence.
      * injection E as <- <- <- <-. set (j := Z.min space m). assert (1 <= j <= space /\ j <= m) as Hj by (unfold j; lia). rewrite zlen_repeat.
        split; [lia|]. split; [lia|].
        assert (repeat b (Z.to_nat (256 * a - m)) ++ repeat b (Z.to_nat j) = repeat b (Z.to_nat (256 * a - (m - j)))) as Er by (rewrite <- repeat_app; f_equal; lia).
        rewrite Er. split; [intros t|].
        -- cbn [app lz_dec tl_format]. rewrite Hdec by exact Ha. exists (repeat b (Z.to_nat (m - j))). unfold tl_x. rewrite <- repeat_app. f_equal. lia.
        -- split; [right; lia|]. cbn [firstn Z.to_nat app]. exists a. split; [reflexivity|]. split; [exact Ha|]. split; [lia|reflexivity].
Qed.

(** a header that announces 5120 bytes, and data for them; something follows *)
Definition tl_head : list Z := [93; 0;16;0;0; 0;20;0;0;0;0;0;0].
Lemma tl_head_ok : lzma_header tl_head (zlen (tl_x 20 7)).
Proof.
  split; [reflexivity|]. split; [repeat (apply Forall_cons; [lia|]); apply Forall_nil|]. split; [|vm_compute; reflexivity].
  exists [0;16;0;0], [0;20;0;0;0;0;0;0]. split; [reflexivity|]. split; [reflexivity|]. split; [exists []; reflexivity|]. split; [exists [16;0;0]; reflexivity|].
  vm_compute. split; [discriminate|]. right. split; reflexivity.
Qed.
Definition tl_unknown : list Z := [93; 0;16;0;0; 255;255;255;255;255;255;255;255].
Example C48_case : lz_valid tl_format [20;7] (tl_x 20 7) /\ lz_marked tl_format [20;7;0] (tl_x 20 7) /\
  lzma_header tl_unknown (-1) /\
  (* known size, followed by a byte *)
  (exists x x', l_new tl_codec ss_ops 64 true (mkSS (tl_head ++ [20;7] ++ [99]) 16 0 Ok) 16 = Ret x /\
    run (l_ops tl_codec ss_ops) x [Read 5000 5000; Read 200 0] = Ret (x', [mkObs 5000 (repeat 7 (Z.to_nat 5000)) 5000 5120 Ok; mkObs 120 (repeat 7 (Z.to_nat 120)) 5120 5120 Eof])) /\
  (* unknown size with an end mark *)
  (exists x x', l_new tl_codec ss_ops 64 true (mkSS (tl_unknown ++ [20;7;0]) 16 0 Ok) 16 = Ret x /\
    run (l_ops tl_codec ss_ops) x [Read 5000 5000; Read 200 0] = Ret (x', [mkObs 5000 (repeat 7 (Z.to_nat 5000)) 5000 (-1) Ok; mkObs 120 (repeat 7 (Z.to_nat 120)) 5120 5120 Eof])).
Proof.
  split; [exists 20, 7; split; [lia|split; [left; reflexivity|reflexivity]]|]. split; [exists 20, 7; split; [lia|split; reflexivity]|]. split.
  { split; [reflexivity|]. split; [repeat (apply Forall_cons; [lia|]); apply Forall_nil|]. split; [|vm_compute; reflexivity].
    exists [0;16;0;0], [255;255;255;255;255;255;255;255]. split; [reflexivity|]. split; [reflexivity|]. split; [exists []; reflexivity|]. split; [exists [16;0;0]; reflexivity|].
    vm_compute. split; [discriminate|]. left. reflexivity. }
  split; do 2 eexists; (split; [vm_compute; reflexivity|vm_compute; reflexivity]).
Qed.

(** Full statement, false of the code: "complete data of the announced size is delivered completely".  fillBuffer asks for
    more input whenever it has handed all of it to the decoder, even if the decoder still holds output
    (lzmainputstream.cpp:127-133); at the end of the input this is an Error.  Here the last match is longer than the first read. *)
Theorem C48_pending_output_refuted :
  ~ forall D P (cd : lzcodec D) f DI (par : ops P Z) full lim p v bufsize gas h c x,
      lzma_ok f cd DI -> Conforms par full False lim p v -> 13 <= lim -> 1 <= bufsize <= BUF_LIM -> zlen full <= Z.of_nat gas ->
      skipn (Z.to_nat (v_pos v)) full = h ++ c -> lzma_header h (zlen x) -> lz_valid f c x ->
      exists y, l_new cd par bufsize true p gas = Ret y /\ Conforms (l_ops cd par) x False BUF_LIM y view0.
Proof.
  intros H. destruct (H tl (sstream Z) tl_codec tl_format tl_DI ss_ops (tl_head ++ [20;7]) INT32_MAX (mkSS (tl_head ++ [20;7]) 15 0 Ok) view0 64 16%nat tl_head [20;7] (tl_x 20 7)) as (y & E & HC).
  - exact tl_ok.
  - apply (ss_conforms (tl_head ++ [20;7])). vm_compute. discriminate.
  - unfold INT32_MAX; lia.
  - unfold BUF_LIM; lia.
  - vm_compute. discriminate.
  - reflexivity.
  - exact tl_head_ok.
  - exists 20, 7. split; [lia|split; [left; reflexivity|reflexivity]].
  - destruct HC as (_ & _ & HC). specialize (HC [Read 5000 5000; Read 1 1]).
    destruct HC as (x' & obs & Er & Ha).
    { apply Forall_cons; [cbn; unfold BUF_LIM, INT32_MAX; lia|]. apply Forall_cons; [cbn; unfold BUF_LIM, INT32_MAX; lia|apply Forall_nil]. }
    vm_compute in E. injection E as <-. vm_compute in Er. injection Er as _ <-.
    cbn [accepts ob_st is_error] in Ha. destruct Ha as (_ & (_ & [] & _) & _).
Qed.

(** C29's claim about the parent is false for this stream: the bytes behind the data stay consumed (there is no reset of the
    parent in lzmainputstream.cpp).  Here 15 bytes are header and data, but the parent ends at position 18. *)
Theorem C48_parent_position_refuted :
  exists x x' obs, l_new tl_codec ss_ops 8192 true (mkSS (tl_head ++ [20;7] ++ [1;2;3]) 18 0 Ok) 18 = Ret x /\
    run (l_ops tl_codec ss_ops) x [Read 5120 5120; Read 1 1] = Ret (x', obs) /\ bs_st x' = Eof /\
    map ob_ret obs = [5120; -1] /\ o_pos ss_ops (l_par (bs_src x')) = 18 /\ zlen (tl_head ++ [20;7]) = 15.
Proof.
  destruct (l_new tl_codec ss_ops 8192 true (mkSS (tl_head ++ [20;7] ++ [1;2;3]) 18 0 Ok) 18) as [x| | |] eqn:E; [|vm_compute in E; discriminate..].
  destruct (run (l_ops tl_codec ss_ops) x [Read 5120 5120; Read 1 1]) as [(x', obs)| | |] eqn:E2; [|vm_compute in E; injection E as <-; vm_compute in E2; discriminate..].
  exists x, x', obs. split; [reflexivity|]. split; [exact E2|]. vm_compute in E. injection E as <-. vm_compute in E2. injection E2 as <- <-.
  split; [vm_compute; reflexivity|]. split; [vm_compute; reflexivity|]. split; vm_compute; reflexivity.
Qed.
