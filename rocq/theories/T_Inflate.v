(** C29: the decompressing streams.  InflateSpec.v says what is assumed of the library, for
    all inputs; StreamSpec.v is the contract of a stream. *)
From Verif Require Import Base StreamSpec P_Stream M_StringStream P_StringStream M_Buffered BufferedSpec P_Buffered M_Inflate InflateSpec P_Inflate.

(** the two classes share the model: [bz] = false is GZipInputStream, true is BZ2InputStream *)
Definition z_ops {D P} (bz : bool) (cd : codec D) (par : ops P Z) : ops (bstream (zstate D P) Z) Z := bs_ops (z_src cd par bz).
(** creation: the constructor of GZipInputStream with one of its formats, or of BZ2InputStream *)
Inductive kind := Gzip | Zlib | Zip | Bzip2.
Definition z_new {D P} (k : kind) (cd : codec D) (par : ops P Z) (bufsize : Z) (p : P) (gas : nat) : out (bstream (zstate D P) Z) :=
  match k with
  | Gzip => gz_new cd par bufsize true p gas
  | Zlib | Zip => gz_new cd par bufsize false p gas
  | Bzip2 => bz_new cd par bufsize p gas
  end.
Definition is_bz (k : kind) : bool := match k with Bzip2 => true | _ => false end.
(** the bytes the constructor looks for.  It resets the input afterwards without checking
    that reading worked, so for these kinds the input must not fail. *)
Definition magic_ok (k : kind) (fails : Prop) (lim : Z) (r : list Z) : Prop :=
  match k with
  | Gzip => ~ fails /\ 2 <= lim /\ exists t, r = 31 :: 139 :: t
  | Bzip2 => ~ fails /\ 10 <= lim /\ exists h level t, (h = 104 \/ h = 48) /\ r = 66 :: 90 :: h :: level :: 49 :: 65 :: 89 :: 38 :: 83 :: 89 :: t
  | _ => True
  end.

Section C29.
Context {D P : Type}.
Variables (cd : codec D) (f : format) (DI : D -> list Z -> list Z -> Prop) (par : ops P Z).

Lemma z_new_ok k full fails lim p v bufsize gas ext F :
  codec_ok f cd DI -> Conforms par full fails lim p v -> 1 <= bufsize <= BUF_LIM -> zlen full <= Z.of_nat gas ->
  magic_ok k fails lim (skipn (Z.to_nat (v_pos v)) full) ->
  exists x, z_new k cd par bufsize p gas = Ret x /\ fin_inv x /\
     bs_init_ok (dec f (skipn (Z.to_nat (v_pos v)) full ++ ext)) F (z_SR f DI full fails (Conforms par full fails lim) (v_pos v) ext) x.
Proof.
  intros Hcd HC Hb Hg Hm.
  set (R := Conforms par full fails lim) in *. assert (HS := conforms_sim par full fails lim : sim par full fails lim R).
  assert (HV := sim_view _ _ _ _ _ HS _ _ HC). unfold view_ok in HV. assert (HP := sim_pos _ _ _ _ _ HS _ _ HC).
  assert (forall q w, R q w -> v_pos w = v_pos v -> exists x, z_ready cd bufsize q gas = Ret x /\ fin_inv x /\
     bs_init_ok (dec f (skipn (Z.to_nat (v_pos v)) full ++ ext)) F (z_SR f DI full fails R (v_pos v) ext) x) as Hrd.
  { intros q w HRq Hq. destruct (z_ready_ok cd f DI Hcd par full fails lim R HS bufsize q w gas ext F Hb HRq Hg) as (x & E & H1 & _ & H2). rewrite Hq in H2. exists x; auto. }
  (* a read of [m] bytes that are there followed by a reset *)
  assert (~ fails -> forall m mx, 1 <= m <= lim -> m <= INT32_MAX -> mx = m \/ mx = 0 -> m <= zlen full - v_pos v ->
     exists q n q2 rr w, o_read par p m mx = Ret (q, n, slice full (v_pos v) n) /\ o_reset par q (v_pos v) = Ret (q2, rr) /\
       m <= n /\ (mx = m -> n = m) /\ v_pos v + n <= zlen full /\ R q2 w /\ v_pos w = v_pos v) as Hrr.
  { intros Hnf m mx Hm1 Hm2 Hmx Hfit. destruct (sim_read _ _ _ _ _ p v m mx HS HC) as (q & n & b & E & Hres); [cbn; unfold INT32_MIN; lia|].
    destruct Hres as [[G HR]|(_ & HF & _)]; [|contradiction].
    destruct G as (G1 & G2 & G3 & G4 & [(R1 & R2 & R3 & R4 & R5)|(R1 & R2 & R3 & R4)]); cbn [observe ob_ret ob_data ob_st next_view] in *; [|lia].
    destruct (Z.ltb_spec 0 n); [|lia].
    destruct (sim_reset _ _ _ _ _ q _ (v_pos v) HS HR) as (q2 & rr & E2 & [[H1 H2]|(_ & HF)]); [lia| |contradiction].
    cbn [next_view v_lo v_hi] in H2. destruct (Z.leb_spec (v_pos v) (v_pos v)); [|lia]. destruct (Z.leb_spec (v_pos v) (v_pos v + n)); [|lia]. cbn [andb] in H2.
    exists q, n, q2, rr; eexists. subst b. split; [exact E|]. split; [exact E2|]. split; [lia|]. split; [lia|]. split; [lia|]. split; [exact H2|reflexivity]. }
  assert (zlen (skipn (Z.to_nat (v_pos v)) full) = zlen full - v_pos v) as Zr by (apply zlen_skipn; lia).
  destruct k; cbn [z_new magic_ok] in *; unfold gz_new, bz_new; cbn [bind].
  - destruct Hm as (Hnf & Hl & t & Hr). rewrite Hr in Zr. rewrite !zlen_cons in Zr. pose proof (zlen_nonneg t).
    destruct (Hrr Hnf 2 2) as (q & n & q2 & rr & w & E1 & E2 & H1 & H2 & H3 & H4 & H5); [lia|unfold INT32_MAX; lia|lia|lia|].
    assert (n = 2) as -> by auto. unfold gz_checkMagic. rewrite HP, E1; cbn [bind]. rewrite E2; cbn [bind].
    change (negb (2 =? 2)) with false. cbn iota.
    assert (slice full (v_pos v) 2 = [31; 139]) as -> by (unfold slice; rewrite Hr; reflexivity). cbn [Z.eqb andb bind].
    change (31 =? 31) with true. change (139 =? 139) with true. cbn [andb]. apply (Hrd q2 w H4 H5).
  - apply (Hrd p v HC eq_refl).
  - apply (Hrd p v HC eq_refl).
  - destruct Hm as (Hnf & Hl & h & lv & t & Hh & Hr). rewrite Hr in Zr. rewrite !zlen_cons in Zr. pose proof (zlen_nonneg t).
    destruct (Hrr Hnf 10 0) as (q & n & q2 & rr & w & E1 & E2 & H1 & H2 & H3 & H4 & H5); [lia|unfold INT32_MAX; lia|lia|lia|].
    unfold bz_checkMagic. rewrite HP, E1; cbn [bind]. rewrite E2; cbn [bind]. destruct (Z.ltb_spec n 10); [lia|].
    rewrite slice_slice by lia. rewrite Z.add_0_r.
    assert (slice full (v_pos v) 10 = [66; 90; h; lv; 49; 65; 89; 38; 83; 89]) as -> by (unfold slice; rewrite Hr; reflexivity).
    assert (bz_checkHeader [66; 90; h; lv; 49; 65; 89; 38; 83; 89] = true) as ->.
    { unfold bz_checkHeader. destruct Hh as [-> | ->]; reflexivity. }
    cbn [bind]. apply (Hrd q2 w H4 H5).
Qed.

(** Intact input: the input stream is in front of a complete compressed stream [comp] followed by
    anything.  The decompressing stream keeps the contract of streams with exactly
    the uncompressed data as content (for every chunking of the input and every history of
    reads, skips and resets; it only fails if the input fails), and when it reports Eof the input
    is positioned exactly behind [comp] and still usable.
    [gas] only bounds the loop unrolling in the model. *)
Theorem C29_intact : forall k full fails lim p v bufsize gas comp content rest,
  codec_ok f cd DI -> Conforms par full fails lim p v -> 1 <= lim -> 1 <= bufsize <= BUF_LIM -> zlen full <= Z.of_nat gas ->
  skipn (Z.to_nat (v_pos v)) full = comp ++ rest -> fmt f comp content -> magic_ok k fails lim (comp ++ rest) ->
  exists x, z_new k cd par bufsize p gas = Ret x /\
    Conforms (z_ops (is_bz k) cd par) content fails BUF_LIM x view0 /\
    forall l x' obs, Forall (call_ok content BUF_LIM) l -> run (z_ops (is_bz k) cd par) x l = Ret (x', obs) -> bs_st x' = Eof ->
      fails \/ exists pv, Conforms par full fails lim (z_par (bs_src x')) pv /\ v_pos pv = v_pos v + zlen comp.
Proof.
  intros k full fails lim p v bufsize gas comp content rest Hcd HC Hl Hb Hg Hr Hx Hm.
  rewrite <- Hr in Hm. destruct (z_new_ok k full fails lim p v bufsize gas [] fails Hcd HC Hb Hg Hm) as (x & E & Hf & HI).
  assert (dec f (skipn (Z.to_nat (v_pos v)) full ++ []) = content) as Hd by (rewrite app_nil_r, Hr; apply (fo_dec _ (co_format _ _ _ Hcd)); exact Hx).
  assert (HS := z_SrcOK cd f DI Hcd par full fails lim _ (conforms_sim par full fails lim) Hl (v_pos v) [] fails (fun H => H)).
  assert (HV : view_ok full v) by apply HC. unfold view_ok in HV.
  assert ((forall a b x, skipn (Z.to_nat (v_pos v)) full = a ++ b -> ~ fmt f a x) -> fails) as H2 by (intros HN; exfalso; apply (HN comp rest content Hr Hx)).
  specialize (HS H2 (is_bz k)). rewrite Hd in HS, HI.
  exists x. split; [exact E|]. split.
  - exact (bs_conforms _ _ _ _ _ HS x HI).
  - intros l x' obs Hc Hrun He.
    destruct (eof_end _ _ _ _ _ HS x l x' obs (bs_init_R _ _ _ _ x HI) Hf Hc Hrun He) as (_ & _ & u & U1 & U2 & [U3|(pv & U3 & U4)]); [left; exact U3|right].
    exists pv. split; [exact U3|].
    assert (u = comp) as ->.
    { destruct U2 as (t & U2). rewrite Hr in U2. apply app_eq_app in U2 as (l2 & [(Q1 & _)|(Q1 & _)]); subst.
      - assert (l2 = []) as -> by (eapply (fo_prefix_free _ (co_format _ _ _ Hcd)); [exact U1|exact Hx]). rewrite app_nil_r. reflexivity.
      - assert (l2 = []) as -> by (eapply (fo_prefix_free _ (co_format _ _ _ Hcd)); [exact Hx|exact U1]). rewrite app_nil_r. reflexivity. }
    assert (HV2 : view_ok full pv) by apply U3. unfold view_ok in HV2.
    assert (HL := f_equal (@zlen Z) U4). rewrite zlen_app, !zlen_skipn in HL by lia. lia.
Qed.

(** Damaged input: no complete compressed stream starts at the position of the input.  Every history of calls
    still returns (no undefined behaviour, no endless loop), what is
    delivered is what can be decompressed, and no call ever reports Eof: the
    data is never passed off as complete. *)
Theorem C29_corrupt_never_complete : forall k full fails lim p v bufsize gas,
  codec_ok f cd DI -> Conforms par full fails lim p v -> 1 <= lim -> 1 <= bufsize <= BUF_LIM -> zlen full <= Z.of_nat gas ->
  (forall a b x, skipn (Z.to_nat (v_pos v)) full = a ++ b -> ~ fmt f a x) ->
  magic_ok k fails lim (skipn (Z.to_nat (v_pos v)) full) ->
  exists x, z_new k cd par bufsize p gas = Ret x /\
    forall l, Forall (call_ok (dec f (skipn (Z.to_nat (v_pos v)) full)) BUF_LIM) l ->
      exists x' obs, run (z_ops (is_bz k) cd par) x l = Ret (x', obs) /\
        accepts (dec f (skipn (Z.to_nat (v_pos v)) full)) True view0 l obs /\
        Forall (fun ob => ob_st ob <> Eof) obs.
Proof.
  intros k full fails lim p v bufsize gas Hcd HC Hl Hb Hg Hno Hm.
  destruct (z_new_ok k full fails lim p v bufsize gas [] True Hcd HC Hb Hg Hm) as (x & E & Hf & HI). exists x. split; [exact E|]. intros l Hc.
  assert (HS := z_SrcOK cd f DI Hcd par full fails lim _ (conforms_sim par full fails lim) Hl (v_pos v) [] True (fun _ => I) (fun _ => I) (is_bz k)).
  rewrite app_nil_r in HS, HI. 
  destruct (bs_conforms _ _ _ _ _ HS x HI) as (_ & _ & HR). destruct (HR l Hc) as (x' & obs & Er & Ha). exists x', obs. split; [exact Er|]. split; [exact Ha|].
  eapply (never_eof _ _ _ _ _ HS l); [|exact (bs_init_R _ _ _ _ x HI)|exact Hf|exact Hc|exact Er].
  intros s (_ & _ & u & U1 & (t & U2) & _). exact (Hno u t _ U2 U1).
Qed.
(** In particular truncated input: what is delivered is a prefix of the data, never reported complete. *)
Theorem C29_truncated_never_complete : forall k full fails lim p v bufsize gas missing content,
  codec_ok f cd DI -> Conforms par full fails lim p v -> 1 <= lim -> 1 <= bufsize <= BUF_LIM -> zlen full <= Z.of_nat gas ->
  fmt f (skipn (Z.to_nat (v_pos v)) full ++ missing) content -> missing <> [] ->
  magic_ok k fails lim (skipn (Z.to_nat (v_pos v)) full) ->
  exists x, z_new k cd par bufsize p gas = Ret x /\
    forall l, Forall (call_ok content BUF_LIM) l ->
      exists x' obs, run (z_ops (is_bz k) cd par) x l = Ret (x', obs) /\ accepts content True view0 l obs /\
        Forall (fun ob => ob_st ob <> Eof) obs.
Proof.
  intros k full fails lim p v bufsize gas missing content Hcd HC Hl Hb Hg Hx Hne Hm.
  destruct (z_new_ok k full fails lim p v bufsize gas missing True Hcd HC Hb Hg Hm) as (x & E & Hf & HI). exists x. split; [exact E|]. intros l Hc.
  assert (HS := z_SrcOK cd f DI Hcd par full fails lim _ (conforms_sim par full fails lim) Hl (v_pos v) missing True (fun _ => I) (fun _ => I) (is_bz k)).
  assert (dec f (skipn (Z.to_nat (v_pos v)) full ++ missing) = content) as Hd by (rewrite <- (app_nil_r (_ ++ missing)); apply (fo_dec _ (co_format _ _ _ Hcd)); exact Hx).
  rewrite Hd in HS, HI.
  destruct (bs_conforms _ _ _ _ _ HS x HI) as (_ & _ & HR). destruct (HR l Hc) as (x' & obs & Er & Ha). exists x', obs. split; [exact Er|]. split; [exact Ha|].
  eapply (never_eof _ _ _ _ _ HS l); [|exact (bs_init_R _ _ _ _ x HI)|exact Hf|exact Hc|exact Er].
  intros s (_ & _ & u & U1 & (t & U2) & _). rewrite U2, <- app_assoc in Hx. assert (t ++ missing = []) as Q by (eapply (fo_prefix_free _ (co_format _ _ _ Hcd)); [exact U1|exact Hx]).
  destruct missing; [congruence|]. destruct t; discriminate.
Qed.
(** Input without the magic bytes is refused by the constructor. *)
Theorem C29_wrong_magic : forall full lim p v bufsize gas,
  Conforms par full False lim p v -> 2 <= lim -> v_pos v + 2 <= zlen full -> slice full (v_pos v) 2 <> [31; 139] ->
  exists x, z_new Gzip cd par bufsize p gas = Ret x /\ bs_st x = Error.
Proof.
  intros full lim p v bufsize gas HC Hl Hfit Hne. assert (HP := sim_pos _ _ _ _ _ (conforms_sim _ _ _ _) _ _ HC). cbn [z_new]. unfold gz_new, gz_checkMagic. rewrite HP.
  assert (HV : view_ok full v) by apply HC. unfold view_ok in HV.
  destruct (sim_read _ _ _ _ _ p v 2 2 (conforms_sim _ _ _ _) HC) as (q & n & b & E & Hres); [cbn; unfold INT32_MAX, INT32_MIN; lia|]. rewrite E; cbn [bind].
  destruct Hres as [[G HR]|(_ & [] & _)].
  destruct G as (G1 & G2 & G3 & G4 & [(R1 & R2 & R3 & R4 & R5)|(R1 & R2 & R3 & R4)]); cbn [observe ob_ret ob_data ob_st next_view] in *; [|lia].
  assert (n = 2) as -> by lia.
  destruct (sim_reset _ _ _ _ _ q _ (v_pos v) (conforms_sim _ _ _ _) HR) as (q2 & rr & E2 & _); [lia|]. rewrite E2; cbn [bind]. change (negb (2 =? 2)) with false. cbn iota.
  assert (zlen b = 2) as Zb by (subst b; apply zlen_slice; lia).
  destruct b as [|b0 [|b1 [|]]]; [discriminate|discriminate| |rewrite !zlen_cons in Zb; pose proof (zlen_nonneg l); lia]. cbn [bind].
  destruct (Z.eqb_spec b0 31) as [->|]; cbn [andb]; [destruct (Z.eqb_spec b1 139) as [->|]; [congruence|]|]; eexists; split; reflexivity.
Qed.
(** bzip2: fewer than ten bytes, or not "BZh" or "BZ0", one byte and the first block mark *)
Theorem C29_wrong_magic_bzip2 : forall full lim p v bufsize gas,
  Conforms par full False lim p v -> 10 <= lim ->
  (forall c l, c = 104 \/ c = 48 -> slice full (v_pos v) 10 <> [66;90;c;l;49;65;89;38;83;89]) ->
  exists x, z_new Bzip2 cd par bufsize p gas = Ret x /\ bs_st x = Error.
Proof.
  intros full lim p v bufsize gas HC Hl Hne. assert (HP := sim_pos _ _ _ _ _ (conforms_sim _ _ _ _) _ _ HC). cbn [z_new]. unfold bz_new, bz_checkMagic. rewrite HP.
  assert (HV : view_ok full v) by apply HC. unfold view_ok in HV.
  destruct (sim_read _ _ _ _ _ p v 10 0 (conforms_sim _ _ _ _) HC) as (q & n & b & E & Hres); [cbn; unfold INT32_MAX, INT32_MIN; lia|]. rewrite E; cbn [bind].
  destruct Hres as [[G HR]|(_ & [] & _)].
  destruct (sim_reset _ _ _ _ _ q _ (v_pos v) (conforms_sim _ _ _ _) HR) as (q2 & rr & E2 & _); [destruct G as (_ & _ & _ & _ & [(_ & R & _)|(_ & R & _)]); cbn [observe ob_ret ob_data next_view v_lo v_pos] in *; lia|]. rewrite E2; cbn [bind].
  destruct (Z.ltb_spec n 10) as [Hn|Hn]; cbn [bind]; [eexists; split; reflexivity|].
  destruct (bz_checkHeader (slice b 0 10)) eqn:Eb; [|eexists; split; reflexivity]. exfalso.
  destruct G as (G1 & G2 & G3 & G4 & [(R1 & R2 & R3 & R4 & R5)|(R1 & R2 & R3 & R4)]); cbn [observe ob_ret ob_data ob_st next_view] in *; [|lia].
  assert (slice b 0 10 = slice full (v_pos v) 10) as Es by (subst b; rewrite slice_slice by lia; f_equal; lia).
  rewrite Es in Eb. unfold bz_checkHeader in Eb.
  assert (zlen (slice full (v_pos v) 10) = 10) as Zs by (apply zlen_slice; lia).
  destruct (slice full (v_pos v) 10) as [|a [|b1 [|c [|l [|e0 [|e1 [|e2 [|e3 [|e4 [|e5 [|]]]]]]]]]]] eqn:El; try discriminate;
    [|rewrite !zlen_cons in Zs; match goal with H : context [zlen ?t] |- _ => pose proof (zlen_nonneg t); lia end].
  repeat match goal with H : _ && _ = true |- _ => apply andb_true_iff in H; destruct H end.
  repeat match goal with H : (_ =? _) = true |- _ => apply Z.eqb_eq in H; subst end.
  match goal with H : (c =? 104) || (c =? 48) = true |- _ => apply orb_true_iff in H; rewrite !Z.eqb_eq in H; apply (Hne c l H) end. reflexivity.
Qed.
End C29.

(** a bzip2 header without its last byte, and one with a wrong block mark *)
Example C29_wrong_magic_bzip2_case : forall D (cd : codec D), Forall (fun l =>
  Conforms ss_ops l False INT32_MAX (mkSS l (zlen l) 0 Ok) view0 /\ (forall c b, slice l 0 10 <> [66;90;c;b;49;65;89;38;83;89]) /\
  exists x, z_new Bzip2 cd ss_ops 262144 (mkSS l (zlen l) 0 Ok) 100 = Ret x /\ bs_st x = Error)
  [[66;90;104;57;49;65;89;38;83]; [66;90;104;57;49;65;89;38;83;88;1;2]].
Proof.
  intros D cd. repeat constructor; try (intros; discriminate); try (eexists; split; reflexivity);
    apply ss_conforms; vm_compute; discriminate.
Qed.

(** ** The assumptions are satisfiable: a library for the format "a length byte below 200, then that many bytes" *)
Definition toy_fmt (c x : list Z) : Prop := exists n, c = n :: x /\ zlen x = n /\ n < 200.
Definition toy_dec (r : list Z) : list Z := match r with [] => [] | n :: r => if (0 <=? n) && (n <? 200) then firstn (Z.to_nat n) r else [] end.
Definition toy_format : format := mkFormat toy_fmt toy_dec.
Inductive toy := TStart | TRest (n : Z) | TBad.
Definition toy_copy (n : Z) (w : list Z) (space : Z) : toy * Z * list Z * code :=
  let m := Z.min n (Z.min space (zlen w)) in
  (TRest (n - m), m, slice w 0 m, if n - m =? 0 then End else More).
Definition toy_step (d : toy) (w : list Z) (space : Z) : toy * Z * list Z * code :=
  match d with
  | TBad => (TBad, 0, [], Bad)
  | TRest n => toy_copy n w space
  | TStart => match w with
              | [] => (TStart, 0, [], More)
              | n :: w => if (0 <=? n) && (n <? 200) then let '(d, k, y, r) := toy_copy n w space in (d, k + 1, y, r) else (TBad, 0, [], Bad)
              end
  end.
Definition toy_codec : codec toy := mkCodec _ TStart toy_step.
Definition toy_DI (d : toy) (u o : list Z) : Prop :=
  match d with
  | TStart => u = [] /\ o = []
  | TRest m => exists n, u = n :: o /\ 0 <= n < 200 /\ m = n - zlen o /\ 0 < m
  | TBad => False
  end.
Lemma toy_copy_ok n o w space d k y r : 0 <= n < 200 -> zlen o <= n -> 1 <= space -> toy_copy (n - zlen o) w space = (d, k, y, r) ->
  0 <= k <= zlen w /\ y = firstn (Z.to_nat k) w /\ zlen y = k /\ k <= space /\ zlen (o ++ y) <= n /\
  ((r = End /\ zlen (o ++ y) = n) \/ (r = More /\ d = TRest (n - zlen (o ++ y)) /\ zlen (o ++ y) < n /\ (k = space \/ k = zlen w))).
Proof.
  intros Hn Ho Hs E. unfold toy_copy in E. injection E as <- <- <- <-. set (m := Z.min (n - zlen o) (Z.min space (zlen w))).
  pose proof (zlen_nonneg w). assert (0 <= m <= zlen w) as Hm by (unfold m; lia).
  rewrite zlen_app. assert (zlen (slice w 0 m) = m) as -> by (apply zlen_slice; lia).
  split; [lia|]. split; [reflexivity|]. split; [reflexivity|]. split; [unfold m; lia|]. split; [unfold m; lia|].
  destruct (Z.eqb_spec (n - zlen o - m) 0); [left|right]; (split; [reflexivity|]); [lia|]. split; [f_equal; lia|]. split; [lia|]. unfold m in *. lia.
Qed.
Lemma toy_prefix n o y t : 0 <= n < 200 -> zlen (o ++ y) <= n -> prefix (o ++ y) (toy_dec (n :: o ++ y ++ t)).
Proof.
  intros Hn Hl. cbn [toy_dec]. destruct (Z.leb_spec 0 n); [|lia]. destruct (Z.ltb_spec n 200); [|lia]. cbn [andb]. rewrite app_assoc.
  exists (firstn (Z.to_nat n - length (o ++ y)) t). rewrite firstn_app, firstn_all2 by (unfold zlen in Hl; lia). reflexivity.
Qed.
Lemma toy_ok : codec_ok toy_format toy_codec toy_DI.
Proof.
  split.
  - split.
    + intros x (n & E & _). discriminate.
    + intros a t x y (n & -> & H1 & H2) (m & E & H3 & H4). cbn [app] in E. injection E as <- <-. rewrite zlen_app in H3. apply zlen_0_nil. lia.
    + intros a t x (n & -> & H1 & H2). cbn [dec toy_format toy_dec app]. pose proof (zlen_nonneg x). destruct (Z.leb_spec 0 n); [|lia]. destruct (Z.ltb_spec n 200); [|lia]. cbn [andb].
      rewrite firstn_app, firstn_all2 by (unfold zlen in H1; lia). replace (Z.to_nat n - length x)%nat with 0%nat by (unfold zlen in H1; lia). cbn [firstn]. apply app_nil_r.
  - split; reflexivity.
  - intros d u o HD a b x Hu Hb (n & -> & H1 & H2). destruct d; cbn [toy_DI] in HD; [destruct HD; subst; discriminate| |contradiction].
    destruct HD as (m & -> & H3 & H4 & H5). cbn [app] in Hu. injection Hu as <- ->. destruct b; [congruence|]. rewrite zlen_app, zlen_cons in H4. pose proof (zlen_nonneg b). lia.
  - intros d u o w space d' k y r HD Hs E. cbn [c_step toy_codec] in E.
    assert (forall n u' w', 0 <= n < 200 -> zlen u' <= n -> forall k0 y0, y0 = firstn (Z.to_nat k0) w' -> zlen (u' ++ y0) <= n -> forall t, prefix (u' ++ y0) (dec toy_format ((n :: u') ++ w' ++ t))) as HP.
    { intros n u' w' Hn Hu k0 y0 -> Hl t. cbn [dec toy_format app]. rewrite (firstn_skipn_z w' k0) at 2. rewrite <- (app_assoc (firstn _ _)). apply toy_prefix; assumption. }
    destruct d; cbn [toy_DI toy_step] in *; [| |contradiction].
    + destruct HD as (-> & ->). destruct w as [|n w].
      * injection E as <- <- <- <-. change (zlen (@nil Z)) with 0. cbn [app firstn toy_DI fmt toy_format dec]. split; [lia|]. split; [lia|]. split; [intros t; exists (toy_dec t); reflexivity|]. split; [split; reflexivity|]. right. split; [reflexivity|]. intros x (n & E & _). discriminate.
      * destruct ((0 <=? n) && (n <? 200)) eqn:En.
        -- apply andb_true_iff in En as (E1 & E2). apply Z.leb_le in E1. apply Z.ltb_lt in E2.
           destruct (toy_copy n w space) as [[[d1 k1] y1] r1] eqn:Ec. injection E as <- <- <- <-.
           replace n with (n - zlen (@nil Z)) in Ec by (change (zlen (@nil Z)) with 0; lia).
           destruct (toy_copy_ok n [] w space _ _ _ _ ltac:(lia) ltac:(change (zlen (@nil Z)) with 0; lia) Hs Ec) as (C1 & C2 & C3 & C4 & C5 & C6). cbn [app] in *.
           rewrite zlen_cons. split; [lia|]. split; [lia|]. split; [apply (HP n [] w ltac:(lia) ltac:(change (zlen (@nil Z)) with 0; lia) k1 y1 C2 C5)|].
           replace (Z.to_nat (k1 + 1)) with (S (Z.to_nat k1)) by lia. cbn [firstn]. rewrite <- C2.
           destruct C6 as [(-> & C6)|(-> & -> & C6 & C7)].
           ++ exists n. cbn [fmt toy_format]. split; [reflexivity|]. split; [exact C6|lia].
           ++ split; [exists n; split; [reflexivity|]; split; [lia|]; split; [reflexivity|lia]|].
              destruct C7 as [C7|C7]; [left; lia|right]. split; [lia|]. intros x (m & Em & M1 & M2). injection Em as <- <-. lia.
        -- injection E as <- <- <- <-. cbn [app]. pose proof (zlen_nonneg (n :: w)). split; [lia|]. split; [change (zlen (@nil Z)) with 0; lia|]. split; [intros t; eexists; reflexivity|].
           split; [|intros; exists TBad, 0; reflexivity]. intros t a b x Hab (m & -> & M1 & M2). cbn [app] in Hab. injection Hab as <- _. pose proof (zlen_nonneg x).
           destruct (Z.leb_spec 0 n), (Z.ltb_spec n 200); try lia; discriminate.
    + destruct HD as (m & -> & H3 & -> & H5).
      destruct (toy_copy_ok m o w space _ _ _ _ H3 ltac:(lia) Hs E) as (C1 & C2 & C3 & C4 & C5 & C6).
      split; [lia|]. split; [lia|]. split; [apply (HP m o w ltac:(lia) ltac:(lia) k y C2 C5)|]. rewrite <- C2.
      destruct C6 as [(-> & C6)|(-> & -> & C6 & C7)].
      * exists m. split; [reflexivity|]. split; [exact C6|lia].
      * split; [exists m; split; [reflexivity|]; split; [lia|]; split; [reflexivity|lia]|].
        destruct C7 as [C7|C7]; [left; lia|right]. split; [lia|]. intros x (q & Em & M1 & M2). cbn [app] in Em. injection Em as <- <-. rewrite zlen_app in *. lia.
Qed.

(** a stream "5 bytes, then something else" in the middle of another stream *)
Definition toy_input : list Z := [9;9;5;11;12;13;14;15;77;78].
Example C29_case : fmt toy_format [5;11;12;13;14;15] [11;12;13;14;15] /\
  skipn (Z.to_nat 2) toy_input = [5;11;12;13;14;15] ++ [77;78] /\
  exists x x', z_new Zip toy_codec ss_ops 3 (mkSS toy_input 10 2 Ok) 10 = Ret x /\
    run (z_ops false toy_codec ss_ops) x [Read 2 2; Read 9 0] = Ret (x', [mkObs 2 [11;12] 2 (-1) Ok; mkObs 3 [13;14;15] 5 5 Eof]) /\
    ss_pos (z_par (bs_src x')) = 8.
Proof.
  split; [exists 5; repeat split; lia|]. split; [reflexivity|]. do 2 eexists. split; [vm_compute; reflexivity|]. split; [vm_compute; reflexivity|vm_compute; reflexivity].
Qed.
(** ... and truncated, and corrupt *)
Example C29_case_bad : (exists x x', z_new Zip toy_codec ss_ops 3 (mkSS [5;11;12] 3 0 Ok) 3 = Ret x /\
    run (z_ops false toy_codec ss_ops) x [Read 1 1; Read 1 1; Read 1 1] = Ret (x', [mkObs 1 [11] 1 (-1) Ok; mkObs 1 [12] 2 (-1) Ok; mkObs (-2) [] 2 (-1) Error])) /\
  (exists x x', z_new Zip toy_codec ss_ops 3 (mkSS [205;11;12] 3 0 Ok) 3 = Ret x /\
    run (z_ops false toy_codec ss_ops) x [Read 1 1] = Ret (x', [mkObs (-2) [] 0 (-1) Error])).
Proof. split; do 2 eexists; (split; [vm_compute; reflexivity|vm_compute; reflexivity]). Qed.
