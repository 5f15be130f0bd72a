(** C47: the compressing stream.  DeflateSpec.v says what is assumed of zlib, StreamSpec.v is the
    contract of a stream. *)
From Verif Require Import Base StreamSpec P_Stream M_StringStream P_StringStream M_Buffered BufferedSpec P_Buffered M_Inflate InflateSpec P_Inflate T_Inflate M_Deflate DeflateSpec P_Deflate.

Definition q_ops {D P} (cp : compressor D) (par : ops P Z) : ops (bstream (qstate D P) Z) Z := bs_ops (q_src cp par).

Section C47.
Context {D P : Type}.
Variables (cp : compressor D) (comp : list Z -> list Z) (EI : D -> list Z -> list Z -> bool -> Prop) (par : ops P Z).

(** The input stream stands at any position [v_pos v] of its content.  The compressing stream keeps the
    contract of streams with exactly the compressed form of the remaining input as content, for
    every chunking of the input and every history of reads, skips and resets; it fails only if the input
    fails, and it reports Eof only when the input has been read to its end.
    [gas] only bounds the loop unrolling in the model. *)
Theorem C47_compressed : forall full fails lim p v gas,
  compressor_ok comp cp EI -> Conforms par full fails lim p v -> 1 <= lim -> zlen full <= Z.of_nat gas ->
  Conforms (q_ops cp par) (comp (skipn (Z.to_nat (v_pos v)) full)) fails BUF_LIM (q_new cp p gas) view0 /\
  forall l x' obs, Forall (call_ok (comp (skipn (Z.to_nat (v_pos v)) full)) BUF_LIM) l -> run (q_ops cp par) (q_new cp p gas) l = Ret (x', obs) -> bs_st x' = Eof ->
    exists pv, Conforms par full fails lim (q_par (bs_src x')) pv /\ v_pos pv = zlen full.
Proof.
  intros full fails lim p v gas Hcp HC Hl Hg.
  assert (HS := q_SrcOK cp comp EI Hcp par full fails lim _ (conforms_sim par full fails lim) Hl (v_pos v)).
  assert (HV : view_ok full v) by apply HC. unfold view_ok in HV.
  assert (bs_init_ok (comp (skipn (Z.to_nat (v_pos v)) full)) fails (q_SR comp EI full (Conforms par full fails lim) (v_pos v)) (q_new cp p gas) /\ fin_inv (q_new cp p gas)) as (HI & Hf).
  { destruct (ce_init _ _ _ Hcp) as (d & Ed & H0). unfold q_new. rewrite Ed. split; [|unfold fin_inv; cbn; congruence].
    unfold bs_init_ok, bs_new, buf0, b_size, BUF_LIM; cbn [bs_buf bs_fin bs_src bs_pos bs_st bs_size b_off b_avail b_mem]. change (zlen (@nil (option Z))) with 0.
    split; [reflexivity|]. split; [reflexivity|]. split; [lia|]. split; [reflexivity|]. split; [|split; [reflexivity|split; [reflexivity|right; left; reflexivity]]].
    left. split; [reflexivity|]. exists d, [], [], false, v. cbn [q_dec q_par q_win q_gas app].
    split; [reflexivity|]. split; [exact HC|]. split; [exact H0|]. split; [discriminate|]. split; [reflexivity|]. split; [eexists; reflexivity|]. split; [reflexivity|lia]. }
  split; [exact (bs_conforms _ _ _ _ _ HS _ HI)|].
  intros l x' obs Hc Hrun He.
  destruct (eof_end _ _ _ _ _ HS _ l x' obs (bs_init_R _ _ _ _ _ HI) Hf Hc Hrun He) as (_ & pv & H1 & H2). exists pv; split; assumption.
Qed.

(** Round trip: a decompressing stream reading from the compressing stream keeps the contract with the
    original bytes as content, when the two libraries agree ([fmt f (comp x) x]). *)
Theorem C47_roundtrip : forall D2 (cd : codec D2) f DI full fails lim p v gas bufsize gas2,
  compressor_ok comp cp EI -> codec_ok f cd DI -> Conforms par full fails lim p v -> 1 <= lim ->
  let x := skipn (Z.to_nat (v_pos v)) full in
  fmt f (comp x) x ->
  zlen full <= Z.of_nat gas -> zlen (comp x) <= Z.of_nat gas2 -> 1 <= bufsize <= BUF_LIM ->
  exists z, z_new Zlib cd (q_ops cp par) bufsize (q_new cp p gas) gas2 = Ret z /\
    Conforms (z_ops false cd (q_ops cp par)) x fails BUF_LIM z view0.
Proof.
  intros D2 cd f DI full fails lim p v gas bufsize gas2 Hcp Hcd HC Hl x Hx Hg Hg2 Hb.
  destruct (C47_compressed full fails lim p v gas Hcp HC Hl Hg) as (HQ & _). fold x in HQ.
  destruct (C29_intact cd f DI (q_ops cp par) Zlib (comp x) fails BUF_LIM (q_new cp p gas) view0 bufsize gas2 (comp x) x []) as (z & E & HZ & _); try assumption.
  - unfold BUF_LIM; lia.
  - cbn [view0 v_pos]. change (Z.to_nat 0) with 0%nat. cbn [skipn]. symmetry; apply app_nil_r.
  - exact Logic.I.
  - exists z. split; [exact E|exact HZ].
Qed.
(** A library that cannot be set up is reported by the constructor. *)
Theorem C47_init_fails : forall (p : P) gas, e_init cp = None -> bs_st (q_new cp p gas) = Error.
Proof. intros p gas H. unfold q_new. rewrite H. reflexivity. Qed.
End C47.

(** ** The assumptions are satisfiable: collect everything, then write the length and the bytes *)
Definition toyc_comp (x : list Z) : list Z := zlen x :: x.
Definition toyc_step (d : list Z * nat) (w : list Z) (finish : bool) (space : Z) : (list Z * nat) * Z * list Z * ecode :=
  let '(u, m) := d in
  if finish then
    let rest := skipn m (toyc_comp u) in
    if zlen rest <=? space then ((u, m), 0, rest, EEnd)
    else ((u, (m + Z.to_nat space)%nat), 0, firstn (Z.to_nat space) rest, EOk)
  else ((u ++ w, m), zlen w, [], EOk).
Definition toyc : compressor (list Z * nat) := mkCompressor _ (Some ([], 0%nat)) toyc_step.
Definition toyc_EI (d : list Z * nat) (u o : list Z) (fin : bool) : Prop :=
  fst d = u /\ o = firstn (snd d) (toyc_comp u) /\ (fin = false -> snd d = 0%nat).
Lemma toyc_ok : compressor_ok toyc_comp toyc toyc_EI.
Proof.
  split.
  - exists ([], 0%nat). split; [reflexivity|]. split; [reflexivity|]. split; reflexivity.
  - intros [u' m] u o w space d' k y r (H1 & H2 & H3) Hw Hsp E. cbn [fst snd] in *. specialize (H3 eq_refl). subst u' m. cbn [firstn] in H2. subst o.
    unfold e_step, toyc, toyc_step in E. injection E as <- <- <- <-. pose proof (zlen_nonneg w).
    split; [reflexivity|]. split; [lia|]. split; [change (zlen (@nil Z)) with 0; lia|]. split; [left; reflexivity|]. split.
    + split; [cbn [fst]; unfold zlen; rewrite Nat2Z.id, firstn_all; reflexivity|]. split; reflexivity.
    + intros t. eexists; reflexivity.
  - intros [u' m] u o fin space d' k y r (H1 & H2 & H3) Hsp E. cbn [fst snd] in *. subst u'.
    unfold e_step, toyc, toyc_step in E. destruct (Z.leb_spec (zlen (skipn m (toyc_comp u))) space) as [Hle|Hgt]; injection E as <- <- <- <-.
    + split; [exact Hle|]. left. split; [reflexivity|]. subst o. apply firstn_skipn.
    + assert (zlen (firstn (Z.to_nat space) (skipn m (toyc_comp u))) = space) as Zf by (unfold zlen in *; rewrite firstn_length; lia).
      split; [lia|]. right. split; [reflexivity|]. split; [exact Zf|].
      assert (o ++ firstn (Z.to_nat space) (skipn m (toyc_comp u)) = firstn (m + Z.to_nat space) (toyc_comp u)) as Eo.
      { subst o. rewrite <- (firstn_skipn m (toyc_comp u)) at 3. rewrite firstn_app.
        assert (length (firstn m (toyc_comp u)) = m) as Lm by (rewrite firstn_length; unfold zlen in Hgt; rewrite skipn_length in Hgt; lia).
        rewrite (firstn_all2 (firstn m _)) by lia. rewrite Lm. replace (m + Z.to_nat space - m)%nat with (Z.to_nat space) by lia. reflexivity. }
      split; [split; [reflexivity|split; [exact Eo|discriminate]]|]. rewrite Eo. exists (skipn (m + Z.to_nat space) (toyc_comp u)). symmetry; apply firstn_skipn.
Qed.

(** compressing the rest of a stream, and decompressing that again *)
Definition toyc_input : list Z := [9;9;11;12;13;14;15].
Example C47_case :
  fmt toy_format (toyc_comp [11;12;13;14;15]) [11;12;13;14;15] /\
  (exists x', run (q_ops toyc ss_ops) (q_new toyc (mkSS toyc_input 7 2 Ok) 7) [Read 2 2; Read 9 0] = Ret (x', [mkObs 2 [5;11] 2 (-1) Ok; mkObs 4 [12;13;14;15] 6 6 Eof])) /\
  exists z z', z_new Zlib toy_codec (q_ops toyc ss_ops) 3 (q_new toyc (mkSS toyc_input 7 2 Ok) 7) 7 = Ret z /\
    run (z_ops false toy_codec (q_ops toyc ss_ops)) z [Read 2 2; Read 9 0] = Ret (z', [mkObs 2 [11;12] 2 (-1) Ok; mkObs 3 [13;14;15] 5 5 Eof]).
Proof.
  split; [exists 5; split; [reflexivity|split; [reflexivity|lia]]|]. split; [eexists; vm_compute; reflexivity|].
  do 2 eexists. split; [vm_compute; reflexivity|vm_compute; reflexivity].
Qed.

(** Full statement, false of the code: "when the library reports an error, so does the stream".  If
    the call that finishes the compressed data returns an error code, fillBuffer only says "no more data"
    (gzipcompressstream.cpp:105-112): the caller sees a normal end after truncated data. *)
Definition broken_step (d : unit) (w : list Z) (finish : bool) (space : Z) : unit * Z * list Z * ecode :=
  if finish then (tt, 0, [], EOther) else let m := Z.min space (zlen w) in (tt, m, slice w 0 m, EOk).
Theorem C47_finish_error_refuted :
  ~ forall D P (cp : compressor D) (par : ops P Z) p gas l x' obs,
      run (q_ops cp par) (q_new cp p gas) l = Ret (x', obs) ->
      (forall d sp, exists d' k y, e_step cp d [] true sp = (d', k, y, EOther)) ->
      Forall (fun ob => ob_st ob <> Eof) obs.
Proof.
  intros H. set (cp := mkCompressor unit (Some tt) broken_step).
  specialize (H unit (sstream Z) cp ss_ops (mkSS [7;8] 2 0 Ok) 2%nat [Read 2 2; Read 1 1]).
  destruct (run (q_ops cp ss_ops) (q_new cp (mkSS [7;8] 2 0 Ok) 2) [Read 2 2; Read 1 1]) as [[x' obs]| | |] eqn:E; [|vm_compute in E; discriminate..].
  specialize (H x' obs eq_refl). vm_compute in E. injection E as _ <-.
  assert (HF := H (fun d sp => ex_intro _ tt (ex_intro _ 0 (ex_intro _ [] eq_refl)))).
  inversion HF as [|a b Ha Hb]. inversion Hb as [|a2 b2 Ha2 Hb2]. cbn in *. congruence.
Qed.
